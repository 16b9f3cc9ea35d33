(** A module with a login, one live stream, and the turns of its loop. *)
From Coq Require Import ZArith List Bool Lia.
From Verif Require Import Base BaseFacts Teleinfo Publish Config ConfigSpec ConfigProofs ConfigMain ConfigSamples Json
  Tic TicSpec Pages PagesSamples Sse Cpu CpuSpec Web Wifi Device WebSpec DeviceProofs ScreenSpec Samples TicSamples WebSamples ChainSamples SystemSpec.
Import ListNotations.
Open Scope Z_scope.

Lemma cfg_login_wf : wf cfg_login.
Proof. apply wfb_spec; vm_compute; reflexivity. Qed.
Definition start4 : start := mk_start ConfigSamples.chip1 zeroed (image (sealed cfg_login)) Stored Stored Stored (fun _ => 3) [] [] 0 blank blank.
Lemma start4_ok : start_ok start4.
Proof.
  split; [cbn; unfold ConfigSamples.chip1; lia|]. split; [apply zeroed_wf|]. split; [exact (image_flash_ok _ (sealed_wf _ cfg_login_wf))|].
  split; [constructor|]. split; [constructor|]. split; reflexivity.
Qed.
Definition dev_known (v : list Z) (ee : eeprom) : device :=
  mk_dev (mk_cs (secured (set Crc v cfg_login)) ee) (pub_init blank blank) ns_init (tic_make_timers 0 (secured (set Crc v cfg_login)) timers_init) sse_init
    (perf_init 0) false.
Lemma no_ssid4 : forall v, text Ssid (secured (set Crc v cfg_login)) = [].
Proof. intros v. vm_compute. reflexivity. Qed.
Lemma boot4 : exists v ee, boot start4 = Some (dev_known v ee, [StationMode; AutoReconnect]).
Proof.
  exists (le16 (crc_of (firstn (CFG_SIZE - 2) (image cfg_login)))), (ee_begin (image (sealed cfg_login))).
  exact (sealed_boot cfg_login cfg_login_wf (no_ssid4 (le16 (crc_of (firstn (CFG_SIZE - 2) (image cfg_login)))))).
Qed.

(** Two streams are opened and the second one is lost, while the loop turns twice in a second. *)
Definition turns4 : list Z := map (fun i => 500 * Z.of_nat i) (seq 1 30).
Definition story4 : list devent :=
  [DHttp (at_ms 100) (ask_in "/sse/json"); DHttp (at_ms 200) (ask_in "/sse/json"); DHttp (at_ms 300) (ask_in "/sse/json")] ++
  map (fun n => DTurn (at_ms n)) turns4 ++ [DPoll (fun id => Nat.eqb id 0)].
Lemma turns4_ok : turn_times story4 = times 0 turns4 /\ spaced 1000 0 turns4 /\ counted 0 (firings 1000 0 turns4) = repeat 2 15.
Proof. split; [vm_compute; reflexivity|]. split; [cbn; lia|vm_compute; reflexivity]. Qed.
Definition seen4 (d : device) (os : list (list out)) := (text Username (cfg_of d), text Password (cfg_of d), text Ssid (cfg_of d), streamed (concat os)).
Lemma run4 : forall v ee, result seen4 (drun 256 true story4 (dev_known v ee)) = Some (str "me", str "pw", [], [Opened 0; Opened 1; Closed 1]).
Proof. intros v ee. vm_compute. reflexivity. Qed.
Lemma open4 : forall o, streamed o = [Opened 0; Opened 1; Closed 1] -> forall id, is_open id o <-> id = 0%nat.
Proof.
  intros o H id. assert (X : forall e, In (Streaming e) o <-> In e (streamed o)).
  { intros e. unfold streamed. rewrite in_flat_map. split; [intros I; exists (Streaming e); split; [exact I|left; reflexivity]|].
    intros (x & I & J). destruct x; cbn in J; try tauto. destruct J as [->|[]]. exact I. }
  unfold is_open. rewrite !X, H. cbn. split.
  - intros ([A|[A|[A|[]]]] & N); try congruence. exfalso. apply N. assert (id = 1%nat) by congruence. subst. right. right. left. reflexivity.
  - intros ->. split; [auto|]. intros [A|[A|[A|[]]]]; congruence.
Qed.
Lemma one4 : forall o n, streamed o = [Opened 0; Opened 1; Closed 1] -> live_streams o n -> n = 1.
Proof.
  intros o n H (ids & N & I & ->). assert (E : ids = [0%nat]).
  { assert (Z0 : In 0%nat ids) by (apply I, (open4 o H); reflexivity). destruct ids as [|x [|y r]]; [destruct Z0|destruct Z0 as [->|[]]; reflexivity|].
    assert (x = 0%nat) by (apply (open4 o H), I; left; reflexivity). assert (y = 0%nat) by (apply (open4 o H), I; right; left; reflexivity).
    subst. inversion N as [|? ? U _]. exfalso. apply U. left. reflexivity. }
  rewrite E. reflexivity.
Qed.
Lemma info1_ok : info_ok info1.
Proof.
  split; [repeat (apply Forall_cons; [vm_compute; reflexivity|]); apply Forall_nil|].
  split; [repeat (apply Forall_cons; [cbn; lia|]); apply Forall_nil|]. cbn; lia.
Qed.
Lemma same_length : forall A B (P : A -> B -> Prop) l m, Forall2 P l m -> length m = length l.
Proof. intros A B P l m H. induction H; cbn; congruence. Qed.
