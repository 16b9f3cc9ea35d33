(** A module whose pages are watched: two frames, an open stream. *)
From Coq Require Import ZArith List Bool Lia.
From Verif Require Import Base BaseFacts Teleinfo TeleinfoSpec Publish HistorySpec Config ConfigSpec ConfigProofs ConfigMain ConfigHist ConfigSamples Json
  Tic TicSpec Sse SseSpec Cpu Web Wifi Device WebSpec WebProofs DeviceProofs Dash DashSpec ChainSpec ChainProofs ChainMain Samples SamplesFacts TicSamples WebSamples
  ChainSamples ScreenSpec.
Import ListNotations.
Open Scope Z_scope.

(** The services of cfg0, and a message on the streams at each frame. *)
Definition cfg_live : cfg := set SseFreq (le16 0) cfg0.
Lemma cfg_live_wf : wf cfg_live.
Proof. apply wfb_spec; vm_compute; reflexivity. Qed.
Definition start2 : start := mk_start ConfigSamples.chip1 zeroed (image (sealed cfg_live)) Stored Stored Stored (fun _ => 3) [] [] 0 blank blank.
Lemma start2_ok : start_ok start2.
Proof.
  split; [cbn; unfold ConfigSamples.chip1; lia|]. split; [apply zeroed_wf|]. split; [exact (image_flash_ok _ (sealed_wf _ cfg_live_wf))|].
  split; [constructor|]. split; [constructor|]. split; reflexivity.
Qed.
Definition dev_live (v : list Z) (ee : eeprom) : device :=
  mk_dev (mk_cs (secured (set Crc v cfg_live)) ee) (pub_init blank blank) ns_init (tic_make_timers 0 (secured (set Crc v cfg_live)) timers_init) sse_init
    (perf_init 0) false.
Lemma no_ssid2 : forall v, text Ssid (secured (set Crc v cfg_live)) = [].
Proof. intros v. vm_compute. reflexivity. Qed.
Lemma boot2 : exists v ee, boot start2 = Some (dev_live v ee, [StationMode; AutoReconnect]).
Proof.
  exists (le16 (crc_of (firstn (CFG_SIZE - 2) (image cfg_live)))), (ee_begin (image (sealed cfg_live))).
  exact (sealed_boot cfg_live cfg_live_wf (no_ssid2 (le16 (crc_of (firstn (CFG_SIZE - 2) (image cfg_live)))))).
Qed.

Definition groups_1 : list group := [(str "ISOUSC", str "30"); (str "HCHC", str "052890470"); (str "HCHP", str "049126843"); (str "PTEC", str "HP.."); (str "IINST", str "012"); (str "PAPP", str "02890")].
Definition groups_2 : list group := [(str "ISOUSC", str "30"); (str "HCHC", str "052890473"); (str "HCHP", str "049126843"); (str "PTEC", str "HC.."); (str "IINST", str "025"); (str "PAPP", str "05610")].
Definition kept_2 : list group := [(str "ISOUSC", str "30"); (str "HCHC", str "052890473"); (str "HCHP", str "049126843"); (str "PTEC", str "HC"); (str "IINST", str "025"); (str "PAPP", str "05610")].
Definition up2 : nat -> bool := fun id => Nat.eqb id 0.
Definition bytes_up (n : Z) (l : list Z) : list devent := map (fun c => DByte (at_ms n) up2 now0 c) l.
Definition table_query : hreq := ask "/tinfo.json".
(** Two streams are opened; a frame, the table, another frame but its last byte. *)
Definition story2 : list devent :=
  [DHttp (at_ms 100) (ask "/sse/json"); DHttp (at_ms 200) (ask "/sse/json")] ++
  bytes_up 1000 (frame_of groups_1) ++ [DHttp (at_ms 2000) table_query].
Definition before_end : list devent := story2 ++ bytes_at 3000 (2 :: concat (map enc_body (map (enc_group 32) groups_2))).
Definition last_byte : devent := DByte (at_ms 3000) up2 now0 3.
Definition full2 : list devent := before_end ++ [last_byte].
Definition marks2 : list bool := map (fun e => match e with DHttp _ q => beq (q_uri q) (str "/tinfo.json") | _ => false end) full2.
Definition run2 (es : list devent) (v : list Z) (ee : eeprom) :=
  result (fun d os => (text Username (cfg_of d), s_sse_freq (view (cfg_of d)), existsb (fun o => match o with RestartNow => true | _ => false end) (concat os),
    streamed (concat (removelast os)))) (drun 256 true es (dev_live v ee)).
Lemma not_restarted : forall o, existsb (fun o => match o with RestartNow => true | _ => false end) o = false -> ~ In RestartNow o.
Proof.
  intros o H I. assert (Y : existsb (fun o => match o with RestartNow => true | _ => false end) o = true).
  { apply existsb_exists. exists RestartNow. split; [exact I|reflexivity]. } congruence.
Qed.
Lemma open_login : forall q d, text Username (cfg_of d) = [] -> ~ refused q d.
Proof. intros q d H (N & _). contradiction. Qed.
Lemma ends2 : ends_frame before_end last_byte (at_ms 3000) now0 kept_2.
Proof.
  exists up2, now0, 3, (map (enc_group 32) groups_2). split; [reflexivity|]. split; [vm_compute; reflexivity|]. split; [|split].
  - exists (heard false story2), (map (fun c => (now0, c)) (concat (map enc_body (map (enc_group 32) groups_2)) ++ [3])). split; vm_compute; reflexivity.
  - apply valid_frameb_spec. vm_compute. reflexivity.
  - vm_compute. reflexivity.
Qed.
Lemma heard2 : Forall is_byte (map snd (heard false (before_end ++ [last_byte]))).
Proof. apply bytesb_spec. vm_compute. reflexivity. Qed.

(** The module of ChainSamples: a message every 10 s. A stream is opened, a frame ends at 1 s, another at 11 s. *)
Definition opening3 : list devent := [DHttp (at_ms 100) (ask "/sse/json")].
Definition until3 : list devent := opening3 ++ bytes_at 1000 (frame_of groups_a).
Definition almost3 : list devent := until3 ++ bytes_at 11000 (2 :: concat (map enc_body (map (enc_group 32) groups_b))).
Definition end3 : devent := DByte (at_ms 11000) (fun _ => true) now0 3.
Definition kept_b : list group := [(str "PTEC", str "HC"); (str "ADPS", str "031"); (str "PAPP", str "05600")].
Lemma heard3 : Forall is_byte (map snd (heard false (almost3 ++ [end3]))).
Proof. apply bytesb_spec. vm_compute. reflexivity. Qed.
Lemma env3 : Forall (same_env env0) almost3.
Proof. unfold almost3, until3, opening3, bytes_at. rewrite !Forall_app, !Forall_map. repeat split; repeat constructor; apply Forall_forall; intros; reflexivity. Qed.
Lemma no_form3 : Forall no_form almost3.
Proof.
  unfold almost3, until3, opening3, bytes_at. rewrite !Forall_app, !Forall_map. repeat split; repeat constructor; try (apply Forall_forall; intros; exact Logic.I).
  intros H. discriminate H.
Qed.
Lemma ends3 : ends_frame almost3 end3 (at_ms 11000) now0 kept_b.
Proof.
  exists (fun _ => true), now0, 3, (map (enc_group 32) groups_b). split; [reflexivity|]. split; [vm_compute; reflexivity|]. split; [|split].
  - exists (heard false until3), (map (fun c => (now0, c)) (concat (map enc_body (map (enc_group 32) groups_b)) ++ [3])). split; vm_compute; reflexivity.
  - apply valid_frameb_spec. vm_compute. reflexivity.
  - vm_compute. reflexivity.
Qed.
Lemma frames3 : forall v ee d os, drun 256 true until3 (dev_at v ee) = Done (d, os) -> exists m, frames 256 true (dev_at v ee) [] almost3 [m] /\ m_now m = 1000.
Proof.
  intros v ee d os R.
  assert (F0 := other_event 256 true (dev_at v ee) [] _ _ (DHttp (at_ms 100) (ask "/sse/json")) (no_event _ _ _ _) ltac:(discriminate)).
  destruct (one_frame 256 true (dev_at v ee) [] 1000 opening3 [] (map (enc_group 32) groups_a) d os) as (m1 & F1 & N1 & _).
  { exact F0. } { apply valid_frameb_spec. vm_compute. reflexivity. } { apply notthree. vm_compute. reflexivity. } { vm_compute. reflexivity. } { exact R. }
  exists m1. split; [|exact N1]. apply quiet_bytes; [|exact F1]. apply notthree. vm_compute. reflexivity.
Qed.
