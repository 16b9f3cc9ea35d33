(** A module that a frame of the meter brings down, and one that a request keeps busy for ever. *)
From Coq Require Import ZArith List Bool Lia Sorted.
From Verif Require Import Base BaseFacts Teleinfo TeleinfoSpec Publish HistorySpec Config ConfigSpec ConfigProofs ConfigMain ConfigHist ConfigSamples Json
  Tic TicSpec Sse Cpu Web Wifi Device WebSpec WebProofs DeviceProofs DeviceMain DeviceSafe SlotSpec ChainSpec ChainProofs ChainMain Samples SamplesFacts TicSamples WebSamples
  ChainSamples Cli CliSpec CliProofs Life LifeSpec LifeProofs LifeSamples FatalSpec FatalProofs.
Import ListNotations.
Open Scope Z_scope.

(** The URL has 150 characters and ends with an open label. *)
Definition open_url : list Z := repeat 97 149 ++ [126].
Definition cfg_open : cfg := set HUrl (open_url ++ [0]) cfg0.
Lemma cfg_open_wf : wf cfg_open.
Proof. apply wfb_spec; vm_compute; reflexivity. Qed.
Definition start3 : start := mk_start ConfigSamples.chip1 zeroed (image (sealed cfg_open)) Stored Stored Stored (fun _ => 3) [] [] 0 blank blank.
Lemma start3_ok : start_ok start3.
Proof.
  split; [cbn; unfold ConfigSamples.chip1; lia|]. split; [apply zeroed_wf|]. split; [exact (image_flash_ok _ (sealed_wf _ cfg_open_wf))|].
  split; [constructor|]. split; [constructor|]. split; reflexivity.
Qed.
Definition dev_down (v : list Z) (ee : eeprom) : device :=
  mk_dev (mk_cs (secured (set Crc v cfg_open)) ee) (pub_init blank blank) ns_init (tic_make_timers 0 (secured (set Crc v cfg_open)) timers_init) sse_init
    (perf_init 0) false.
Lemma no_ssid3 : forall v, text Ssid (secured (set Crc v cfg_open)) = [].
Proof. intros v. vm_compute. reflexivity. Qed.
Lemma boot3 : exists v ee, boot start3 = Some (dev_down v ee, [StationMode; AutoReconnect]).
Proof.
  exists (le16 (crc_of (firstn (CFG_SIZE - 2) (image cfg_open)))), (ee_begin (image (sealed cfg_open))).
  exact (sealed_boot cfg_open cfg_open_wf (no_ssid3 (le16 (crc_of (firstn (CFG_SIZE - 2) (image cfg_open)))))).
Qed.
(** Two frames; the second tells a new tariff period. *)
Definition down_events : list devent := until2.
Lemma down_ok : Forall devent_ok down_events.
Proof. pose proof events1 as H. rewrite history1_is in H. unfold before3 in H. rewrite !Forall_app in H. apply H. Qed.
Lemma down_run : forall v ee, drun 256 true down_events (dev_down v ee) = Undefined.
Proof. intros v ee. vm_compute. reflexivity. Qed.
Lemma down_before : forall v ee, result (fun _ _ => true) (drun 256 true (removelast down_events) (dev_down v ee)) = Some true.
Proof. intros v ee. vm_compute. reflexivity. Qed.

(** The request of C35 sent to any module that has just started. *)
Definition busy_event : devent := DHttp around0 (many_args 256 GET "/x").
Lemma busy_ok : devent_ok busy_event.
Proof. split; [|cbn; lia]. unfold many_args. cbn [q_args]. apply Forall_forall. intros x I. apply repeat_spec in I. subst x. split; apply bytesb_spec; reflexivity. Qed.
Lemma busy_page : no_such_page around0 (many_args 256 GET "/x") /\ (256 <= length (q_args (many_args 256 GET "/x")))%nat.
Proof. split; [split; [vm_compute; intuition discriminate|split; reflexivity]|vm_compute; lia]. Qed.
Lemma busy_run : forall fuel sgn d, drun fuel sgn [busy_event] d = OutOfFuel.
Proof. intros fuel sgn d. cbn [drun busy_event dstep]. rewrite (c35_never fuel around0 (many_args 256 GET "/x") d (proj1 busy_page) (proj2 busy_page) eq_refl). reflexivity. Qed.
Lemma busy_endless : forall d, endless_request 256 around0 (many_args 256 GET "/x") d.
Proof.
  intros d. split; [exact (proj2 busy_page)|]. do 2 eexists.
  apply (c35 256 around0 (bare (many_args 256 GET "/x")) d); [exact (proj1 busy_page)|cbn; lia|lia|reflexivity].
Qed.
(** The same over a life: the module is switched on, then the request comes. *)
Lemma on_after : forall fuel bd b m m' o, lstep fuel bd (PowerOn b) m = Done (m', o) -> exists d, m' = On d cli_init.
Proof.
  intros fuel bd b m m' o. cbn [lstep]. intros E. destruct (boot _) as [[d acts]|]; [|discriminate]. cbn [lift] in E. exists d. congruence.
Qed.
Lemma busy_after : forall fuel bd b m m' o raw, lstep fuel bd (PowerOn b) m = Done (m', o) ->
  lrun fuel bd [PowerOn b; Event busy_event raw] m = OutOfFuel.
Proof.
  intros fuel bd b m m' o raw E. destruct (on_after _ _ _ _ _ _ E) as [d ->].
  set (p := PowerOn b) in *. clearbody p. cbn [lrun]. rewrite E. cbn [lstep busy_event dstep].
  rewrite (c35_never fuel around0 (many_args 256 GET "/x") d (proj1 busy_page) (proj2 busy_page) eq_refl). reflexivity.
Qed.
Lemma busy_life : forall fuel, (256 <= fuel)%nat -> lrun fuel talkative [PowerOn start0; Event busy_event raw0] (Off ConfigSamples.blank) = OutOfFuel.
Proof.
  intros fuel F.
  destruct (lstep_some fuel talkative (PowerOn start0) (Off ConfigSamples.blank) talkative_ok ConfigSamples.blank_ok start0_ok F Logic.I) as (m & o & E & _).
  exact (busy_after fuel talkative start0 (Off ConfigSamples.blank) m o raw0 E).
Qed.
