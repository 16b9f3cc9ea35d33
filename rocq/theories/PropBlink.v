(** Property theorem C105: the command "led" of the serial line (src/cli.cpp:38-62, 268-277). Specification: BlinkSpec.v, LedSpec.v. *)
From Coq Require Import ZArith List Bool Lia.
From Verif Require Import Base BaseFacts Teleinfo TeleinfoSpec Publish HistorySpec Config ConfigSpec JsonBuild Tic TicSpec Pages Sse Cpu Web WebSpec Wifi WifiSpec Device
  DeviceProofs DeviceFinal TicSamples WebSamples Samples SamplesFacts Led LedSpec LedProofs Blink BlinkSpec BlinkProofs.
Import ListNotations.
Open Scope Z_scope.

(** C105. Whatever is typed, the command acts on the LED only: all the other effects, the restarts and the state of the module are those
    of the same history in a program without the command line. *)
Theorem C105_only_led : forall fuel sgn es d now r os, krun fuel sgn es (keyed_of d now) = Done (r, os) ->
  exists r' os', brun fuel sgn (as_board es) (board_of d) = Done (r', os') /\ rest (concat os) = rest (concat os') /\
    match r, r' with Some k, Some b => b_dev (k_board k) = b_dev b /\ b_tick (k_board k) = b_tick b | None, None => True | _, _ => False end.
Proof. exact c105_only_led. Qed.
Print Assumptions C105_only_led.
(** Nobody types it: the LED is exactly that of a program without the command line (C86, C87). *)
Theorem C105_never_typed : forall fuel sgn es d now r os, (forall w, ~ In (KLed w) es) -> krun fuel sgn es (keyed_of d now) = Done (r, os) ->
  exists os', brun fuel sgn (as_board es) (board_of d) = Done (option_map k_board r, os') /\ concat os = concat os'.
Proof. exact c105_never. Qed.
Print Assumptions C105_never_typed.

(** "led on" and "led off", outside uploads: the LED stays so, whatever happens (nothing is uploaded, the command is not typed again),
    until it flashes for a frame; then it is off. *)
Theorem C105_on_off_partial : forall fuel sgn es1 w d now k1 os1 es2 k2 os2 (on : bool), just_started d -> ~ suspended (uploads (kmet es1)) ->
  w = (if on then str "on" else str "off") -> krun fuel sgn (es1 ++ [KLed w]) (keyed_of d now) = Done (Some k1, os1) ->
  krun fuel sgn es2 k1 = Done (Some k2, os2) -> led_alone es2 -> lit (os1 ++ os2) = (on && negb (flashed es2 os2))%bool.
Proof. exact c105_held. Qed.
Print Assumptions C105_on_off_partial.

(** "led blink", outside uploads: as long as it does not flash for a frame, the LED changes once for each turn of loop() that comes
    after another multiple of 200 ms since the command than the turn before. [es2]: what happens first (perhaps frames). *)
Theorem C105_blink_partial : forall fuel sgn es1 d now k1 os1 es2 k2 os2 es3 k3 os3, just_started d -> 0 <= now < 4294967296 ->
  ~ suspended (uploads (kmet es1)) -> krun fuel sgn (es1 ++ [KLed (str "blink")]) (keyed_of d now) = Done (Some k1, os1) ->
  krun fuel sgn es2 k1 = Done (Some k2, os2) -> krun fuel sgn es3 k2 = Done (Some k3, os3) -> led_alone (es2 ++ es3) ->
  spaced 200 0 (turns 0 (es2 ++ es3)) -> flashed es3 os3 = false ->
  lit (os1 ++ os2 ++ os3) = xorb (lit (os1 ++ os2)) (Z.odd (times (firings 200 (last (turns 0 es2) 0) (turns (kelapsed es2) es3)))).
Proof. exact c105_blink. Qed.
Print Assumptions C105_blink_partial.
(** If there is a turn at least every 200 ms: the LED changes every fifth of a second. *)
Theorem C105_blink_prompt_partial : forall fuel sgn es1 d now k1 os1 es2 k2 os2, just_started d -> 0 <= now < 4294967296 ->
  ~ suspended (uploads (kmet es1)) -> krun fuel sgn (es1 ++ [KLed (str "blink")]) (keyed_of d now) = Done (Some k1, os1) ->
  krun fuel sgn es2 k1 = Done (Some k2, os2) -> led_alone es2 -> prompt 200 0 (turns 0 es2) -> flashed es2 os2 = false ->
  lit (os1 ++ os2) = xorb (lit os1) (Z.odd (last (turns 0 es2) 0 / 200)).
Proof. exact c105_prompt. Qed.
Print Assumptions C105_blink_prompt_partial.

(** A module with the option set; the LED is lit by hand, a frame arrives; then it blinks, looked at after 450 ms (one turn of loop() every 10 ms). *)
Definition cfg_lamp : cfg := put32 Options 1 cfg0.
Definition dev_lamp : device := mk_dev (d_cs (with_frame cfg_lamp (hp "00100"))) (pub_init (repeat 7 350) (repeat 9 350))
  (d_ns dev_login) (d_tm dev_login) (d_sse dev_login) (d_perf dev_login) false.
Definition lamp_on : kevent := KLed (str "on").
Definition some_frame : list kevent := map KMeets (hear (frame_of [(str "PAPP", str "00100")])).
Definition ten_ms : list kevent := repeat KMs 10 ++ [KTurn].
Definition while : list kevent := concat (repeat ten_ms 45).
Definition end_of (x : res (option keyed * list (list bout))) : option (keyed * list (list bout)) :=
  match x with Done (Some k, os) => Some (k, os) | _ => None end.
Definition lamp_now (es : list kevent) : option bool := option_map (fun x => lit (snd x)) (end_of (krun 256 true es (keyed_of dev_lamp 4294967290))).
Lemma alone_by : forall es, forallb (fun e => match e with KLed _ => false | KMeets (DUpload _ _) => false | _ => true end) es = true -> led_alone es.
Proof.
  intros es H. rewrite forallb_forall in H. split; [intros w I|intros a u I]; assert (X := H _ I); discriminate.
Qed.
Fixpoint promptb (p before : Z) (ds : list Z) : bool :=
  match ds with [] => true | d :: r => (before <=? d) && (d <=? before + p) && promptb p d r end.
Lemma prompt_by : forall p ds b, promptb p b ds = true -> prompt p b ds.
Proof.
  induction ds as [|d ds IH]; intros b H; [exact I|]. cbn [promptb] in H. apply andb_true_iff in H. destruct H as (H & H3). apply andb_true_iff in H. destruct H as (H1 & H2).
  split; [lia|auto].
Qed.
Example C105_case : just_started dev_lamp /\ led_alone while /\ led_alone some_frame /\ prompt 200 0 (turns 0 while) /\ last (turns 0 while) 0 = 450 /\
  lamp_now (lamp_on :: while) = Some true /\ lamp_now (lamp_on :: while ++ some_frame) = Some false /\
  (exists k1 os1 k2 os2, krun 256 true ([] ++ [KLed (str "blink")]) (keyed_of dev_lamp 4294967290) = Done (Some k1, os1) /\ ~ suspended (uploads (kmet [])) /\
    krun 256 true while k1 = Done (Some k2, os2) /\ flashed while os2 = false /\ switched (concat os2) = [true; false]) /\
  (exists k1 os1 k2 os2, krun 256 true ([] ++ [lamp_on]) (keyed_of dev_lamp 4294967290) = Done (Some k1, os1) /\ krun 256 true some_frame k1 = Done (Some k2, os2) /\
    flashed some_frame os2 = true).
Proof.
  split; [exists (repeat 7 350), (repeat 9 350); split; [reflexivity|]; split; reflexivity|]. split; [apply alone_by; vm_compute; reflexivity|].
  split; [apply alone_by; vm_compute; reflexivity|]. split; [apply prompt_by; vm_compute; reflexivity|]. split; [vm_compute; reflexivity|].
  split; [vm_compute; reflexivity|]. split; [vm_compute; reflexivity|]. split.
  - eexists. eexists. eexists. eexists. split; [reflexivity|]. split; [intros (a & n & l & e & b & X & _); destruct a; discriminate|].
    split; [vm_compute; reflexivity|]. split; vm_compute; reflexivity.
  - eexists. eexists. eexists. eexists. split; [reflexivity|]. split; [vm_compute; reflexivity|]. vm_compute; reflexivity.
Qed.

(** During an upload "led off" does not last: a third of a second later the LED is lit, although nobody typed "led on". *)
Definition some_upload : kevent := KMeets (DUpload around0 (UpStart (str "firmware.bin") 3 true true)).
Theorem C105_off_during_upload_refuted : exists es2 d, just_started d /\ (forall w, ~ In (KLed w) es2) /\ kmet es2 = [] /\
  exists k os, krun 256 true (some_upload :: KLed (str "off") :: es2) (keyed_of d 0) = Done (Some k, os) /\ lit os = true.
Proof.
  exists (repeat KMs 333), dev_lamp. split; [exists (repeat 7 350), (repeat 9 350); split; [reflexivity|]; split; reflexivity|].
  split; [intros w I; apply repeat_spec in I; discriminate|]. split; [vm_compute; reflexivity|].
  eexists. eexists. split; [vm_compute; reflexivity|]. vm_compute; reflexivity.
Qed.
Print Assumptions C105_off_during_upload_refuted.
