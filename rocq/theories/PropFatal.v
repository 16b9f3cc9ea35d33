(** Properties C57 and C65: exactly which events bring the module down. Specification: FatalSpec.v. *)
From Coq Require Import ZArith List Bool Lia.
From Verif Require Import Base BaseFacts Teleinfo TeleinfoSpec Publish HistorySpec Config ConfigSpec ConfigHist Json Tic TicSpec Pages
  Sse Cpu Web Wifi Device WebSpec Samples SamplesFacts TicSamples WebSamples ChainSamples Cli CliSpec Life LifeSpec LifeProofs LifeSamples
  FatalSpec FatalProofs FatalLife FatalSamples.
From Verif Require ConfigSamples.
Import ListNotations.
Open Scope Z_scope.

(** C57. From every start, for every history of bytes, requests and uploads, without any other condition: the module reaches
    undefined behaviour exactly when one of the events is one of the following, at the moment it comes:
    a request with an empty URI and accepted credentials; a request for /system.json that is not refused while no file system is
    mounted; a byte that ends a frame which has to be notified, while the URL of the notifications cannot be read inside its field.
    It loops for ever exactly when it meets a request with 256 arguments or more that would be answered 404 without them. *)
Theorem C57_exactly_when : forall fuel sgn b es, start_ok b -> Forall devent_ok es -> (256 <= fuel)%nat ->
  exists d0 acts, boot b = Some (d0, acts) /\
  (drun fuel sgn es d0 = Undefined <->
   exists es1 e es2 d os, es = es1 ++ e :: es2 /\ drun fuel sgn es1 d0 = Done (d, os) /\ fatal sgn e d) /\
  (drun fuel sgn es d0 = OutOfFuel <->
   exists es1 e es2 d os, es = es1 ++ e :: es2 /\ drun fuel sgn es1 d0 = Done (d, os) /\ endless fuel e d).
Proof. exact c57_exact. Qed.
Print Assumptions C57_exactly_when.
Example C57_exactly_case : start_ok start3 /\ Forall devent_ok down_events /\
  (exists d0 acts, boot start3 = Some (d0, acts) /\ drun 256 true down_events d0 = Undefined /\
   exists es1 e es2 d os, down_events = es1 ++ e :: es2 /\ drun 256 true es1 d0 = Done (d, os) /\ fatal true e d) /\
  forall d, endless 256 busy_event d.
Proof.
  split; [exact start3_ok|]. split; [exact down_ok|]. split; [|exact busy_endless].
  destruct boot3 as (v & ee & B). exists (dev_down v ee), [StationMode; AutoReconnect]. split; [exact B|]. split; [apply down_run|].
  destruct (c57_exact 256 true start3 down_events start3_ok down_ok (le_n _)) as (d0 & acts & B' & U & _).
  rewrite B in B'. injection B' as <- _. apply U. apply down_run.
Qed.

(** The URL field, filled with zeros after its text as the configuration form leaves it, cannot be read inside its bounds exactly when
    its text has the full length of 150 characters and ends in an open label. *)
Theorem C57_url : forall url, Forall (fun c => c <> 0) url -> (length url <= 150)%nat ->
  (runs_out (url ++ repeat 0 (151 - length url)) <-> length url = 150%nat /\ unterminated url = true).
Proof. exact c57_url. Qed.
Print Assumptions C57_url.
Example C57_url_case : Forall (fun c => c <> 0) open_url /\ length open_url = 150%nat /\ unterminated open_url = true /\
  runs_out (open_url ++ repeat 0 (151 - length open_url)) /\ ~ runs_out (str "/tic?p=~PAPP" ++ repeat 0 (151 - 12)).
Proof.
  assert (N : Forall (fun c => c <> 0) open_url) by (apply Forall_forall; intros x I E; subst x; revert I; vm_compute; intuition discriminate).
  split; [exact N|]. split; [reflexivity|]. split; [reflexivity|]. split.
  - apply (c57_url open_url N); [vm_compute; lia|]. split; reflexivity.
  - intros R. apply (c57_url (str "/tic?p=~PAPP")) in R; [destruct R; discriminate| |cbn; lia].
    apply Forall_forall; intros x I E; subst x; revert I; vm_compute; intuition discriminate.
Qed.

(** So the module can be brought down: with such a URL in its memory, by two frames of the meter; whatever its settings, by one request. *)
Theorem C57_frame_refuted : exists b es d0 acts, start_ok b /\ Forall devent_ok es /\ boot b = Some (d0, acts) /\ drun 256 true es d0 = Undefined /\
  Forall (fun e => match e with DByte _ _ _ _ => True | DHttp _ q => q_args q = [] | _ => False end) es.
Proof.
  destruct boot3 as (v & ee & B). exists start3, down_events, (dev_down v ee), [StationMode; AutoReconnect].
  split; [exact start3_ok|]. split; [exact down_ok|]. split; [exact B|]. split; [apply down_run|].
  unfold down_events, until2, before2, until1, bytes_at. rewrite !Forall_app, !Forall_map. repeat split; repeat constructor.
Qed.
Print Assumptions C57_frame_refuted.
Theorem C57_request_refuted : exists e, devent_ok e /\ forall fuel sgn d, drun fuel sgn [e] d = OutOfFuel.
Proof. exists busy_event. split; [exact busy_ok|exact busy_run]. Qed.
Print Assumptions C57_request_refuted.

(** C65. The same over the whole life of the module: power cuts, restarts and commands of the serial console included. No command and no
    start brings it down; a byte only if the console hands it over to the decoder. *)
Theorem C65_exactly_when : forall fuel bd flash es, build_ok bd -> flash_ok flash -> Forall any_life es -> (256 <= fuel)%nat ->
  (lrun fuel bd es (Off flash) = Undefined <->
   exists es1 e es2 m os, es = es1 ++ e :: es2 /\ lrun fuel bd es1 (Off flash) = Done (m, os) /\ fatal_in_life bd e m) /\
  (lrun fuel bd es (Off flash) = OutOfFuel <->
   exists es1 e es2 m os, es = es1 ++ e :: es2 /\ lrun fuel bd es1 (Off flash) = Done (m, os) /\ endless_in_life fuel e m).
Proof. exact c65_exact. Qed.
Print Assumptions C65_exactly_when.
Example C65_exactly_case : build_ok talkative /\ flash_ok ConfigSamples.blank /\ Forall any_life [PowerOn start0; Event busy_event raw0] /\
  lrun 256 talkative [PowerOn start0; Event busy_event raw0] (Off ConfigSamples.blank) = OutOfFuel.
Proof.
  split; [exact talkative_ok|]. split; [exact ConfigSamples.blank_ok|].
  split; [constructor; [exact start0_ok|]; constructor; [split; [exact busy_ok|reflexivity]|constructor]|]. apply busy_life. lia.
Qed.
(** Switched on, then one request: the module never answers again. *)
Theorem C65_request_refuted : exists bd flash b e raw, build_ok bd /\ flash_ok flash /\ Forall any_life [PowerOn b; Event e raw] /\
  forall fuel, (256 <= fuel)%nat -> lrun fuel bd [PowerOn b; Event e raw] (Off flash) = OutOfFuel.
Proof.
  exists talkative, ConfigSamples.blank, start0, busy_event, raw0. split; [exact talkative_ok|]. split; [exact ConfigSamples.blank_ok|].
  split; [constructor; [exact start0_ok|]; constructor; [split; [exact busy_ok|reflexivity]|constructor]|]. exact busy_life.
Qed.
Print Assumptions C65_request_refuted.
