(** Properties of the collector. *)
From Coq Require Import ZArith List Bool Lia Sorted.
From Verif Require Import Base BaseFacts Teleinfo TeleinfoSpec Publish HistorySpec Json Tic TicSpec Collect CollectSpec CollectProofs
  Samples SamplesFacts TicSamples PropDash.
Import ListNotations.
Open Scope Z_scope.

(** C84. A frame of a peak / off-peak contract broadcast by the module is the message of the point that has its date and its
    values. Missing: the other contracts. *)
Theorem C84_point_partial : forall e t gs d a c h w i x, published_ti t -> t_size t <> 0%nat -> carries t gs ->
  quotable (iso e (tv_sec (t_ts t))) = true -> Forall json_ready gs -> NoDup (map fst gs) -> tic_get_json_dict e t = Some d ->
  In (str "ADCO", a) gs -> In (str "HCHC", c) gs -> In (str "HCHP", h) gs -> In (str "PAPP", w) gs -> In (str "IINST", i) gs -> In (str "PTEC", x) gs ->
  ~ In (str "timestamp") (map fst gs) ->
  carries_point d (mk_point (json_value a) (JStr (iso e (tv_sec (t_ts t)))) (json_value c) (json_value h) (json_value w) (json_value i) (json_value x)).
Proof. exact point_frame. Qed.
Print Assumptions C84_point_partial.
Definition full_groups : list group := (str "ADCO", str "111111111111") :: hc_groups.
Definition full_frame : teleinfo := TicSamples.shown (frame_of full_groups).
Definition full_point : point :=
  mk_point (JNum (str "111111111111")) (JStr (str "2020-01-26T01:53:20+0100")) (JNum (str "52890470")) (JNum (str "49126043"))
    (JNum (str "1890")) (JNum (str "8")) (JStr (str "HC")).
Lemma full_message : carries_point (message full_frame) full_point.
Proof. eexists. split; vm_compute; reflexivity. Qed.
Example C84_point_case : published_ti full_frame /\ t_size full_frame <> 0%nat /\ carries full_frame full_groups /\ NoDup (map fst full_groups) /\
  Forall json_ready full_groups /\ tic_get_json_dict env0 full_frame = Some (message full_frame).
Proof.
  split; [apply shown_published; vm_compute; reflexivity|]. split; [vm_compute; discriminate|]. split; [vm_compute; reflexivity|].
  split. { vm_compute. repeat (apply NoDup_cons; [cbn; intuition discriminate|]). apply NoDup_nil. }
  split; [repeat constructor; vm_compute; discriminate|]. vm_compute. reflexivity.
Qed.
(** Over a connection without failure, what is stored at each message: its point if it is the first message of its period of
    [freq] seconds, otherwise nothing. *)
Theorem C84_first_of_each_period : forall freq msgs ps, 0 < freq -> Forall2 (fun m p => carries_point (snd m) p) msgs ps ->
  Forall (fun m => 1000 * freq <= fst m) msgs ->
  snd (collect_all freq (map (fun m => Message (fst m) (snd m) true) msgs) (Receiving 0)) = firsts freq None (combine (map fst msgs) ps).
Proof. exact c84_firsts. Qed.
Print Assumptions C84_first_of_each_period.
(** So no two points are of the same period, if the clock does not go back. *)
Theorem C84_one_per_period : forall freq msgs i j p q mi mj, 0 < freq -> StronglySorted Z.le (map fst msgs) ->
  nth_error (firsts freq None msgs) i = Some [p] -> nth_error (firsts freq None msgs) j = Some [q] -> (i < j)%nat ->
  nth_error msgs i = Some mi -> nth_error msgs j = Some mj -> period freq (fst mi) < period freq (fst mj).
Proof. exact c84_rate. Qed.
Print Assumptions C84_one_per_period.
(** Whatever the failures of the connection and of the database, the collector goes on, and stores only points of the
    messages, unchanged. *)
Theorem C84_goes_on_partial : forall freq es last,
  Forall (fun e => match e with Message _ d _ => exists p, carries_point d p | Failure => True end) es -> exists last' out,
  collect_all freq es (Receiving last) = (Receiving last', out) /\
  Forall2 (fun e ps => ps = [] \/ exists ms d p, e = Message ms d true /\ carries_point d p /\ ps = [p]) es out.
Proof. exact c84_goes_on. Qed.
Print Assumptions C84_goes_on_partial.
Definition c84_times : list Z := [1580000000000; 1580000002000; 1580000009900; 1580000010000; 1580000031000].
Definition c84_messages : list (Z * list Z) := map (fun ms => (ms, message full_frame)) c84_times.
Example C84_case : Forall2 (fun m p => carries_point (snd m) p) c84_messages (repeat full_point 5) /\
  Forall (fun m => 1000 * 10 <= fst m) c84_messages /\ StronglySorted Z.le (map fst c84_messages) /\
  map (@length point) (firsts 10 None (combine (map fst c84_messages) (repeat full_point 5))) = [1; 0; 0; 1; 1]%nat.
Proof.
  split. { unfold c84_messages, c84_times. cbn [map repeat]. repeat (apply Forall2_cons; [exact full_message|]). apply Forall2_nil. }
  split. { unfold c84_messages, c84_times. cbn [map]. repeat (apply Forall_cons; [cbn [fst]; lia|]). apply Forall_nil. }
  split. { unfold c84_messages, c84_times. cbn [map fst]. repeat (apply SSorted_cons || apply SSorted_nil || apply Forall_cons || apply Forall_nil || lia). }
  vm_compute. reflexivity.
Qed.
(** A connection lost and made again within a period stores a second point. *)
Theorem C84_reconnection_refuted : exists d p, carries_point d p /\
  snd (collect_all 10 [Message 1580000000000 d true; Failure; Message 1580000009000 d true] (Receiving 0)) = [[p]; []; [p]].
Proof. exists (message full_frame), full_point. split; [exact full_message|]. vm_compute. reflexivity. Qed.
Print Assumptions C84_reconnection_refuted.
(** A frame of a single tariff contract ends the collector. *)
Theorem C84_single_tariff_refuted : exists t, published_ti t /\
  carries t [(str "ADCO", str "111111111111"); (str "BASE", str "052890470"); (str "PTEC", str "TH"); (str "IINST", str "008"); (str "PAPP", str "01890")] /\
  fst (collect_all 10 [Message 1580000000000 (message t) true] (Receiving 0)) = Ended.
Proof.
  exists (TicSamples.shown (frame_of [(str "ADCO", str "111111111111"); (str "BASE", str "052890470"); (str "PTEC", str "TH.."); (str "IINST", str "008"); (str "PAPP", str "01890")])).
  split; [apply shown_published; vm_compute; reflexivity|]. split; vm_compute; reflexivity.
Qed.
Print Assumptions C84_single_tariff_refuted.

(** C85. Polling: as long as all the answers are points, one point is stored for each change of the date. Missing: the
    answers that are not points and the failures. *)
Theorem C85_polling_partial : forall bodies ps last, Forall2 (fun b x => carries_point b (snd x) /\ p_time (snd x) = JStr (fst x)) bodies ps ->
  exists last', poll_all (map (fun b => Answer 200 b true) bodies) (Polling (option_map JStr last)) = (Polling last', changes last ps).
Proof. exact c84_polling. Qed.
Print Assumptions C85_polling_partial.
Example C85_case : Forall2 (fun b x => carries_point b (snd x) /\ p_time (snd x) = JStr (fst x)) [message full_frame; message full_frame]
    (repeat (str "2020-01-26T01:53:20+0100", full_point) 2) /\
  changes None (repeat (str "2020-01-26T01:53:20+0100", full_point) 2) = [[full_point]; []].
Proof.
  split; [|vm_compute; reflexivity]. cbn [repeat]. repeat (apply Forall2_cons; [split; [exact full_message | reflexivity]|]). apply Forall2_nil.
Qed.
(** The poller ends if the module has not yet received a frame, or at the first failure of a request. *)
Theorem C85_empty_module_refuted : exists t body, published_ti t /\ t_size t = 0%nat /\ tic_get_json_dict env0 t = Some body /\
  poll (Answer 200 body true) (Polling None) = (PEnded, []).
Proof.
  exists (TicSamples.shown []), (str "{}"). split; [apply shown_published; reflexivity|]. split; [vm_compute; reflexivity|].
  split; vm_compute; reflexivity.
Qed.
Print Assumptions C85_empty_module_refuted.
Theorem C85_failure_refuted : forall last, poll PFailure (Polling last) = (PEnded, []).
Proof. reflexivity. Qed.
Print Assumptions C85_failure_refuted.
