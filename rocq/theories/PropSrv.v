(** Property theorems C109: the development server. Specification: SrvSpec.v, SimuSpec.v. *)
From Coq Require Import ZArith List Bool Lia.
From Verif Require Import Base Teleinfo TeleinfoSpec Publish HistorySpec Json Tic TicSpec TicSamples Samples Clock ClockSpec Sse SseSpec Dash DashSpec
  Simu SimuSpec SimuProofs Srv SrvSpec SrvFinal.
Import ListNotations.
Open Scope Z_scope.

(** C109. After any use of the simulated meter, the message that the server streams is a JSON object which carries each group of the frame that
    the meter would send at that moment, with the value that the module would give (numbers for values made of digits), whatever the meter number;
    the meter number is given as a text; no name twice, and nothing else but the date. *)
Theorem C109_message_partial : forall es offset now, Forall sim_event_ok es -> 0 <= now + offset < 253402300800 ->
  exists ms, json_of (json_dict (srv_timestamp offset now) (sim_history es)) = Some (JObj ms) /\
    NoDup (map fst ms) /\ length ms = S (length (told_groups es)) /\
    In (str "timestamp", JStr (srv_timestamp offset now)) ms /\ In (str "ADCO", JStr (meter_number es)) ms /\
    forall l v, In (l, v) (told_groups es) -> l <> str "ADCO" -> In (l, json_value v) ms.
Proof. intros es offset now H T. exact (c109_message es _ H (stamp_ascii offset now T)). Qed.
Print Assumptions C109_message_partial.
(** Each turn of the stream is one event for the browser, with this message as its data. *)
Theorem C109_events : forall turns, Forall (fun x => Forall sim_event_ok (fst x) /\ 0 <= fst (snd x) + snd (snd x) < 253402300800) turns ->
  events_of (concat (map (fun x => stream_event (srv_timestamp (snd (snd x)) (fst (snd x))) (sim_history (fst x))) turns)) =
  map (fun x => json_dict (srv_timestamp (snd (snd x)) (fst (snd x))) (sim_history (fst x))) turns.
Proof. exact c109_events. Qed.
Print Assumptions C109_events.
Definition played : list sim_event := [Bascule Overload; Bascule Tariff; Measure 52000123 49000000 20 4600].
Example C109_message_case : Forall sim_event_ok played /\ 
  json_dict (srv_timestamp 3600 1580000000) (sim_history played) =
  str "{""timestamp"":""2020-01-26T01:53:20Z"",""ADCO"":""012345678123"",""OPTARIF"":""HC"",""ISOUSC"":30,""HCHC"":52000123,""HCHP"":49000000,""PTEC"":""HC"",""IINST"":20,""IMAX"":42,""PAPP"":4600,""HHPHC"":""D"",""MOTDETAT"":0,""ADPS"":31}".
Proof. split; [|vm_compute; reflexivity]. do 2 (constructor; [exact Logic.I|]). constructor; [cbn; lia|constructor]. Qed.

Example C109_events_case : events_of (concat (map (fun x => stream_event (srv_timestamp 3600 (snd x)) (sim_history (fst x))) [(played, 1580000000); ([], 1580000001)])) =
  [json_dict (srv_timestamp 3600 1580000000) (sim_history played); json_dict (srv_timestamp 3600 1580000001) (sim_history [])].
Proof. vm_compute. reflexivity. Qed.

(** The gauges of the page show the same, whether the message comes from the server or from a module that has received the frame of the meter.
    [json_ready]: the frame can be written as JSON by the module (C11). *)
Theorem C109_gauges_partial : forall es offset now e t d g, Forall sim_event_ok es -> 0 <= now + offset < 253402300800 ->
  published_ti t -> t_size t <> 0%nat -> carries t (told_groups es) -> quotable (iso e (tv_sec (t_ts t))) = true -> Forall json_ready (told_groups es) ->
  tic_get_json_dict e t = Some d ->
  on_message (json_dict (srv_timestamp offset now) (sim_history es)) g = on_message d g.
Proof. intros es offset now e t d g H T. exact (c109_gauges es _ e t d g H (stamp_ascii offset now T)). Qed.
Print Assumptions C109_gauges_partial.
(** The table has the same groups (the server keeps the points at the end of the values, and has no row for the power in watts), and the load that
    the page shows is the same after each refresh. *)
Theorem C109_table_partial : forall es offset now e t body, Forall sim_event_ok es -> 0 <= now + offset < 253402300800 ->
  published_ti t -> t_size t <> 0%nat -> carries t (told_groups es) -> quotable (iso e (tv_sec (t_ts t))) = true ->
  Forall (fun g => quotable (fst g) = true /\ quotable (snd g) = true) (told_groups es) -> tic_get_json_array e t = Some body ->
  let page := json_array (srv_timestamp offset now) (sim_history es) in
  exists rows rows', table_of page = Some rows /\ table_of body = Some rows' /\
    length rows = (1 + length (told_groups es))%nat /\ length rows' = (2 + length (told_groups es))%nat /\
    (forall l v, In (l, v) (told_groups es) -> In (l, Text v) rows' /\ exists sent, with_points v sent /\ In (l, Text sent) rows) /\
    forall w w', same_load w w' -> same_load (snd (refresh page w)) (snd (refresh body w')).
Proof. intros es offset now e t body H T. exact (c109_table es _ e t body H (stamp_ascii offset now T)). Qed.
Print Assumptions C109_table_partial.
(** A module that has received the frame of the meter. *)
Definition receiver (es : list sim_event) : teleinfo := TicSamples.shown (sim_text (sim_history es)).
Example C109_gauges_case : published_ti (receiver played) /\ t_size (receiver played) <> 0%nat /\ carries (receiver played) (told_groups played) /\
  Forall json_ready (told_groups played) /\
  exists d, tic_get_json_dict env0 (receiver played) = Some d /\
    on_message d (mk_gauges None None [] [] Peak) = mk_gauges (Some 4600) (Some 20) (str "49000.000") (str "52000.123") OffPeak.
Proof.
  split; [apply shown_published; vm_compute; reflexivity|]. split; [vm_compute; discriminate|]. split; [vm_compute; reflexivity|].
  split; [vm_compute told_groups; repeat constructor; vm_compute; try reflexivity; discriminate|]. eexists. split; vm_compute; reflexivity.
Qed.
Example C109_table_case : exists body, tic_get_json_array env0 (receiver played) = Some body /\
  let w := snd (refresh body screen_init) in charge w = str "20A / 30A" /\ bar_width w = 66 /\ badge w = str "66%".
Proof. eexists. split; [vm_compute; reflexivity|]. vm_compute. repeat split; reflexivity. Qed.

(** The full claim is false in three ways. The date: the local time is followed by Z, so it says another instant; the module gives the right one. *)
Theorem C109_date : forall offset now, 0 <= now + offset < 253402300800 ->
  says_z (srv_timestamp offset now) (now + offset) /\ forall t, says_z (srv_timestamp offset now) t -> t = now + offset.
Proof. intros offset now H. destruct (srv_says offset now H) as (S & _). split; [exact S|]. intros t S'. exact (says_z_one _ _ _ S' S). Qed.
Print Assumptions C109_date.
Theorem C109_date_refuted : exists now text o, 0 <= now /\ iso8601 now = Some text /\ says text o now /\ ~ says_z (srv_timestamp 3600 now) now.
Proof.
  exists 1580000000. destruct (ClockMain.c79 1580000000 ltac:(unfold ClockMain.last_instant; lia)) as (text & o & E & _ & S & _).
  exists text, o. split; [lia|]. split; [exact E|]. split; [exact S|].
  intros S'. pose proof (proj2 (C109_date 3600 1580000000 ltac:(lia)) _ S'). lia.
Qed.
Print Assumptions C109_date_refuted.
(** A number with a quote: the page works with the server, and not with the module. *)
Theorem C109_quote_refuted : exists es t d g, Forall sim_event_ok es /\ published_ti t /\ t_size t <> 0%nat /\ carries t (told_groups es) /\
  tic_get_json_dict env0 t = Some d /\ on_message d g = g /\ on_message (json_dict (srv_timestamp 3600 1580000000) (sim_history es)) g <> g.
Proof.
  exists (SetAdco [34] :: played), (receiver (SetAdco [34] :: played)). eexists. exists (mk_gauges None None [] [] Peak).
  split. { constructor; [apply char7b_spec; reflexivity|]. do 2 (constructor; [exact Logic.I|]). constructor; [cbn; lia|constructor]. }
  split; [apply shown_published; vm_compute; reflexivity|]. split; [vm_compute; discriminate|]. split; [vm_compute; reflexivity|].
  split; [vm_compute; reflexivity|]. split; [vm_compute; reflexivity|]. vm_compute. discriminate.
Qed.
Print Assumptions C109_quote_refuted.
(** The meter number is a text with the server and a number without its zeros with the module. *)
Theorem C109_number_refuted : exists es t d ms ms', Forall sim_event_ok es /\ published_ti t /\ carries t (told_groups es) /\
  tic_get_json_dict env0 t = Some d /\ json_of d = Some (JObj ms) /\ json_of (json_dict (srv_timestamp 3600 1580000000) (sim_history es)) = Some (JObj ms') /\
  property (str "ADCO") ms = Some (JNum (str "12345678123")) /\ property (str "ADCO") ms' = Some (JStr (str "012345678123")).
Proof.
  exists played, (receiver played). do 3 eexists. split. { do 2 (constructor; [exact Logic.I|]). constructor; [cbn; lia|constructor]. }
  split; [apply shown_published; vm_compute; reflexivity|]. split; [vm_compute; reflexivity|]. split; [vm_compute; reflexivity|].
  split; [vm_compute; reflexivity|]. split; [vm_compute; reflexivity|]. split; vm_compute; reflexivity.
Qed.
Print Assumptions C109_number_refuted.
