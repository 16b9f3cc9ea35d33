(** Property theorem C100: from the bytes of the meter to what the browser shows, in the whole module. Specification: ScreenSpec.v,
    ChainSpec.v ([ends_frame]), DashSpec.v (arrows, colours), HistorySpec.v ([last_valid]). *)
From Coq Require Import ZArith List Bool Lia.
From Verif Require Import Base BaseFacts Teleinfo TeleinfoSpec Publish HistorySpec Config ConfigSpec Json
  Tic TicSpec Sse SseSpec Cpu Web Wifi Device WebSpec DeviceProofs Dash DashSpec ChainSpec Samples SamplesFacts TicSamples WebSamples
  ChainSamples ScreenSpec ScreenProofs ScreenSamples.
Import ListNotations.
Open Scope Z_scope.

(** C100. The module starts, anything happens ([es]); the page of a browser, which has seen the answers [l], asks for the table and is
    not refused. It draws one more table: the date of the last valid frame heard, the computed power, all the groups of this frame in
    their order, each value alone or with an arrow; an empty table if no valid frame was heard. *)
Theorem C100_refresh : forall fuel sgn b d0 acts es d os a q l d' o, start_ok b -> boot b = Some (d0, acts) ->
  Forall is_byte (map snd (heard false es)) -> drun fuel sgn es d0 = Done (d, os) ->
  q_uri q = str "/tinfo.json" -> ~ refused q d -> dstep fuel sgn (DHttp a q) d = Done (d', o) ->
  exists r, last_valid (heard false es) r /\
    match r with
    | None => drawings (l ++ [(true, o)]) screen_init = drawings l screen_init ++ [mk_drawing [] []]
    | Some (t0, bodies) => quotable (iso (a_env a) (tv_sec t0)) = true ->
        Forall (fun g => quotable (fst g) = true /\ quotable (snd g) = true) (pairs_of (content bodies)) ->
        exists w cells, watt (ti_of d) 60 = Some w /\
          drawings (l ++ [(true, o)]) screen_init =
            drawings l screen_init ++ [mk_drawing (table_rows (iso (a_env a) (tv_sec t0)) w (pairs_of (content bodies))) cells] /\
          displays (table_rows (iso (a_env a) (tv_sec t0)) w (pairs_of (content bodies))) cells
    end.
Proof. exact c100_refresh. Qed.
Print Assumptions C100_refresh.
(** The second table of the page: the tariff has changed (no arrow: not a number), the current and the power have an arrow. *)
Example C100_ex_refresh : exists d0 acts d os d' o, start_ok start2 /\ boot start2 = Some (d0, acts) /\
  Forall is_byte (map snd (heard false full2)) /\ drun 256 true full2 d0 = Done (d, os) /\ ~ refused table_query d /\
  dstep 256 true (DHttp (at_ms 4000) table_query) d = Done (d', o) /\ quotable (iso env0 (tv_sec now0)) = true /\
  map (fun x => skipn 4 (dr_cells x)) (drawings (combine marks2 os ++ [(true, o)]) screen_init) =
    [[Text (str "049126843"); Text (str "HP"); Text (str "012"); Text (str "02890")];
     [Text (str "049126843"); Text (str "HC"); Text (str "025" ++ up_arrow); Text (str "05610" ++ up_arrow)]].
Proof.
  destruct boot2 as (v & ee & B). exists (dev_live v ee), [StationMode; AutoReconnect].
  assert (X : result (fun d os => (text Username (cfg_of d), map (fun x => skipn 4 (dr_cells x)) (drawings (combine marks2 (removelast os) ++ [(true, last os [])]) screen_init)))
    (drun 256 true (full2 ++ [DHttp (at_ms 4000) table_query]) (dev_live v ee)) =
    Some ([], [[Text (str "049126843"); Text (str "HP"); Text (str "012"); Text (str "02890")];
     [Text (str "049126843"); Text (str "HC"); Text (str "025" ++ up_arrow); Text (str "05610" ++ up_arrow)]])) by (vm_compute; reflexivity).
  assert (Y : result (fun d os => text Username (cfg_of d)) (drun 256 true full2 (dev_live v ee)) = Some []) by (vm_compute; reflexivity).
  destruct (result_ok _ _ _ _ _ X) as (d' & os' & R & E). destruct (drun_snoc _ _ _ _ _ _ _ R) as (d & os & o & R1 & R2 & ->).
  destruct (result_ok _ _ _ _ _ Y) as (d1 & os1 & R3 & U). rewrite R1 in R3. assert (d = d1) by congruence. subst d1.
  rewrite removelast_last, last_last in E. injection E as _ E.
  exists d, os, d', o. split; [exact start2_ok|]. split; [exact B|]. split; [exact heard2|]. split; [exact R1|].
  split; [exact (open_login _ _ U)|]. split; [exact R2|]. split; [reflexivity|exact E].
Qed.
(** The other events, and the requests that are refused, leave the tables of the page as they are. *)
Theorem C100_kept : forall fuel sgn e d d' o (mine : bool) l w, dstep fuel sgn e d = Done (d', o) -> marked mine e ->
  (if mine then exists a q, e = DHttp a q /\ refused q d else True) ->
  drawings (l ++ [(mine, o)]) w = drawings l w.
Proof. exact c100_kept. Qed.
Print Assumptions C100_kept.
Example C100_ex_kept : exists d' o, dstep 256 true (DHttp around0 table_query) dev_login = Done (d', o) /\ marked true (DHttp around0 table_query) /\
  refused table_query dev_login /\ o <> [].
Proof.
  exists dev_login, [challenge]. split; [vm_compute; reflexivity|]. split; [exists around0, table_query; split; reflexivity|].
  split; [split; [vm_compute; discriminate|reflexivity]|discriminate].
Qed.
(** Over the whole session of a page, whatever it received ([l]): the cells of a group of numbers of the same width are its
    values with the arrows of [arrows] (see C82). *)
Theorem C100_arrows : forall l k na, let ds := drawings l screen_init in
  let rows := concat (map dr_rows ds) in let cells := concat (map dr_cells ds) in
  Forall (of_kind k) (values_of na rows) ->
  cells_of na rows cells = map (fun x => with_arrow (fst x) (snd x)) (combine (values_of na rows) (arrows None (map value (values_of na rows)))).
Proof. exact c100_arrows. Qed.
Print Assumptions C100_arrows.
Definition answer (v : String.string) : bool * list out :=
  (true, [Reply 200 Web.Json (str "[{""na"":""PAPP"",""va"":""" ++ str v ++ str """}]")]).
Arguments answer _%string_scope.
Example C100_ex_arrows : let l := [answer "00100"; (false, [Reply 200 Web.Json (str "[]")]); answer "00230"; (true, [challenge]); answer "00230"; answer "00090"] in
  let rows := concat (map dr_rows (drawings l screen_init)) in
  values_of (str "PAPP") rows = [Text (str "00100"); Text (str "00230"); Text (str "00230"); Text (str "00090")] /\
  Forall (of_kind (Some 5%nat)) (values_of (str "PAPP") rows) /\
  arrows None (map value (values_of (str "PAPP") rows)) = [NoArrow; Up; NoArrow; Down].
Proof.
  cbv zeta. match goal with |- ?a = ?b /\ Forall ?p ?a /\ _ => assert (E : a = b) by (vm_compute; reflexivity) end. rewrite E. split; [reflexivity|].
  split; [|vm_compute; reflexivity]. repeat (apply Forall_cons; [split; [reflexivity | split; [discriminate | reflexivity]]|]). apply Forall_nil.
Qed.

(** C100, load: when the frame gives ISOUSC before IINST, the bar, its colour, the text and the badge are those of the last valid frame. *)
Theorem C100_load : forall fuel sgn b d0 acts es d os a q w, start_ok b -> boot b = Some (d0, acts) ->
  Forall is_byte (map snd (heard false es)) -> drun fuel sgn es d0 = Done (d, os) ->
  q_uri q = str "/tinfo.json" -> ~ refused q d ->
  exists r, last_valid (heard false es) r /\
    forall t0 bodies A B C si ii, r = Some (t0, bodies) -> pairs_of (content bodies) = A ++ (str "ISOUSC", si) :: B ++ (str "IINST", ii) :: C ->
    quotable (iso (a_env a) (tv_sec t0)) = true -> Forall (fun g => quotable (fst g) = true /\ quotable (snd g) = true) (pairs_of (content bodies)) ->
    ~ In (str "ISOUSC") (map fst B) -> ~ In (str "IINST") (map fst C) ->
    si <> [] -> forallb isdigit si = true -> ii <> [] -> forallb isdigit ii = true ->
    exists body cells w', dstep fuel sgn (DHttp a q) d = Done (d, [Reply 200 Web.Json body]) /\ refresh body w = (Some cells, w') /\
      let i := dec_value ii in let s := dec_value si in let pe := if s =? 0 then 0 else i * 100 / s in
      bar_width w' = pe /\ bar_class w' = str "progress-bar progress-bar-" ++ colour pe /\
      charge w' = dec i ++ str "A / " ++ dec s ++ str "A" /\ (0 < pe -> badge w' = dec pe ++ str "%").
Proof. exact c100_load. Qed.
Print Assumptions C100_load.
(** 25 A of 30 A *)
Example C100_ex_load : exists d0 acts d os, boot start2 = Some (d0, acts) /\ drun 256 true full2 d0 = Done (d, os) /\ ~ refused table_query d /\
  pairs_of (content (map (enc_group 32) groups_2)) =
    [] ++ (str "ISOUSC", str "30") :: [(str "HCHC", str "052890473"); (str "HCHP", str "049126843"); (str "PTEC", str "HC")] ++ (str "IINST", str "025") :: [(str "PAPP", str "05610")] /\
  exists body, dstep 256 true (DHttp (at_ms 4000) table_query) d = Done (d, [Reply 200 Web.Json body]) /\
    let w := snd (refresh body screen_init) in bar_width w = 83 /\ bar_class w = str "progress-bar progress-bar-warning" /\ charge w = str "25A / 30A" /\ badge w = str "83%".
Proof.
  destruct boot2 as (v & ee & B). exists (dev_live v ee), [StationMode; AutoReconnect].
  assert (X : result (fun d os => (text Username (cfg_of d),
      match dstep 256 true (DHttp (at_ms 4000) table_query) d with
      | Done (_, [Reply 200 _ body]) => let w := snd (refresh body screen_init) in (bar_width w, bar_class w, charge w, badge w)
      | _ => (0, [], [], []) end))
    (drun 256 true full2 (dev_live v ee)) = Some ([], (83, str "progress-bar progress-bar-warning", str "25A / 30A", str "83%"))) by (vm_compute; reflexivity).
  destruct (result_ok _ _ _ _ _ X) as (d & os & R & E). injection E as U E. exists d, os. split; [exact B|]. split; [exact R|].
  assert (N := open_login table_query _ U). split; [exact N|]. split; [vm_compute; reflexivity|].
  change (dstep 256 true (DHttp (at_ms 4000) table_query) d) with (handle 256 (at_ms 4000) table_query d).
  destruct (handle 256 (at_ms 4000) table_query d) as [[d1 o]| |] eqn:D; try discriminate E.
  assert (d1 = d /\ exists body, o = [Reply 200 Web.Json body]) as (-> & body & ->).
  { rewrite DevicePages.array_route in D by reflexivity. unfold send_json, if_ok in D.
    destruct (get_auth (cfg_of d) table_query); [injection D as _ <-; discriminate E| |];
    (destruct (tic_get_json_array _ _) as [bd|]; [|discriminate D]; cbn [lift] in D; injection D as <- <-; split; [reflexivity|eauto]). }
  exists body. split; [reflexivity|]. cbv zeta. cbv beta iota zeta in E. injection E as -> -> -> ->. auto.
Qed.

(** C100, gauges: a message is sent on a stream only when a valid frame ends, the stream is open, and the message is that of this
    frame: the browser reads one event, which makes the gauges show the groups of the frame. *)
Theorem C100_messages : forall fuel sgn b d0 acts es d os e d' o id text, start_ok b -> boot b = Some (d0, acts) ->
  Forall is_byte (map snd (heard false (es ++ [e]))) -> drun fuel sgn es d0 = Done (d, os) -> dstep fuel sgn e d = Done (d', o) ->
  In (Streaming (SentTo id text)) o ->
  is_open id (concat os) /\ exists a t0 gs, ends_frame es e a t0 gs /\ message_of (a_env a) t0 gs text.
Proof. exact c100_messages. Qed.
Print Assumptions C100_messages.
(** When the period of the streams is 0, at the end of each valid frame every open stream whose browser is still there gets exactly
    one message, that of the frame; the others are closed. *)
Theorem C100_live : forall fuel sgn b d0 acts es d os a up tv c d' o t0 gs id, start_ok b -> boot b = Some (d0, acts) ->
  Forall is_byte (map snd (heard false (es ++ [DByte a up tv c]))) -> drun fuel sgn es d0 = Done (d, os) ->
  ~ In RestartNow (concat os) -> s_sse_freq (view (cfg_of d)) = 0 ->
  dstep fuel sgn (DByte a up tv c) d = Done (d', o) -> ends_frame es (DByte a up tv c) a t0 gs ->
  is_open id (concat os) ->
  if up id then ~ In (Streaming (Closed id)) o /\ exists text, texts_to id (streamed o) = [text] /\ message_of (a_env a) t0 gs text
  else In (Streaming (Closed id)) o /\ texts_to id (streamed o) = [].
Proof. exact c100_live. Qed.
Print Assumptions C100_live.
(** The second frame: stream 0 gets its message. *)
Example C100_ex_live : exists d0 acts d os d' o text, start_ok start2 /\ boot start2 = Some (d0, acts) /\
  Forall is_byte (map snd (heard false (before_end ++ [last_byte]))) /\ drun 256 true before_end d0 = Done (d, os) /\ ~ In RestartNow (concat os) /\
  s_sse_freq (view (cfg_of d)) = 0 /\ dstep 256 true last_byte d = Done (d', o) /\ ends_frame before_end last_byte (at_ms 3000) now0 kept_2 /\
  is_open 0 (concat os) /\ up2 0 = true /\ In (Streaming (SentTo 0 text)) o /\
  quotable (iso env0 (tv_sec now0)) = true /\ Forall json_ready kept_2 /\ NoDup (map fst kept_2) /\
  forall g, map (fun data => on_message data g) (events_of text) = [mk_gauges (Some 5610) (Some 25) (str "49126.843") (str "52890.473") OffPeak].
Proof.
  destruct boot2 as (v & ee & B). exists (dev_live v ee), [StationMode; AutoReconnect].
  assert (X : exists text, result (fun d os => (s_sse_freq (view (cfg_of d)), existsb (fun o => match o with RestartNow => true | _ => false end) (concat os),
      existsb (fun o => match o with Streaming (Opened 0) => true | _ => false end) (concat (removelast os)),
      existsb (fun o => match o with Streaming (Closed 0) => true | _ => false end) (concat (removelast os)), streamed (last os [])))
    (drun 256 true full2 (dev_live v ee)) = Some (0, false, true, false, [SentTo 0 text]) /\
    forall g, map (fun data => on_message data g) (events_of text) = [mk_gauges (Some 5610) (Some 25) (str "49126.843") (str "52890.473") OffPeak])
    by (eexists; split; [vm_compute; reflexivity|intros g; vm_compute; reflexivity]).
  destruct X as (text & X & G). destruct (result_ok _ _ _ _ _ X) as (d' & os' & R & E). destruct (drun_snoc _ _ _ _ _ _ _ R) as (d & os & o & R1 & R2 & ->).
  rewrite removelast_last, last_last in E. injection E as _ E2 E3 E4 E5.
  assert (Y : result (fun d os => s_sse_freq (view (cfg_of d))) (drun 256 true before_end (dev_live v ee)) = Some 0) by (vm_compute; reflexivity).
  destruct (result_ok _ _ _ _ _ Y) as (d1 & os1 & R3 & U). rewrite R1 in R3. assert (d = d1) by congruence. subst d1.
  exists d, os, d', o, text. split; [exact start2_ok|]. split; [exact B|]. split; [exact heard2|]. split; [exact R1|].
  split; [|split; [exact U|split; [exact R2|split; [exact ends2|split; [|split; [reflexivity|split; [apply in_streamed; rewrite E5; left; reflexivity|split; [reflexivity|split; [|split; [|exact G]]]]]]]]]].
  - apply not_restarted. rewrite concat_app, existsb_app in E2. apply orb_false_iff in E2. apply E2.
  - split.
    + apply existsb_exists in E3. destruct E3 as (x & I & H). destruct x as [| |[[|n]| | |]| | | | | | |]; try discriminate H. exact I.
    + intros I. assert (existsb (fun o => match o with Streaming (Closed 0) => true | _ => false end) (concat os) = true).
      { apply existsb_exists. eexists. split; [exact I|reflexivity]. } congruence.
  - repeat constructor; vm_compute; discriminate.
  - repeat constructor; cbn; intuition discriminate.
Qed.

(** When the period of the streams is [p] ms, the messages follow the slots of [p] ms counted from the instant [t] at which the settings
    took effect: the frame ending [x] ms later, the earlier ones ending [ds] ms later, is sent on the open streams if and only if a
    multiple of [p] lies between the previous frame and it. *)
Theorem C100_period : forall fuel sgn b d0 acts en past es dp osp d os ms ds t x a up tv c d' o t0 gs id, start_ok b -> boot b = Some (d0, acts) ->
  Forall is_byte (map snd (heard false ((past ++ es) ++ [DByte a up tv c]))) -> Forall (same_env en) es ->
  configured_at fuel sgn b d0 past (u32 t) ->
  drun fuel sgn past d0 = Done (dp, osp) -> drun fuel sgn (past ++ es) d0 = Done (d, os) -> ~ In RestartNow (concat os) ->
  frames fuel sgn d0 past es ms -> Forall no_form es -> map m_now ms = map (fun y => u32 (t + y)) ds -> a_now a = u32 (t + x) ->
  let p := 1000 * s_sse_freq (view (cfg_of dp)) in 0 < s_sse_freq (view (cfg_of dp)) < 65536 -> spaced p 0 (ds ++ [x]) ->
  dstep fuel sgn (DByte a up tv c) d = Done (d', o) -> ends_frame (past ++ es) (DByte a up tv c) a t0 gs ->
  is_open id (concat os) ->
  if slot_passed p (last ds 0) x
  then if up id then ~ In (Streaming (Closed id)) o /\ exists text, texts_to id (streamed o) = [text] /\ message_of (a_env a) t0 gs text
       else In (Streaming (Closed id)) o /\ texts_to id (streamed o) = []
  else streamed o = [].
Proof. exact c100_period. Qed.
Print Assumptions C100_period.
(** A message every 10 s: nothing for the frame that ends at 1 s, one message for that which ends at 11 s. *)
Example C100_ex_period : exists d0 acts d os d' o m text, start_ok start1 /\ boot start1 = Some (d0, acts) /\
  Forall is_byte (map snd (heard false (almost3 ++ [end3]))) /\ Forall (same_env env0) almost3 /\ configured_at 256 true start1 d0 [] (u32 0) /\
  drun 256 true almost3 d0 = Done (d, os) /\ ~ In RestartNow (concat os) /\ frames 256 true d0 [] almost3 [m] /\ Forall no_form almost3 /\
  map m_now [m] = map (fun y => u32 (0 + y)) [1000] /\ a_now (at_ms 11000) = u32 (0 + 11000) /\ s_sse_freq (view (cfg_of d0)) = 10 /\
  spaced 10000 0 [1000; 11000] /\ dstep 256 true end3 d = Done (d', o) /\ ends_frame almost3 end3 (at_ms 11000) now0 kept_b /\
  is_open 0 (concat os) /\ slot_passed 10000 1000 11000 = true /\ streamed (concat os) = [Opened 0] /\ streamed o = [SentTo 0 text].
Proof.
  destruct boot1 as (v & ee & B). exists (dev_at v ee), [StationMode; AutoReconnect].
  assert (X : exists text, result (fun d os => (existsb (fun o => match o with RestartNow => true | _ => false end) (concat os),
      streamed (concat (removelast os)), streamed (last os [])))
    (drun 256 true (almost3 ++ [end3]) (dev_at v ee)) = Some (false, [Opened 0], [SentTo 0 text])) by (eexists; vm_compute; reflexivity).
  destruct X as (text & X). destruct (result_ok _ _ _ _ _ X) as (d' & os' & R & E). destruct (drun_snoc _ _ _ _ _ _ _ R) as (d & os & o & R1 & R2 & ->).
  rewrite removelast_last, last_last in E. injection E as E1 E2 E3.
  assert (R3 := R1). unfold almost3 in R3. destruct (prefix_done _ _ _ _ _ _ _ R3) as (d3 & os3 & R4). destruct (frames3 v ee _ _ R4) as (m & F & N).
  exists d, os, d', o, m, text. split; [exact start1_ok|]. split; [exact B|]. split; [exact heard3|]. split; [exact env3|]. split; [exact (by_start 256 true start1 _)|].
  split; [exact R1|]. split; [apply not_restarted; rewrite concat_app, existsb_app in E1; apply orb_false_iff in E1; apply E1|].
  split; [exact F|]. split; [exact no_form3|]. split; [cbn [map]; rewrite N; reflexivity|]. split; [reflexivity|]. split; [vm_compute; reflexivity|].
  split; [cbn; lia|]. split; [exact R2|]. split; [exact ends3|]. split; [|split; [reflexivity|auto]].
  split; [apply in_streamed; rewrite E2; left; reflexivity|]. intros I. apply in_streamed in I. rewrite E2 in I. cbn in I. intuition discriminate.
Qed.

(** C36 in the whole module: whatever happened since the start, at most two streams are open; a client that is not refused and asks
    for a stream gets a new one if fewer than two are open; otherwise it gets the response 503 and nothing changes. *)
Theorem C36_requests : forall fuel sgn b d0 acts es d os a q, start_ok b -> boot b = Some (d0, acts) -> drun fuel sgn es d0 = Done (d, os) ->
  In (q_uri q) [str "/sse/json"; str "/tic"] -> ~ refused q d ->
  exists ids d' o, NoDup ids /\ (length ids <= 2)%nat /\ (forall id, In id ids <-> is_open id (concat os)) /\
    dstep fuel sgn (DHttp a q) d = Done (d', o) /\
    if Nat.eqb (length ids) 2 then d' = d /\ o = [Reply 503 Web.Text (str "Service Unavailable (too many clients)")]
    else exists id, o = [Streaming (Opened id)] /\ ~ In (Streaming (Opened id)) (concat os) /\
           forall id', is_open id' (concat os ++ o) <-> In id' (ids ++ [id]).
Proof. exact c36_requests. Qed.
Print Assumptions C36_requests.
(** Three requests: the third is refused; a client leaves, the fourth request is accepted. *)
Definition four_requests : list devent :=
  [DHttp (at_ms 1) (ask "/tic"); DHttp (at_ms 2) (ask "/sse/json"); DHttp (at_ms 3) (ask "/tic"); DPoll (fun id => Nat.eqb id 1); DHttp (at_ms 4) (ask "/tic")].
Example C36_ex_requests : exists d0 acts d os, start_ok start1 /\ boot start1 = Some (d0, acts) /\ drun 256 true four_requests d0 = Done (d, os) /\
  ~ refused (ask "/tic") d /\
  os = [[Streaming (Opened 0)]; [Streaming (Opened 1)]; [Reply 503 Web.Text (str "Service Unavailable (too many clients)")];
        [Streaming (Closed 0)]; [Streaming (Opened 2)]].
Proof.
  destruct boot1 as (v & ee & B). exists (dev_at v ee), [StationMode; AutoReconnect].
  assert (X : result (fun d os => (os, text Username (cfg_of d))) (drun 256 true four_requests (dev_at v ee)) =
    Some ([[Streaming (Opened 0)]; [Streaming (Opened 1)]; [Reply 503 Web.Text (str "Service Unavailable (too many clients)")];
        [Streaming (Closed 0)]; [Streaming (Opened 2)]], [])) by (vm_compute; reflexivity).
  destruct (result_ok _ _ _ _ _ X) as (d & os & R & E). injection E as E1 E2. exists d, os. split; [exact start1_ok|]. split; [exact B|].
  split; [exact R|]. split; [|exact E1]. intros (N & _). exact (N E2).
Qed.
