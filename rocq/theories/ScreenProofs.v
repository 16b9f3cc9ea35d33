(** From the bytes of the meter to the browser. *)
From Coq Require Import ZArith List Bool Lia.
From Verif Require Import Base BaseFacts Teleinfo TeleinfoSpec Publish HistorySpec PublishProofs Config ConfigSpec ConfigProofs
  Json JsonBuild JsonBuildFacts Tic TicSpec NotifProofs PageProofs Sse SseSpec SseProofs SseFrame Cpu Web Wifi Device WebSpec WebProofs
  DeviceProofs DeviceMain DeviceFinal DevicePages Dash DashSpec DashProofs DashMain NotifMain RequestProofs ChainSpec ChainProofs ChainMain ScreenSpec.
Import ListNotations.
Open Scope Z_scope.

(** ** The table *)
Lemma less_total : forall a b, beq a b = false -> less a b = true \/ less b a = true.
Proof.
  induction a as [|x a IH]; intros [|y b] H; try discriminate; [left; reflexivity|right; reflexivity|]. cbn [less].
  destruct (Z.eqb_spec x y) as [->|N].
  - rewrite Z.eqb_refl. apply IH. destruct (beq a b) eqn:E; [|reflexivity]. apply beq_eq in E. subst. rewrite beq_refl in H. discriminate.
  - replace (y =? x) with false by (symmetry; apply Z.eqb_neq; congruence). rewrite !Z.ltb_lt. lia.
Qed.
Lemma formatter_shown : forall na v w, exists a, fst (value_formatter na v w) = with_arrow v a.
Proof.
  intros na v w. unfold value_formatter, mark. destruct (cell_number v) as [n|] eqn:Nv; [|exists NoArrow; reflexivity]. cbn [fst].
  destruct (counter na _) as [ref|]; [|exists NoArrow; reflexivity]. destruct (cell_number ref) as [m|] eqn:Nr; [|exists NoArrow; reflexivity].
  destruct (js_eq ref v) eqn:E; [exists NoArrow; reflexivity|]. destruct (js_lt ref v) eqn:L1; [exists Up; reflexivity|].
  destruct (js_lt v ref) eqn:L2; [exists Down; reflexivity|]. exfalso.
  assert (X : forall x y : Z, (x =? y) = false -> (x <? y) = false -> (y <? x) = false -> False).
  { intros x y H1 H2 H3. apply Z.eqb_neq in H1. apply Z.ltb_ge in H2, H3. lia. }
  destruct ref as [s|p], v as [t|q]; cbn [js_eq js_lt] in *; rewrite ?Nv, ?Nr in *; try (eapply X; eassumption).
  destruct (less_total s t E); congruence.
Qed.
Lemma draw_shown : forall rows w cs w', draw rows w = (cs, w') -> displays rows cs.
Proof.
  induction rows as [|[na v] rows IH]; intros w cs w' H; cbn [draw] in H; [injection H as <- _; constructor|].
  destruct (formatter_shown na v w) as (a & A). destruct (value_formatter na v w) as [c w1]. destruct (draw rows w1) as [cs1 w2] eqn:E.
  injection H as <- _. constructor; [exists a; exact A|]. exact (IH _ _ _ E).
Qed.

(** The state of the script after the drawings *)
Fixpoint last_screen (l : list (bool * list out)) (w : screen) : screen :=
  match l with
  | [] => w
  | (true, [Reply 200 _ body]) :: r => match table_of body with Some rows => last_screen r (snd (draw rows w)) | None => last_screen r w end
  | _ :: r => last_screen r w
  end.
Definition drawn_from (x : bool * list out) : option (list (list Z * cell)) :=
  match x with (true, [Reply 200 _ body]) => table_of body | _ => None end.
Lemma drawings_cons : forall x r w, drawings (x :: r) w =
  match drawn_from x with Some rows => mk_drawing rows (fst (draw rows w)) :: drawings r (snd (draw rows w)) | None => drawings r w end.
Proof.
  intros [[|] o] r w; [|reflexivity]. destruct o as [|[code k body| | | | | | | | |] [|y o]]; try reflexivity; cbn [drawings drawn_from].
  - destruct code as [|p|p]; try reflexivity. do 8 (try (destruct p as [p|p|]; try reflexivity)). destruct (table_of body) as [rows|]; [|reflexivity]. destruct (draw rows w); reflexivity.
  - destruct code as [|p|p]; try reflexivity. do 8 (try (destruct p as [p|p|]; try reflexivity)).
Qed.
Lemma last_cons : forall x r w, last_screen (x :: r) w = match drawn_from x with Some rows => last_screen r (snd (draw rows w)) | None => last_screen r w end.
Proof.
  intros [[|] o] r w; [|reflexivity]. destruct o as [|[code k body| | | | | | | | |] [|y o]]; try reflexivity; cbn [last_screen drawn_from];
  destruct code as [|p|p]; try reflexivity; do 8 (try (destruct p as [p|p|]; try reflexivity)).
Qed.
Lemma drawings_snoc : forall l x w, drawings (l ++ [x]) w = drawings l w ++
  match drawn_from x with Some rows => [mk_drawing rows (fst (draw rows (last_screen l w)))] | None => [] end.
Proof.
  induction l as [|y l IH]; intros x w.
  - cbn [app last_screen]. rewrite drawings_cons. destruct (drawn_from x); reflexivity.
  - cbn [app]. rewrite !drawings_cons, last_cons. destruct (drawn_from y); rewrite IH; reflexivity.
Qed.
Lemma drawings_draw : forall l w, exists w',
  draw (concat (map dr_rows (drawings l w))) w = (concat (map dr_cells (drawings l w)), w').
Proof.
  induction l as [|x l IH]; intros w; [exists w; reflexivity|]. rewrite drawings_cons. destruct (drawn_from x) as [rows|]; [|apply IH].
  cbn [map concat dr_rows dr_cells]. rewrite draw_app. destruct (draw rows w) as [c1 w1]. cbn [fst snd].
  destruct (IH w1) as (w' & E). rewrite E. exists w'. reflexivity.
Qed.

Lemma c100_refresh : forall fuel sgn b d0 acts es d os a q l d' o, start_ok b -> boot b = Some (d0, acts) ->
  Forall is_byte (map snd (heard false es)) -> drun fuel sgn es d0 = Done (d, os) ->
  q_uri q = str "/tinfo.json" -> ~ refused q d -> dstep fuel sgn (DHttp a q) d = Done (d', o) ->
  exists r, last_valid (heard false es) r /\
    match r with
    | None => drawings (l ++ [(true, o)]) screen_init = drawings l screen_init ++ [mk_drawing [] []]
    | Some (t0, bodies) => quotable (iso (a_env a) (tv_sec t0)) = true ->
        Forall (fun g => quotable (fst g) = true /\ quotable (snd g) = true) (pairs_of (content bodies)) ->
        exists w cells, watt (ti_of d) 60 = Some w /\
          drawings (l ++ [(true, o)]) screen_init =
            drawings l screen_init ++ [mk_drawing (table_rows (iso (a_env a) (tv_sec t0)) w (pairs_of (content bodies))) cells] /\
          displays (table_rows (iso (a_env a) (tv_sec t0)) w (pairs_of (content bodies))) cells
    end.
Proof.
  intros fuel sgn b d0 acts es d os a q l d' o St Bo B R U N H. cbn [dstep] in H. rewrite drawings_snoc.
  destruct (heard_groups _ _ _ _ _ _ _ _ St Bo B R) as (P & r & L & G).
  rewrite array_route in H by exact U. destruct (c12 (a_env a) (ti_of d) P) as (gs & w & body & C & W & J & Zr & Nz).
  exists r. split; [exact L|]. destruct r as [[t0 bodies]|].
  - destruct G as (G1 & G2 & G3 & _). intros Q1 Q2. assert (X : t_size (ti_of d) <> 0%nat).
    { rewrite G1. assert (Y := valid_content _ _ _ L). destruct (content bodies); [congruence|discriminate]. }
    destruct (page_table (a_env a) (ti_of d) _ body P X G2 ltac:(rewrite G3; exact Q1) Q2 J) as (w' & W' & T).
    assert (Nb : body <> []) by (intros ->; discriminate T).
    rewrite (sent_json q d _ body N (fun _ => J) Nb) in H. assert (o = [Reply 200 Web.Json body]) by congruence. subst o.
    cbn [drawn_from]. rewrite T. unfold table. rewrite G3. exists w'. destruct (draw (table_rows (iso (a_env a) (tv_sec t0)) w' (pairs_of (content bodies))) (last_screen l screen_init)) as [cs w2] eqn:D.
    exists cs. split; [exact W'|]. split; [|exact (draw_shown _ _ _ _ D)]. unfold table_rows in D. rewrite D. reflexivity.
  - assert (body = str "[]").
    { unfold tic_get_json_array, is_empty in J. rewrite G in J. cbn [Nat.eqb] in J. injection J as <-. reflexivity. }
    subst body. rewrite (sent_json q d _ (str "[]") N (fun _ => J) ltac:(discriminate)) in H.
    assert (o = [Reply 200 Web.Json (str "[]")]) by congruence. subst o. reflexivity.
Qed.
Lemma refused_reply : forall fuel a q d, q_uri q = str "/tinfo.json" -> refused q d -> handle fuel a q d = Done (d, [challenge]).
Proof.
  intros fuel a q d U (N & A). rewrite array_route by exact U. unfold send_json, if_ok, get_auth. destruct (text Username (cfg_of d)) as [|c t]; [congruence|].
  rewrite A. reflexivity.
Qed.
Lemma c100_kept : forall fuel sgn e d d' o (mine : bool) l w, dstep fuel sgn e d = Done (d', o) -> marked mine e ->
  (if mine then exists a q, e = DHttp a q /\ refused q d else True) ->
  drawings (l ++ [(mine, o)]) w = drawings l w.
Proof.
  intros fuel sgn e d d' o mine l w H M K. rewrite drawings_snoc. destruct mine; [|cbn [drawn_from]; apply app_nil_r].
  destruct K as (a & q & -> & K). destruct M as (a' & q' & E & U). injection E as <- <-.
  cbn [dstep] in H. rewrite refused_reply in H by assumption. assert (o = [challenge]) by congruence. subst o. apply app_nil_r.
Qed.
Lemma c100_arrows : forall l k na, let ds := drawings l screen_init in
  let rows := concat (map dr_rows ds) in let cells := concat (map dr_cells ds) in
  Forall (of_kind k) (values_of na rows) ->
  cells_of na rows cells = map (fun x => with_arrow (fst x) (snd x)) (combine (values_of na rows) (arrows None (map value (values_of na rows)))).
Proof. intros l k na ds rows cells F. destruct (drawings_draw l screen_init) as (w' & D). exact (c82 k na rows cells w' D F). Qed.
Lemma c100_load : forall fuel sgn b d0 acts es d os a q w, start_ok b -> boot b = Some (d0, acts) ->
  Forall is_byte (map snd (heard false es)) -> drun fuel sgn es d0 = Done (d, os) ->
  q_uri q = str "/tinfo.json" -> ~ refused q d ->
  exists r, last_valid (heard false es) r /\
    forall t0 bodies A B C si ii, r = Some (t0, bodies) -> pairs_of (content bodies) = A ++ (str "ISOUSC", si) :: B ++ (str "IINST", ii) :: C ->
    quotable (iso (a_env a) (tv_sec t0)) = true -> Forall (fun g => quotable (fst g) = true /\ quotable (snd g) = true) (pairs_of (content bodies)) ->
    ~ In (str "ISOUSC") (map fst B) -> ~ In (str "IINST") (map fst C) ->
    si <> [] -> forallb isdigit si = true -> ii <> [] -> forallb isdigit ii = true ->
    exists body cells w', dstep fuel sgn (DHttp a q) d = Done (d, [Reply 200 Web.Json body]) /\ refresh body w = (Some cells, w') /\
      let i := dec_value ii in let s := dec_value si in let pe := if s =? 0 then 0 else i * 100 / s in
      bar_width w' = pe /\ bar_class w' = str "progress-bar progress-bar-" ++ colour pe /\
      charge w' = dec i ++ str "A / " ++ dec s ++ str "A" /\ (0 < pe -> badge w' = dec pe ++ str "%").
Proof.
  intros fuel sgn b d0 acts es d os a q w St Bo By R U N.
  destruct (heard_groups _ _ _ _ _ _ _ _ St Bo By R) as (P & r & L & G). exists r. split; [exact L|].
  intros t0 bodies A B C si ii -> E Q1 Q2 HB HC S1 S2 I1 I2. destruct G as (G1 & G2 & G3 & _).
  assert (X : t_size (ti_of d) <> 0%nat).
  { rewrite G1. assert (Y := valid_content _ _ _ L). destruct (content bodies); [congruence|discriminate]. }
  destruct (c12 (a_env a) (ti_of d) P) as (gs & w0 & body & _ & _ & J & _ & _).
  destruct (page_table (a_env a) (ti_of d) _ body P X G2 ltac:(rewrite G3; exact Q1) Q2 J) as (w' & W' & T).
  assert (Nb : body <> []) by (intros ->; discriminate T). rewrite E in G2, Q2.
  destruct (c81_page (a_env a) (ti_of d) A B C si ii body w P X G2 ltac:(rewrite G3; exact Q1) Q2 HB HC S1 S2 I1 I2 J) as (cells & w1 & F & K).
  exists body, cells, w1. split; [|split; [exact F|exact K]]. cbn [dstep]. rewrite array_route by exact U. exact (sent_json q d _ body N (fun _ => J) Nb).
Qed.

Lemma heard_split : forall X off, exists off', forall Y, heard off (X ++ Y) = heard off X ++ heard off' Y.
Proof.
  induction X as [|e X IH]; intros off; [exists off; reflexivity|].
  destruct e; cbn [app heard]; try apply IH. destruct (IH off) as (o & H). exists o. intros Y. rewrite H. destruct off; reflexivity.
Qed.

(** ** The streams *)
(** The clients of the list are the open streams. *)
Record streams_ok (s : sse) (o : list out) : Prop := {
  st_ok : sse_ok s;
  st_open : forall id, In id (sse_list s) <-> is_open id o;
  st_known : forall id, In (Streaming (Opened id)) o \/ In (Streaming (Closed id)) o -> (id < sse_next s)%nat }.
Lemma pass_effects : forall up data l,
  (forall id, In (Closed id) (pass up data l) <-> In id l /\ up id = false) /\ (forall id, ~ In (Opened id) (pass up data l)) /\
  (forall id text, In (SentTo id text) (pass up data l) -> In id l /\ up id = true /\ exists d, data = Some d /\ text = event_text d).
Proof.
  intros up data l. unfold pass. split; [|split]; intros id.
  - rewrite in_flat_map. split.
    + intros (x & I & H). destruct (up x) eqn:U; [destruct data; cbn in H; [destruct H as [H|H]; [discriminate|destruct H]|destruct H]|].
      destruct H as [H|[]]. injection H as ->. auto.
    + intros (I & U). exists id. split; [exact I|]. rewrite U. left. reflexivity.
  - rewrite in_flat_map. intros (x & I & H). destruct (up x); [destruct data|]; cbn in H; intuition discriminate.
  - intros text. rewrite in_flat_map. intros (x & I & H). destruct (up x) eqn:U.
    + destruct data as [d|]; [|destruct H]. destruct H as [H|[]]. injection H as -> <-. eauto 10.
    + destruct H as [H|[]]. discriminate.
Qed.
Lemma in_stream : forall x o, In (Streaming x) (map Streaming o) <-> In x o.
Proof. intros x o. split; [apply in_streaming|]. intros I. apply in_map. exact I. Qed.
Lemma streams_pass : forall up data s s' o p, streams_ok s p -> handle_clients up data s = Some (s', o) -> streams_ok s' (p ++ map Streaming o).
Proof.
  intros up data s s' o p [K O N] H. rewrite handle_clients_spec in H by exact K. injection H as <- <-.
  destruct (pass_effects up data (sse_list s)) as (C & NO & _). split.
  - apply clients_ok. exact K.
  - intros id. cbn [sse_list]. rewrite filter_In, O. unfold is_open. rewrite !in_app_iff, !in_stream, C, O. unfold is_open.
    assert (X := NO id). destruct (up id); intuition discriminate.
  - intros id. cbn [sse_next]. rewrite !in_app_iff, !in_stream, C. intros [[I|I]|[I|(I & _)]]; [apply N; auto|destruct (NO _ I)|apply N; auto|].
    apply K. exact I.
Qed.
Lemma streams_ask : forall s p, streams_ok s p -> streams_ok (fst (handle_sse_data s)) (p ++ map sse_out (snd (handle_sse_data s))).
Proof.
  intros s p [K O N]. assert (K' := ask_ok s K). unfold handle_sse_data in *. destruct (Nat.ltb (length (sse_list s)) 2); cbn [fst snd map sse_out] in *.
  - split; [exact K'| |].
    + intros id. cbn [sse_list]. rewrite in_app_iff, O. unfold is_open. rewrite !in_app_iff. cbn [In].
      assert (X : In (Streaming (Closed (sse_next s))) p -> False) by (intros I; assert (Y := N _ (or_intror I)); lia).
      split.
      * intros [(A & B)|[<-|[]]]; split; auto; intros [I|[I|[]]]; auto; discriminate.
      * intros ([A|[A|[]]] & B); [left; split; [exact A|]; intros I; apply B; left; exact I|]. injection A as ->. auto.
    + intros id. cbn [sse_next]. rewrite !in_app_iff. cbn [In]. intros [[I|[I|[]]]|[I|[I|[]]]]; try discriminate.
      * assert (Y := N _ (or_introl I)). lia.
      * injection I as ->. lia.
      * assert (Y := N _ (or_intror I)). lia.
  - split; [exact K'| |].
    + intros id. rewrite O. unfold is_open. rewrite !in_app_iff. cbn [In]. intuition discriminate.
    + intros id. rewrite !in_app_iff. cbn [In]. intros [[I|[I|[]]]|[I|[I|[]]]]; try discriminate; apply N; auto.
Qed.
Lemma streams_none : forall s p o, streams_ok s p -> (forall x, ~ In (Streaming x) o) -> streams_ok s (p ++ o).
Proof.
  intros s p o [K O N] X. split; [exact K| |].
  - intros id. rewrite O. unfold is_open. rewrite !in_app_iff. assert (A := X (Opened id)). assert (B := X (Closed id)). tauto.
  - intros id. rewrite !in_app_iff. assert (A := X (Opened id)). assert (B := X (Closed id)). intros H. apply N. tauto.
Qed.
Lemma streams_effects : forall up es d d' o p, streams_ok (d_sse d) p -> effects_out up es d = Some (d', o) -> streams_ok (d_sse d') (p ++ o).
Proof.
  intros up. induction es as [|x es IH]; intros d d' o p K H; cbn [effects_out] in H; [injection H as <- <-; rewrite app_nil_r; exact K|].
  destruct (effect_out up x d) as [[d1 o1]|] eqn:E; [|discriminate]. destruct (effects_out up es d1) as [[d2 o2]|] eqn:E2; [|discriminate].
  injection H as <- <-. rewrite app_assoc. apply (IH _ _ _ _) with (2 := E2). destruct x; cbn [effect_out] in E.
  - injection E as <- <-. apply streams_none; [exact K|]. intros y [I|[]]. discriminate.
  - match type of E with context [handle_clients ?u ?v ?w] => destruct (handle_clients u v w) as [[s os]|] eqn:F; [|discriminate] end.
    injection E as <- <-. exact (streams_pass _ _ _ _ _ _ K F).
Qed.
Lemma streams_step : forall fuel sgn e d d' o p, streams_ok (d_sse d) p -> dstep fuel sgn e d = Done (d', o) -> streams_ok (d_sse d') (p ++ o).
Proof.
  intros fuel sgn e d d' o p K H. destruct e; cbn [dstep] in H.
  - destruct (cpuload_loop _ _); [|discriminate]. cbn [lift] in H. injection H as <- <-. rewrite app_nil_r. exact K.
  - destruct (receive sgn a up tv c d) as [[d1 o1]|] eqn:E; [|discriminate]. cbn [lift] in H. injection H as <- <-.
    unfold receive in E. destruct (tic_decode sgn tv c (d_pub d)) as [[p1 fresh]|]; [|discriminate]. destruct fresh.
    + destruct (tic_notifs _ _ _ _ _ _ _) as [[[es n] t]|]; [|discriminate]. exact (streams_effects _ _ _ _ _ _ (K : streams_ok (d_sse (mk_dev (d_cs d) p1 n t (d_sse d) (d_perf d) (d_upd d))) p) E).
    + injection E as <- <-. rewrite app_nil_r. exact K.
  - apply handle_happened in H. destruct H as [-> N|U R -> ->|r s code U G F -> ->|s U G F -> ->].
    + apply streams_none; assumption.
    + exact (streams_ask _ _ K).
    + apply streams_none; [exact K|]. intros x [I|[]]. discriminate.
    + apply streams_none; [exact K|]. intros x. cbn. intuition discriminate.
  - injection H as H. destruct (upload_keeps a u d) as (_ & U & N & _). rewrite H in U, N. cbn [fst snd] in *. rewrite U. apply streams_none; assumption.
  - destruct (handle_clients up None (d_sse d)) as [[s os]|] eqn:E; [|discriminate]. cbn [lift] in H. injection H as <- <-. exact (streams_pass _ _ _ _ _ _ K E).
Qed.
Lemma streams_run : forall fuel sgn b d0 acts es d os, start_ok b -> boot b = Some (d0, acts) -> drun fuel sgn es d0 = Done (d, os) ->
  streams_ok (d_sse d) (concat os).
Proof.
  intros fuel sgn b d0 acts es. induction es as [|e es IH] using rev_ind; intros d os St Bo H.
  - injection H as <- <-. destruct (boot_pub b d0 acts St Bo) as (_ & -> & _). split; [apply init_ok| |]; cbn; unfold is_open; cbn; tauto.
  - apply drun_snoc in H. destruct H as (d1 & os1 & o & H1 & H2 & ->). rewrite concat_app. cbn [concat]. rewrite app_nil_r.
    exact (streams_step _ _ _ _ _ _ _ (IH _ _ St Bo H1) H2).
Qed.

(** ** What is sent on the streams *)
Lemma streamed_app : forall a b, streamed (a ++ b) = streamed a ++ streamed b.
Proof. intros. apply flat_map_app. Qed.
Lemma streamed_map : forall o, streamed (map Streaming o) = o.
Proof. induction o as [|x o IH]; [reflexivity|]. unfold streamed in *. cbn [map flat_map app]. rewrite IH. reflexivity. Qed.
Lemma pushed_none : forall e c t o, Forall (genuine e c t) o -> pushed o = false -> Forall (fun x => match x with Request _ _ => True | _ => False end) o.
Proof.
  intros e c t o _ P. induction o as [|x o IH]; [constructor|]. unfold pushed in *. cbn [existsb] in P. apply orb_false_iff in P. destruct P as (P1 & P2).
  constructor; [destruct x; [exact Logic.I|discriminate]|auto].
Qed.
Lemma requests_out : forall up front tail d d' o, Forall (fun x => match x with Request _ _ => True | _ => False end) front ->
  effects_out up (front ++ tail) d = Some (d', o) -> exists o1, effects_out up tail d = Some (d', o1) /\ streamed o = streamed o1.
Proof.
  intros up front. induction front as [|x front IH]; intros tail d d' o F H; [exists o; auto|]. inversion F as [|? ? F1 F2]; subst.
  destruct x; [|destruct F1]. cbn [app effects_out effect_out] in H.
  destruct (effects_out up (front ++ tail) d) as [[d2 o2]|] eqn:E; [|discriminate]. injection H as <- <-.
  destruct (IH _ _ _ _ F2 E) as (o1 & E1 & X). exists o1. split; [exact E1|]. exact X.
Qed.
Lemma notifs_streams : forall e c now k t s ts o s' ts', published_ti t -> tic_notifs e c now k t s ts = Some (o, s', ts') ->
  t_sse ts' = snd (tm_expired now (t_sse ts)) /\
  exists front tail, o = front ++ tail /\ Forall (fun x => match x with Request _ _ => True | _ => False end) front /\
    if fst (tm_expired now (t_sse ts)) && negb (Nat.eqb k 0) then exists d, tail = [SseData d] /\ tic_get_json_dict e t = Some d else tail = [].
Proof.
  intros e c now k t s ts o s' ts' P H. unfold tic_notifs in H.
  destruct (notifs_http e c now t s (t_http ts)) as [[[oh sh] th]|] eqn:EH; [|discriminate].
  destruct (tm_expired now (t_jeedom ts)) as [fj tj]. destruct (if fj then jeedom_notif c t else Some None) as [rj|]; [|discriminate].
  destruct (tm_expired now (t_emoncms ts)) as [fe te]. destruct (if fe then emoncms_notif c t else Some None) as [re|]; [|discriminate].
  destruct (tm_expired now (t_sse ts)) as [fs tsse]. cbn [fst snd].
  destruct (notifs_http_spec _ _ _ _ _ _ _ _ _ P EH) as (PH & GH & _).
  assert (Fr : Forall (fun x => match x with Request _ _ => True | _ => False end) (oh ++ as_effect JEEDOM rj ++ as_effect EMONCMS re)).
  { apply Forall_app. split; [exact (pushed_none _ _ _ _ GH PH)|]. apply Forall_app. split; [destruct rj|destruct re]; repeat constructor. }
  destruct (fs && negb (Nat.eqb k 0)).
  - destruct (tic_get_json_dict e t) as [d|]; [|discriminate]. assert (o = (oh ++ as_effect JEEDOM rj ++ as_effect EMONCMS re) ++ [SseData d]) as -> by (rewrite <- !app_assoc; congruence).
    assert (ts' = mk_timers th te tj tsse) as -> by congruence. split; [reflexivity|]. eexists _, _. split; [reflexivity|]. split; [exact Fr|]. eauto.
  - assert (o = (oh ++ as_effect JEEDOM rj ++ as_effect EMONCMS re) ++ []) as -> by (rewrite <- !app_assoc; congruence).
    assert (ts' = mk_timers th te tj tsse) as -> by congruence. split; [reflexivity|]. eexists _, _. split; [reflexivity|]. split; [exact Fr|]. reflexivity.
Qed.

Lemma dict_events : forall e t data, published_ti t -> quotable (iso e (tv_sec (t_ts t))) = true -> tic_get_json_dict e t = Some data ->
  events_of (event_text data) = [data].
Proof.
  intros e t data P Q D. assert (O : SseProofs.one_line data).
  { apply (c38 e t data P); [|exact D]. unfold quotable in Q. apply andb_true_iff in Q. destruct Q as (Q & _). rewrite forallb_forall in Q.
    apply Forall_forall. intros c I. specialize (Q c I). apply andb_true_iff in Q. destruct Q as (Q & _). apply andb_true_iff in Q. destruct Q as (Q & _).
    apply Z.leb_le in Q. lia. }
  assert (X := events_stream [data] ltac:(constructor; [exact O|constructor])). cbn [map concat] in X. rewrite app_nil_r in X. exact X.
Qed.

Lemma message_dict : forall e t t0 gs data, published_ti t -> t_size t <> 0%nat -> carries t gs -> t_ts t = t0 -> tic_get_json_dict e t = Some data ->
  message_of e t0 gs (event_text data).
Proof.
  intros e t t0 gs data P Sz C <- D. exists data. split; [reflexivity|]. split.
  - intros Q. exact (dict_events _ _ _ P Q D).
  - intros Q J N g. exact (c83 e t gs data g P Sz C Q J N D).
Qed.
Lemma byte_streams : forall fuel sgn b d0 acts es d os a up tv c d' o, start_ok b -> boot b = Some (d0, acts) ->
  Forall is_byte (map snd (heard false (es ++ [DByte a up tv c]))) -> drun fuel sgn es d0 = Done (d, os) ->
  dstep fuel sgn (DByte a up tv c) d = Done (d', o) ->
  (streamed o <> [] -> exists t0 gs, ends_frame es (DByte a up tv c) a t0 gs) /\
  (forall a' t0 gs, ends_frame es (DByte a up tv c) a' t0 gs -> a' = a /\
     t_sse (d_tm d') = snd (tm_expired (a_now a) (t_sse (d_tm d))) /\
     (streamed o = [] /\ (fst (tm_expired (a_now a) (t_sse (d_tm d))) = false \/ sse_list (d_sse d) = []) \/
      exists data, fst (tm_expired (a_now a) (t_sse (d_tm d))) = true /\ streamed o = pass up (Some data) (sse_list (d_sse d)) /\
        message_of (a_env a) t0 gs (event_text data))) /\
  (t_sse (d_tm d') = t_sse (d_tm d) \/ t_sse (d_tm d') = snd (tm_expired (a_now a) (t_sse (d_tm d)))) /\ cfg_of d' = cfg_of d.
Proof.
  intros fuel sgn b d0 acts es d os a up tv c d' o St Bo B R H. cbn [dstep] in H.
  destruct (receive sgn a up tv c d) as [[d1 o1]|] eqn:E; [|discriminate]. cbn [lift] in H. injection H as <- <-.
  destruct (receive_keeps _ _ _ _ _ _ _ _ E) as ((fresh & T) & Cs & _). unfold receive in E. rewrite T in E.
  destruct (fresh_iff fuel sgn b d0 acts St Bo _ _ _ a up tv c _ _ B R T) as (Yes & No).
  assert (So := st_ok _ _ (streams_run _ _ _ _ _ _ _ _ St Bo R)). unfold cfg_of. rewrite Cs. destruct fresh.
  - destruct (Yes eq_refl) as (t0 & gs & Ef). destruct (No _ _ _ Ef) as (_ & _ & PT & _).
    destruct (tic_notifs (a_env a) (cfg_of d) (a_now a) (length (sse_list (d_sse d))) (p_ti (d_pub d1)) (d_ns d) (d_tm d)) as [[[es' n] t]|] eqn:TN; [|discriminate].
    destruct (notifs_streams _ _ _ _ _ _ _ _ _ _ PT TN) as (Ts & front & tail & -> & Fr & Ta).
    destruct (requests_out _ _ _ _ _ _ Fr E) as (o2 & E2 & So2). destruct (effects_keep _ _ _ _ _ E) as (_ & _ & _ & _ & Kt). cbn [d_tm] in Kt. rewrite Kt.
    split; [intros _; eauto|]. split; [|split; [right; exact Ts|reflexivity]].
    intros a' t1 gs1 Ef1. destruct (No _ _ _ Ef1) as (_ & -> & _ & Ca & T1 & Sz). split; [reflexivity|]. split; [exact Ts|]. rewrite So2.
    destruct (fst (tm_expired (a_now a) (t_sse (d_tm d)))) eqn:X; cbn [andb] in Ta.
    + destruct (Nat.eqb_spec (length (sse_list (d_sse d))) 0) as [L|L]; cbn [negb] in Ta.
      * subst tail. cbn [effects_out] in E2. injection E2 as _ <-. left. split; [reflexivity|]. right. destruct (sse_list (d_sse d)); [reflexivity|discriminate].
      * destruct Ta as (data & -> & D). right. exists data. cbn [effects_out effect_out d_sse] in E2. rewrite handle_clients_spec in E2 by exact So.
        injection E2 as _ <-. rewrite app_nil_r, streamed_map. split; [reflexivity|]. split; [reflexivity|]. exact (message_dict _ _ _ _ _ PT Sz Ca T1 D).
    + subst tail. cbn [effects_out] in E2. injection E2 as _ <-. left. split; [reflexivity|left; reflexivity].
  - injection E as E <-. split; [intros X; destruct (X eq_refl)|]. split; [|split; [left; rewrite <- E; reflexivity|reflexivity]].
    intros a' t0 gs Ef. destruct (No _ _ _ Ef) as (X & _). discriminate.
Qed.
Lemma in_streamed : forall x o, In (Streaming x) o <-> In x (streamed o).
Proof.
  intros x o. unfold streamed. rewrite in_flat_map. split.
  - intros I. exists (Streaming x). split; [exact I|left; reflexivity].
  - intros (y & I & H). destruct y; try destruct H as [H|H]; try destruct H. subst. exact I.
Qed.
Lemma c100_messages : forall fuel sgn b d0 acts es d os e d' o id text, start_ok b -> boot b = Some (d0, acts) ->
  Forall is_byte (map snd (heard false (es ++ [e]))) -> drun fuel sgn es d0 = Done (d, os) -> dstep fuel sgn e d = Done (d', o) ->
  In (Streaming (SentTo id text)) o ->
  is_open id (concat os) /\ exists a t0 gs, ends_frame es e a t0 gs /\ message_of (a_env a) t0 gs text.
Proof.
  intros fuel sgn b d0 acts es d os e d' o id text St Bo B R H I.
  assert (SO := streams_run _ _ _ _ _ _ _ _ St Bo R). destruct (dstep_to _ _ _ _ _ _ H) as (_ & To).
  split; [apply SO; exact (To _ _ I)|].
  assert (Eb : exists a up tv c, e = DByte a up tv c).
  { destruct e; eauto; exfalso; cbn [dstep] in H.
    - destruct (cpuload_loop _ _); [|discriminate]. cbn [lift] in H. injection H as _ <-. destruct I.
    - apply handle_happened in H. destruct H as [-> N|U Rf -> ->|r s code U G F -> ->|s U G F -> ->].
      + exact (N _ I).
      + unfold handle_sse_data in I. destruct (Nat.ltb _ 2); destruct I as [I|[]]; discriminate.
      + destruct I as [I|[]]. discriminate.
      + cbn in I. intuition discriminate.
    - injection H as H. destruct (upload_keeps a u d) as (_ & _ & N & _). rewrite H in N. exact (N _ I).
    - rewrite handle_clients_spec in H by apply SO. cbn [lift] in H. injection H as _ <-. apply in_stream in I.
      destruct (pass_effects up None (sse_list (d_sse d))) as (_ & _ & X). destruct (X _ _ I) as (_ & _ & dt & Y & _). discriminate. }
  destruct Eb as (a & up & tv & c & ->). destruct (byte_streams _ _ _ _ _ _ _ _ _ _ _ _ _ _ St Bo B R H) as (Y & Z0 & _).
  apply in_streamed in I. destruct (Y ltac:(intros X; rewrite X in I; destruct I)) as (t0 & gs & Ef). exists a, t0, gs. split; [exact Ef|].
  destruct (Z0 _ _ _ Ef) as (_ & _ & [(X & _)|(data & _ & X & M)]); [rewrite X in I; destruct I|]. rewrite X in I.
  destruct (pass_effects up (Some data) (sse_list (d_sse d))) as (_ & _ & Q). destruct (Q _ _ I) as (_ & _ & dt & Y2 & ->). injection Y2 as <-. exact M.
Qed.

(** The timer of the streams follows the settings. *)
Definition sse_timed (d : device) : Prop := num SseFreq (cfg_of d) = 0 -> tm_period (t_sse (d_tm d)) = 0.
Lemma timed_make : forall now c t, num SseFreq c = 0 -> tm_period (t_sse (tic_make_timers now c t)) = 0.
Proof. intros now c t H. unfold tic_make_timers. cbn [t_sse]. rewrite H. reflexivity. Qed.
Lemma period_kept : forall now tm, tm_period (snd (tm_expired now tm)) = tm_period tm.
Proof. intros now tm. unfold tm_expired. destruct (tm_period tm =? 0); [reflexivity|]. destruct (tm_never tm); [reflexivity|]. destruct (_ <=? _); reflexivity. Qed.
Lemma timed_run : forall fuel sgn b d0 acts es d os, start_ok b -> boot b = Some (d0, acts) -> drun fuel sgn es d0 = Done (d, os) ->
  Forall is_byte (map snd (heard false es)) -> ~ In RestartNow (concat os) -> sse_timed d.
Proof.
  intros fuel sgn b d0 acts es. induction es as [|e es IH] using rev_ind; intros d os St Bo H B N.
  - injection H as <- <-. assert (X := booted_at _ _ _ Bo). unfold ts_of, tic_start in X. injection X as _ X.
    intros Zr. rewrite X. apply timed_make. exact Zr.
  - apply drun_snoc in H. destruct H as (d1 & os1 & o & H1 & H2 & ->). rewrite concat_app in N. cbn [concat] in N. rewrite app_nil_r in N.
    assert (N1 : ~ In RestartNow (concat os1)) by (intros I; apply N; apply in_or_app; left; exact I).
    assert (N2 : ~ In RestartNow o) by (intros I; apply N; apply in_or_app; right; exact I).
    assert (B1 : Forall is_byte (map snd (heard false es))).
    { destruct (heard_split es false) as (off & X). rewrite X, map_app in B. apply Forall_app in B. apply B. }
    assert (K := IH _ _ St Bo H1 B1 N1). intros Zr.
    assert (W : (forall a up tv c, e <> DByte a up tv c) -> tm_period (t_sse (d_tm d)) = 0).
    { intros Ne. destruct (other_step _ _ _ _ _ _ H2 Ne N2) as (_ & [X|(_ & now & X)]); unfold ts_of in X.
      - injection X as X1 _ X2. rewrite X2. apply K. rewrite <- X1. exact Zr.
      - injection X as _ X2. rewrite X2. apply timed_make. exact Zr. }
    destruct e; try (apply W; discriminate). clear W.
    destruct (byte_streams _ _ _ _ _ _ _ _ _ _ _ _ _ _ St Bo B H1 H2) as (_ & _ & [X|X] & C); rewrite X, ?period_kept; apply K; rewrite <- C; exact Zr.
Qed.
Lemma c100_live : forall fuel sgn b d0 acts es d os a up tv c d' o t0 gs id, start_ok b -> boot b = Some (d0, acts) ->
  Forall is_byte (map snd (heard false (es ++ [DByte a up tv c]))) -> drun fuel sgn es d0 = Done (d, os) ->
  ~ In RestartNow (concat os) -> s_sse_freq (view (cfg_of d)) = 0 ->
  dstep fuel sgn (DByte a up tv c) d = Done (d', o) -> ends_frame es (DByte a up tv c) a t0 gs ->
  is_open id (concat os) ->
  if up id then ~ In (Streaming (Closed id)) o /\ exists text, texts_to id (streamed o) = [text] /\ message_of (a_env a) t0 gs text
  else In (Streaming (Closed id)) o /\ texts_to id (streamed o) = [].
Proof.
  intros fuel sgn b d0 acts es d os a up tv c d' o t0 gs id St Bo B R N Zr H Ef Op.
  assert (SO := streams_run _ _ _ _ _ _ _ _ St Bo R). apply SO in Op.
  assert (B1 : Forall is_byte (map snd (heard false es))).
  { destruct (heard_split es false) as (off & X). rewrite X, map_app in B. apply Forall_app in B. apply B. }
  assert (Tm := timed_run _ _ _ _ _ _ _ _ St Bo R B1 N Zr).
  destruct (byte_streams _ _ _ _ _ _ _ _ _ _ _ _ _ _ St Bo B R H) as (_ & Y & _).
  destruct (Y _ _ _ Ef) as (_ & _ & [(_ & [X|X])|(data & _ & X & M)]).
  - unfold tm_expired in X. rewrite Tm in X. discriminate X.
  - rewrite X in Op. destruct Op.
  - destruct (pass_in up (Some data) id _ (so_list _ (st_ok _ _ SO)) Op) as (T & _).
    destruct (pass_effects up (Some data) (sse_list (d_sse d))) as (C & _). specialize (C id). assert (W := in_streamed (Closed id) o). rewrite X in W.
    rewrite X, T. destruct (up id) eqn:U.
    + split; [|eauto]. intros V. apply W, C in V. destruct V. discriminate.
    + split; [|reflexivity]. apply W, C. auto.
Qed.

(** ** The period of the streams *)
Lemma sse_ticks : forall e a c p, 0 < p -> forall fs b st os st', Forall (fun f => published_ti (snd (snd f))) fs -> ts_cfg st = c ->
  ticking a p b (t_sse (ts_tm st)) -> 0 <= b -> spaced p b (map fst fs) -> tic_run e (frames_from a fs) st = Some (os, st') ->
  ticking a p (last (map fst fs) b) (t_sse (ts_tm st')) /\ b <= last (map fst fs) b.
Proof.
  intros e a c p Hp. induction fs as [|f fs IH]; intros b st os st' P C T B Sp R.
  - cbn [frames_from map tic_run] in R. assert (st = st') by congruence. subst st'. split; [exact T|apply Z.le_refl].
  - cbn [frames_from map] in R. apply NotifMain.run_cons in R. destruct R as (o & st1 & os' & S & R & ->).
    apply frame_step in S. destruct S as (n & tm & S & ->). apply Forall_cons_iff in P. destruct P as (P1 & P2). cbn [map spaced] in Sp. destruct Sp as (S1 & S2 & S3).
    destruct (notifs_streams _ _ _ _ _ _ _ _ _ _ P1 S) as (N & _).
    destruct (poll a p b (fst f) (t_sse (ts_tm st)) Hp ltac:(lia) S2 T) as [F T'].
    assert (X := IH (fst f) (mk_ts (ts_cfg st) n tm) os' st' P2 C ltac:(cbn [ts_tm]; rewrite N; exact T') ltac:(lia) S3 R).
    assert (Y : last (map fst (f :: fs)) b = last (map fst fs) (fst f)).
    { cbn [map]. clear. revert f. induction (map fst fs) as [|x l IH]; intros f; [reflexivity|]. destruct l; [reflexivity|]. exact (IH f). }
    rewrite Y. destruct X. split; [assumption|lia].
Qed.
Lemma spaced_snoc : forall p ds b x, spaced p b (ds ++ [x]) -> spaced p b ds /\ last ds b <= x /\ x - last ds b + p <= 4294967296.
Proof.
  intros p. induction ds as [|d ds IH]; intros b x S; cbn [app spaced] in S; [cbn; tauto|]. destruct S as (S1 & S2 & S3).
  destruct (IH _ _ S3) as (A & B & C). cbn [spaced]. split; [auto|]. destruct ds as [|y ds]; [cbn in *; auto|]. 
  assert (E : last (d :: y :: ds) b = last (y :: ds) d). { clear. cbn [last]. revert y. induction ds as [|z ds IH]; intros y; [reflexivity|]. exact (IH z). }
  rewrite E. auto.
Qed.
Lemma c100_period : forall fuel sgn b d0 acts en past es dp osp d os ms ds t x a up tv c d' o t0 gs id, start_ok b -> boot b = Some (d0, acts) ->
  Forall is_byte (map snd (heard false ((past ++ es) ++ [DByte a up tv c]))) -> Forall (same_env en) es ->
  configured_at fuel sgn b d0 past (u32 t) ->
  drun fuel sgn past d0 = Done (dp, osp) -> drun fuel sgn (past ++ es) d0 = Done (d, os) -> ~ In RestartNow (concat os) ->
  frames fuel sgn d0 past es ms -> Forall no_form es -> map m_now ms = map (fun y => u32 (t + y)) ds -> a_now a = u32 (t + x) ->
  let p := 1000 * s_sse_freq (view (cfg_of dp)) in 0 < s_sse_freq (view (cfg_of dp)) < 65536 -> spaced p 0 (ds ++ [x]) ->
  dstep fuel sgn (DByte a up tv c) d = Done (d', o) -> ends_frame (past ++ es) (DByte a up tv c) a t0 gs ->
  is_open id (concat os) ->
  if slot_passed p (last ds 0) x
  then if up id then ~ In (Streaming (Closed id)) o /\ exists text, texts_to id (streamed o) = [text] /\ message_of (a_env a) t0 gs text
       else In (Streaming (Closed id)) o /\ texts_to id (streamed o) = []
  else streamed o = [].
Proof.
  intros fuel sgn b d0 acts en past es dp osp d os ms ds t x a up tv c d' o t0 gs id St Bo B SE C Rp R NR F NF M An p Fq Sp H Ef Op.
  assert (SO := streams_run _ _ _ _ _ _ _ _ St Bo R). apply SO in Op.
  assert (B1 : Forall is_byte (map snd (heard false (past ++ es)))).
  { destruct (heard_split (past ++ es) false) as (off & X). rewrite X, map_app in B. apply Forall_app in B. apply B. }
  destruct (chain fuel sgn b d0 acts en St Bo _ _ _ _ _ _ _ B1 SE Rp R NR F) as (evs & tos & S & Tr & _ & _ & Nf & _).
  specialize (Nf NF). destruct (story_fs _ _ _ _ S Nf t ds M) as (fs & -> & <- & Fp & L & Sn).
  destruct (spaced_snoc _ _ _ _ Sp) as (Sp1 & Sp2 & Sp3).
  change (s_sse_freq (view (cfg_of dp))) with (num SseFreq (cfg_of dp)) in *.
  assert (T0 : ticking t p 0 (t_sse (d_tm dp))).
  { assert (T : exists t1, d_tm dp = tic_make_timers (u32 t) (cfg_of dp) t1).
    { remember (u32 t) as n eqn:En. clear En. destruct C as [|es1 d1 os1 a1 q R1 U N].
      - assert (d0 = dp) by (cbn in Rp; congruence). subst dp. assert (X := booted_at b d0 acts Bo). unfold ts_of, tic_start in X. injection X as _ X. rewrite X. eauto.
      - destruct (drun_snoc _ _ _ _ _ _ _ Rp) as (d2 & os2 & o2 & R2 & S2 & _). rewrite R1 in R2.
        assert (d1 = d2) by congruence. subst d2. cbn [dstep] in S2. assert (X := form_step _ _ _ _ _ _ U N S2). unfold ts_of in X. injection X as _ X. rewrite X. eauto. }
    destruct T as (t1 & ->). subst p. cbn [tic_make_timers t_sse]. replace (num SseFreq (cfg_of dp) =? 0) with false by (symmetry; apply Z.eqb_neq; lia).
    unfold tm_reset, ticking. cbn [tm_period tm_never tm_start]. split; [lia|]. split; [apply Z.ltb_ge; lia|].
    rewrite Z.div_0_l by lia. rewrite Z.mul_0_l, Z.add_0_r. reflexivity. }
  destruct (sse_ticks en t (cfg_of dp) p ltac:(subst p; lia) fs 0 (ts_of dp) tos (ts_of d) Fp eq_refl T0 (Z.le_refl 0) Sp1 Tr) as (T1 & L1). cbn [ts_of ts_tm] in T1.
  destruct (poll t p (last (map fst fs) 0) x (t_sse (d_tm d)) ltac:(subst p; lia) ltac:(lia) Sp3 T1) as (Po & _). rewrite <- An in Po.
  destruct (byte_streams _ _ _ _ _ _ _ _ _ _ _ _ _ _ St Bo B R H) as (_ & Y & _). rewrite <- Po.
  destruct (Y _ _ _ Ef) as (_ & _ & [(X0 & [X|X])|(data & X0 & X & Mg)]).
  - rewrite X. exact X0.
  - rewrite X in Op. destruct Op.
  - rewrite X0. destruct (pass_in up (Some data) id _ (so_list _ (st_ok _ _ SO)) Op) as (T & _).
    destruct (pass_effects up (Some data) (sse_list (d_sse d))) as (Cl & _). specialize (Cl id). assert (W := in_streamed (Closed id) o). rewrite X in W.
    rewrite X, T. destruct (up id) eqn:U.
    + split; [|eauto]. intros V. apply W, Cl in V. destruct V. discriminate.
    + split; [|reflexivity]. apply W, Cl. auto.
Qed.

(** ** Requests of streams (C36 in the whole module) *)
Lemma stream_route : forall fuel a q d, In (q_uri q) [str "/sse/json"; str "/tic"] -> ~ refused q d -> handle fuel a q d = handle_sse d.
Proof.
  intros fuel a q d U N. assert (X : handle fuel a q d = if_ok q d (fun _ => handle_sse d)).
  { destruct U as [U|[U|[]]]; unfold handle; rewrite <- U; destruct (q_method q); reflexivity. }
  rewrite X. unfold if_ok. destruct (get_auth (cfg_of d) q) eqn:E; [|reflexivity|reflexivity]. destruct N. unfold get_auth in E. unfold refused.
  destruct (text Username (cfg_of d)); [discriminate|]. destruct (q_accepts q _ _); [destruct (q_forwarded q); discriminate|].
  split; [discriminate|reflexivity].
Qed.
Lemma c36_requests : forall fuel sgn b d0 acts es d os a q, start_ok b -> boot b = Some (d0, acts) -> drun fuel sgn es d0 = Done (d, os) ->
  In (q_uri q) [str "/sse/json"; str "/tic"] -> ~ refused q d ->
  exists ids d' o, NoDup ids /\ (length ids <= 2)%nat /\ (forall id, In id ids <-> is_open id (concat os)) /\
    dstep fuel sgn (DHttp a q) d = Done (d', o) /\
    if Nat.eqb (length ids) 2 then d' = d /\ o = [Reply 503 Web.Text (str "Service Unavailable (too many clients)")]
    else exists id, o = [Streaming (Opened id)] /\ ~ In (Streaming (Opened id)) (concat os) /\
           forall id', is_open id' (concat os ++ o) <-> In id' (ids ++ [id]).
Proof.
  intros fuel sgn b d0 acts es d os a q St Bo R U N. assert (K := streams_run _ _ _ _ _ _ _ _ St Bo R).
  assert (K' := streams_ask _ _ K). destruct K as [K O B].
  exists (sse_list (d_sse d)). cbn [dstep]. rewrite stream_route by assumption. unfold handle_sse, handle_sse_data in *.
  assert (T := so_two _ K). destruct (Nat.ltb_spec (length (sse_list (d_sse d))) 2) as [L|L]; cbn [fst snd map sse_out] in *.
  - do 2 eexists. split; [apply K|]. split; [exact T|]. split; [exact O|]. split; [reflexivity|].
    destruct (Nat.eqb_spec (length (sse_list (d_sse d))) 2); [lia|]. exists (sse_next (d_sse d)). split; [reflexivity|]. split.
    + intros I. assert (X := B _ (or_introl I)). lia.
    + intros id'. destruct K' as [_ O' _]. rewrite <- O'. reflexivity.
  - do 2 eexists. split; [apply K|]. split; [exact T|]. split; [exact O|]. split; [reflexivity|].
    destruct (Nat.eqb_spec (length (sse_list (d_sse d))) 2); [|lia]. split; [destruct d; reflexivity|reflexivity].
Qed.
