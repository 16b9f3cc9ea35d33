(** The development server and the module, side by side. *)
From Coq Require Import ZArith List Bool Lia ZifyBool.
From Verif Require Import Base BaseFacts Teleinfo TeleinfoSpec TeleinfoMain Publish HistorySpec DecoderProofs GroupProofs Json JsonFacts JsonBuild JsonBuildFacts AccessProofs
  Tic TicSpec PageProofs Clock ClockSpec ClockProofs ClockMain Sse SseSpec SseProofs FormMain Dash DashSpec DashProofs DashMain Simu SimuSpec SimuProofs Srv SrvSpec SrvProofs SrvMain.
Import ListNotations.
Open Scope Z_scope.

(** ** The date *)
Lemma srv_says : forall offset now, 0 <= now + offset < 253402300800 ->
  says_z (srv_timestamp offset now) (now + offset) /\ length (srv_timestamp offset now) = 20%nat.
Proof.
  intros offset now H. unfold srv_timestamp. generalize dependent (now + offset). intros t H.
  destruct (gmtime_date t ltac:(lia)) as (D & Hh & Hm & Hs & E). set (g := gmtime t) in *.
  assert (Y9 : tm_year g <= 9999). { apply (year_bound _ _ _ _ D). rewrite Z2Nat.id by (apply Z.div_pos; lia). apply Z.div_lt_upper_bound; lia. }
  pose proof (year_from_1970 _ _ _ _ D) as Y0. pose proof (date_number _ _ _ _ D) as [_ [M1 M2]].
  pose proof (month_length_31 (tm_year g) (tm_mon g + 1)) as ML.
  rewrite (padded_digits 4) by (change (10 ^ Z.of_nat 4) with 10000; lia).
  rewrite !(padded_digits 2) by (change (10 ^ Z.of_nat 2) with 100; lia).
  split; [|rewrite !app_length, !ClockMain.digits_length; reflexivity].
  exists (Z.to_nat (t / 86400)), (tm_year g), (tm_mon g + 1), (tm_mday g), (tm_hour g), (tm_min g), (tm_sec g).
  split; [reflexivity|]. split; [exact D|]. rewrite Z2Nat.id by (apply Z.div_pos; lia). repeat split; lia.
Qed.
Lemma clock_digits_ascii : forall n v, ascii (ClockSpec.digits n v).
Proof.
  induction n; intros; [constructor|]. cbn [ClockSpec.digits]. apply Forall_app. split; [apply IHn|]. constructor; [|constructor].
  pose proof (Z.mod_pos_bound v 10). lia.
Qed.
Lemma says_ascii : forall text t, says_z text t -> ascii text.
Proof.
  intros text t (n & y & m & d & h & mi & s & -> & _).
  do 11 (apply Forall_app; split; [first [apply clock_digits_ascii | apply str_ascii; reflexivity]|]). apply str_ascii. reflexivity.
Qed.
(** [says_z] tells one instant. *)
Lemma date_text : forall y m d h mi s tail : list Z, y ++ str "-" ++ m ++ str "-" ++ d ++ str "T" ++ h ++ str ":" ++ mi ++ str ":" ++ s ++ tail =
  (y ++ str "-" ++ m ++ str "-" ++ d ++ str "T" ++ h ++ str ":" ++ mi ++ str ":" ++ s) ++ tail.
Proof. intros. rewrite <- !app_assoc. reflexivity. Qed.
Lemma says_z_says : forall text t, says_z text t -> exists p, text = p ++ str "Z" /\ says (p ++ str "+0000") 0 t.
Proof.
  intros text t (n & y & m & d & h & mi & s & E & D & Y & H1 & H2 & H3 & ->). rewrite date_text in E. eexists. split; [exact E|].
  exists n, y, m, d, h, mi, s. split; [rewrite <- date_text; reflexivity|]. repeat split; auto; lia.
Qed.
Lemma says_z_one : forall text t t', says_z text t -> says_z text t' -> t = t'.
Proof.
  intros text t t' H H'. apply says_z_says in H as (p & -> & H). apply says_z_says in H' as (p' & E & H'). apply app_inv_tail in E. subst p'.
  exact (proj2 (c79_reads _ _ _ _ _ H H')).
Qed.

(** ** The stream *)
Lemma c109_message : forall es ts, Forall sim_event_ok es -> ascii ts ->
  exists ms, json_of (json_dict ts (sim_history es)) = Some (JObj ms) /\ NoDup (map fst ms) /\ length ms = S (length (told_groups es)) /\
    In (str "timestamp", JStr ts) ms /\ In (str "ADCO", JStr (meter_number es)) ms /\
    forall l v, In (l, v) (told_groups es) -> l <> str "ADCO" -> In (l, json_value v) ms.
Proof.
  intros es ts H T. assert (K := history_ok es H). exists (dict_members ts (sim_history es)).
  split; [apply dict_read; assumption|]. split; [apply dict_distinct|]. rewrite <- c63_told.
  destruct (history_told es) as (_ & _ & N & _). rewrite <- N. set (m := sim_history es) in *. clearbody m.
  split; [|split; [|split]].
  - unfold dict_members, dict_items, dict_values, expected. destruct (sm_adps m =? 0); reflexivity.
  - unfold dict_members, dict_items, dict_values. cbn [app map combine fst In]. tauto.
  - unfold dict_members, dict_items, dict_values. cbn [app map combine fst In]. tauto.
  - intros l v I NA. apply dict_groups; assumption.
Qed.
Lemma lines_stream : forall d r, one_line d -> lines [] (str "data: " ++ d ++ [10; 10] ++ r) = (str "data: " ++ d) :: [] :: lines [] r.
Proof.
  intros d r H. rewrite app_assoc, lines_plain.
  - rewrite app_nil_r. cbn [app]. generalize (str "data: " ++ d). intros x. cbn [lines]. change ((10 =? 13) || (10 =? 10)) with true. cbv iota.
    rewrite rev_involutive. reflexivity.
  - apply Forall_app. split; auto. repeat constructor; discriminate.
Qed.
Lemma c109_stream : forall turns, Forall (fun x => Forall sim_event_ok (fst x) /\ ascii (snd x)) turns ->
  events_of (concat (map (fun x => stream_event (snd x) (sim_history (fst x))) turns)) = map (fun x => json_dict (snd x) (sim_history (fst x))) turns.
Proof.
  intros turns H. induction H as [|[es ts] turns (E & T) H IH]; [reflexivity|]. cbn [map concat fst snd] in *. unfold events_of in *. unfold stream_event at 1.
  rewrite <- !app_assoc. rewrite lines_stream.
  - cbn [dispatch]. set (d := json_dict ts (sim_history es)). clearbody d. change (str "data: " ++ d) with (100 :: 97 :: 116 :: 97 :: 58 :: 32 :: d).
    change (data_field (100 :: 97 :: 116 :: 97 :: 58 :: 32 :: d)) with (Some d). cbn [dispatch]. f_equal. exact IH.
  - eapply Forall_impl; [|exact (dict_chars ts _ (history_ok es E) T)]. cbn. intros; lia.
Qed.

(** ** The gauges *)
Lemma c109_gauges : forall es ts e t d g, Forall sim_event_ok es -> ascii ts ->
  published_ti t -> t_size t <> 0%nat -> carries t (told_groups es) -> quotable (iso e (tv_sec (t_ts t))) = true -> Forall json_ready (told_groups es) ->
  tic_get_json_dict e t = Some d -> on_message (json_dict ts (sim_history es)) g = on_message d g.
Proof.
  intros es ts e t d g H T P N C Q R D.
  destruct (c109_message es ts H T) as (ms & J & ND & _ & _ & _ & M).
  destruct (c11 e t None P) as (gs & body & C' & B & _ & J').
  assert (gs = told_groups es) by (eapply carries_same; eauto). subst gs.
  assert (body = d) by (unfold tic_get_json_dict in D; congruence). subst body.
  specialize (J' N Q Logic.I R). cbn [app] in J'. unfold on_message. rewrite J, J'.
  assert (U : NoDup (map fst (told_groups es))).
  { rewrite <- c63_told. apply distinct_spec. unfold expected. rewrite !map_app. destruct (sm_adps (sim_history es) =? 0); vm_compute; reflexivity. }
  assert (L : forall l v, In (l, v) (told_groups es) -> l <> str "ADCO" -> property l ms = property l
    ((str "timestamp", JStr (iso e (tv_sec (t_ts t)))) :: (str "seconds", JStr (seconds_text (t_ts t))) :: map (fun g => (fst g, json_value (snd g))) (told_groups es))).
  { intros l v I A. rewrite (property_in l _ ms ND (M l v I A)). cbn [property]. rewrite (property_group l v _ U I). reflexivity. }
  assert (F : forall l, In l [str "PAPP"; str "IINST"; str "HCHP"; str "HCHC"; str "PTEC"] -> exists v, In (l, v) (told_groups es) /\ l <> str "ADCO").
  { intros l I. rewrite <- c63_told. unfold expected. cbn [app In]. cbn [In] in I.
    repeat (destruct I as [<-|I]; [eexists; split; [tauto|discriminate]|]). destruct I. }
  assert (G : forall l, In l [str "PAPP"; str "IINST"; str "HCHP"; str "HCHC"; str "PTEC"] -> property l ms = property l
    ((str "timestamp", JStr (iso e (tv_sec (t_ts t)))) :: (str "seconds", JStr (seconds_text (t_ts t))) :: map (fun g => (fst g, json_value (snd g))) (told_groups es))).
  { intros l I. destruct (F l I) as (v & I' & A). exact (L l v I' A). }
  rewrite (G (str "PAPP")), (G (str "IINST")), (G (str "HCHP")), (G (str "HCHC")), (G (str "PTEC")) by (cbn [In]; tauto). reflexivity.
Qed.

(** ** The table *)
Definition item_value (x : list Z * list Z) : json := JObj [(str "na", JStr (fst x)); (str "va", JStr (snd x))].
Lemma item_read : forall x, ascii (fst x) -> ascii (snd x) -> reads 4 (array_item x) (item_value x).
Proof.
  intros x A B.
  pose proof (object_read (newline 8) [32] (newline 4) 1 [(str "na", py_string (fst x)); (str "va", py_string (snd x))] [JStr (fst x); JStr (snd x)]
    eq_refl eq_refl eq_refl ltac:(discriminate)) as R.
  cbn [length Nat.add map fst combine] in R.
  assert (E : array_item x = 123 :: joined [44] [member_text (newline 8) [32] (str "na", py_string (fst x)); member_text (newline 8) [32] (str "va", py_string (snd x))] ++ newline 4 ++ [125]).
  { unfold array_item, member_text. cbn [joined fst snd]. rewrite <- !app_assoc. cbn [app]. reflexivity. }
  rewrite E. apply R. repeat (apply Forall2_cons; [split; [apply str_ascii; reflexivity|apply reads_string; assumption]|]). apply Forall2_nil.
Qed.
Lemma array_ascii : forall ts m, sim_ok m -> ascii ts -> Forall (fun x => ascii (fst x) /\ ascii (snd x)) (array_items ts m).
Proof.
  intros ts m (H1 & H2 & H3 & H4 & H5 & H6 & H7 & H8) T.
  assert (F : forall k n, ascii (fmt k n)).
  { intros k n. unfold fmt, pad0. apply Forall_app. split.
    - apply Forall_forall. intros c I. apply repeat_spec in I. subst. lia.
    - eapply Forall_impl; [|exact (digits_printable _ (dec_digits n))]. cbn. intros; lia. }
  unfold array_items. apply Forall_app. split.
  - repeat (apply Forall_cons; [split; [apply str_ascii; reflexivity|cbn [snd]]|]); try apply Forall_nil;
      first [exact T | apply char7_ascii; exact H8 | apply F | apply str_ascii; reflexivity | destruct (sm_creuses m); apply str_ascii; reflexivity].
  - destruct (negb (sm_adps m =? 0)); [|constructor]. constructor; [|constructor]. split; [apply str_ascii; reflexivity|apply F].
Qed.
Definition low (x : Z) : Prop := 0 <= x <= 127.
Lemma py_string_low : forall s, ascii s -> Forall low (py_string s).
Proof. intros s H. eapply Forall_impl; [|exact (py_string_ascii s H)]. unfold low. cbn. intros; lia. Qed.
Lemma item_low : forall x, ascii (fst x) -> ascii (snd x) -> Forall low (array_item x).
Proof.
  assert (L : forall s, forallb (fun c => (0 <=? c) && (c <=? 127)) s = true -> Forall low s).
  { intros s H. apply Forall_forall. intros c I. rewrite forallb_forall in H. specialize (H c I). unfold low. lia. }
  intros x A B. unfold array_item.
  do 11 (apply Forall_app; split; [first [apply py_string_low; assumption | apply L; reflexivity]|]).
  first [apply L; reflexivity | apply Forall_app; split; apply L; reflexivity].
Qed.
Lemma array_read : forall ts m, sim_ok m -> ascii ts -> json_of (json_array ts m) = Some (JArr (map item_value (array_items ts m))).
Proof.
  intros ts m K T. pose proof (array_ascii ts m K T) as A.
  assert (NE : array_items ts m <> []) by (unfold array_items; discriminate).
  unfold json_of, json_array. generalize dependent (array_items ts m). intros xs A NE.
  rewrite utf8_ascii.
  2:{ apply Forall_app. split; [repeat constructor; lia|]. apply Forall_app. split; [repeat constructor; lia|]. apply Forall_app. split; [|repeat constructor; lia].
      apply (joined_Forall low); [repeat constructor; unfold low; lia|]. apply Forall_map. eapply Forall_impl; [|exact A]. intros x (B & C). apply item_low; assumption. }
  change ([44] ++ newline 4) with (44 :: newline 4). set (J := joined (44 :: newline 4) (map array_item xs)).
  change ([91] ++ newline 4 ++ J ++ newline 0 ++ [93]) with (91 :: newline 4 ++ J ++ newline 0 ++ [93]). rewrite value_arr.
  assert (E : exists t, ws (newline 4 ++ J ++ newline 0 ++ [93]) = 123 :: t).
  { rewrite ws_skip by reflexivity. subst J. destruct xs as [|x xs]; [congruence|]. cbn [map joined].
    destruct (map array_item xs); unfold array_item; rewrite <- ?app_assoc; eexists; reflexivity. }
  destruct E as (t & E). rewrite E. rewrite items_ws by reflexivity.
  subst J. rewrite (items_read (newline 4) (newline 0) 4 (map array_item xs) (map item_value xs) []).
  - reflexivity.
  - reflexivity.
  - reflexivity.
  - destruct xs; [congruence|discriminate].
  - clear E NE. induction A as [|x xs (B & C) A IH]; [apply Forall2_nil|]. cbn [map]. apply Forall2_cons; [apply item_read; assumption|exact IH].
  - rewrite map_length. cbn [length]. rewrite !app_length. cbn [length newline repeat].
    pose proof (joined_length (44 :: newline 4) (map array_item xs)) as L. rewrite map_length in L.
    enough (Q : Forall (fun x => x <> []) (map array_item xs)) by (specialize (L Q); lia).
    apply Forall_map, Forall_forall. intros x _. unfold array_item. discriminate.
Qed.
Lemma array_table : forall ts m, sim_ok m -> ascii ts -> table_of (json_array ts m) = Some (map (fun x => (fst x, Text (snd x))) (array_items ts m)).
Proof.
  intros ts m K T. unfold table_of. rewrite array_read by assumption. generalize (array_items ts m). intros xs.
  induction xs as [|x xs IH]; [reflexivity|]. cbn [map rows_of]. rewrite IH. unfold item_value, row_of.
  change (beq (str "na") (str "na") && beq (str "va") (str "va")) with true. reflexivity.
Qed.

(** The load after a drawing depends on the two rows of the currents only. *)
Lemma same_load_eq : forall w w', same_load w w' <->
  isousc w = isousc w' /\ badge w = badge w' /\ charge w = charge w' /\ bar_class w = bar_class w' /\ bar_width w = bar_width w'.
Proof.
  intros w w'. unfold same_load, load_shown. split.
  - intros (A & B). injection A as A1 A2 A3 A4. auto.
  - intros (-> & -> & -> & -> & ->). auto.
Qed.
Lemma formatter_same : forall na v w w', same_load w w' -> same_load (snd (value_formatter na v w)) (snd (value_formatter na v w')).
Proof.
  intros na v w w' H. rewrite same_load_eq in *. destruct H as (A & B & C & D & E).
  destruct (formatter_load na v w) as (F1 & F2 & F3 & F4 & F5). destruct (formatter_load na v w') as (G1 & G2 & G3 & G4 & G5).
  rewrite F1, F2, F3, F4, F5, G1, G2, G3, G4, G5. unfold show_load.
  destruct (beq na (str "ISOUSC")); [cbn; auto|]. destruct (beq na (str "IINST")); [|auto]. cbn. rewrite A, B, C. auto.
Qed.
Definition current (r : list Z * cell) : bool := beq (fst r) (str "ISOUSC") || beq (fst r) (str "IINST").
Lemma draw_same : forall rows w w', same_load w w' -> same_load (snd (draw rows w)) (snd (draw (filter current rows) w')).
Proof.
  induction rows as [|[na v] rows IH]; intros w w' H; [exact H|]. cbn [draw filter]. destruct (current (na, v)) eqn:E.
  - cbn [draw]. pose proof (formatter_same na v w w' H) as F. destruct (value_formatter na v w) as [c w1], (value_formatter na v w') as [c' w1']. cbn [snd] in F.
    specialize (IH w1 w1' F). destruct (draw rows w1), (draw (filter current rows) w1'). exact IH.
  - assert (F : same_load (snd (value_formatter na v w)) w').
    { unfold current in E. cbn [fst] in E. apply orb_false_iff in E. destruct E as (E1 & E2).
      rewrite same_load_eq in *. destruct (formatter_load na v w) as (F1 & F2 & F3 & F4 & F5). rewrite F1, F2, F3, F4, F5. unfold show_load. rewrite E1, E2. exact H. }
    destruct (value_formatter na v w) as [c w1]. cbn [snd] in F. specialize (IH w1 w' F). destruct (draw rows w1). exact IH.
Qed.
Lemma same_load_sym : forall w w', same_load w w' -> same_load w' w.
Proof. intros w w' (A & B). split; auto. Qed.
Lemma same_load_trans : forall a b c, same_load a b -> same_load b c -> same_load a c.
Proof. intros a b c (A & B) (C & D). split; congruence. Qed.
Lemma points_back : forall v, with_points (rstrip v) v.
Proof.
  induction v as [|c v IH] using rev_ind; [exists 0%nat; reflexivity|]. destruct (Z.eq_dec c 46) as [->|N].
  - rewrite rstrip_snoc_dot. destruct IH as (n & E). exists (S n).
    rewrite E at 1. cbn [repeat]. rewrite <- app_assoc. f_equal. change [46] with (repeat 46 1). rewrite <- repeat_app. rewrite Nat.add_1_r. reflexivity.
  - rewrite rstrip_snoc_other by exact N. exists 0%nat. rewrite app_nil_r. reflexivity.
Qed.
Lemma items_told : forall ts m l v, sim_ok m -> In (l, v) (expected m) -> exists sent, with_points v sent /\ In (l, sent) (array_items ts m).
Proof.
  intros ts m l v (H1 & H2 & H3 & H4 & H5 & H6 & H7 & H8) I.
  assert (W0 : forall x, with_points x x) by (intros x; exists 0%nat; rewrite app_nil_r; reflexivity).
  unfold array_items. rewrite (fmt_digits 9 (sm_hchc m)), (fmt_digits 9 (sm_hchp m)), (fmt_digits 3 (sm_iinst m)) by (auto; lia).
  rewrite (fmt_digits 5) by (change (10 ^ Z.of_nat 5) with 100000; lia). unfold expected in I.
  assert (PT : with_points (if sm_creuses m then str "HC" else str "HP") (firstn 4 ((if sm_creuses m then str "HC" else str "HP") ++ str "...."))).
  { exists 2%nat. destruct (sm_creuses m); reflexivity. }
  generalize dependent (if sm_creuses m then str "HC" else str "HP"). intros pt I PT.
  generalize dependent (firstn 4 (pt ++ str "....")). intros pts PT.
  destruct (sm_adps m =? 0) eqn:E; cbn [negb app In] in *.
  - repeat (destruct I as [I|I]; [apply pair_equal_spec in I; destruct I as (<- & <-); eexists; split;
      [|first [left; reflexivity | right; left; reflexivity | do 2 right; left; reflexivity | do 3 right; left; reflexivity | do 4 right; left; reflexivity | do 5 right; left; reflexivity
         | do 6 right; left; reflexivity | do 7 right; left; reflexivity | do 8 right; left; reflexivity | do 9 right; left; reflexivity | do 10 right; left; reflexivity | do 11 right; left; reflexivity]];
      first [apply points_back | exact PT | apply W0 | exists 2%nat; reflexivity]|]). destruct I.
  - rewrite (fmt_digits 3 (sm_adps m)) by (auto; lia).
    repeat (destruct I as [I|I]; [apply pair_equal_spec in I; destruct I as (<- & <-); eexists; split;
      [|first [left; reflexivity | right; left; reflexivity | do 2 right; left; reflexivity | do 3 right; left; reflexivity | do 4 right; left; reflexivity | do 5 right; left; reflexivity
         | do 6 right; left; reflexivity | do 7 right; left; reflexivity | do 8 right; left; reflexivity | do 9 right; left; reflexivity | do 10 right; left; reflexivity | do 11 right; left; reflexivity
         | do 12 right; left; reflexivity]];
      first [apply points_back | exact PT | apply W0 | exists 2%nat; reflexivity]|]). destruct I.
Qed.
Lemma stamp_ascii : forall offset now, 0 <= now + offset < 253402300800 -> ascii (srv_timestamp offset now).
Proof. intros offset now H. exact (says_ascii _ _ (proj1 (srv_says offset now H))). Qed.
Lemma c109_table : forall es ts e t body, Forall sim_event_ok es -> ascii ts ->
  published_ti t -> t_size t <> 0%nat -> carries t (told_groups es) -> quotable (iso e (tv_sec (t_ts t))) = true ->
  Forall (fun g => quotable (fst g) = true /\ quotable (snd g) = true) (told_groups es) -> tic_get_json_array e t = Some body ->
  exists rows rows', table_of (json_array ts (sim_history es)) = Some rows /\ table_of body = Some rows' /\
    length rows = (1 + length (told_groups es))%nat /\ length rows' = (2 + length (told_groups es))%nat /\
    (forall l v, In (l, v) (told_groups es) -> In (l, Text v) rows' /\ exists sent, with_points v sent /\ In (l, Text sent) rows) /\
    forall w w', same_load w w' -> same_load (snd (refresh (json_array ts (sim_history es)) w)) (snd (refresh body w')).
Proof.
  intros es ts e t body H T P N C Q R B. assert (K := history_ok es H).
  destruct (page_table e t _ body P N C Q R B) as (x & _ & TB). pose proof (array_table ts _ K T) as TA.
  do 2 eexists. split; [exact TA|]. split; [exact TB|].
  assert (G : told_groups es = expected (sim_history es)) by (symmetry; apply c63_told). split; [|split; [|split]].
  - rewrite map_length, G. unfold array_items, expected. destruct (sm_adps (sim_history es) =? 0); reflexivity.
  - unfold table. cbn [length]. rewrite map_length. reflexivity.
  - intros l v I. split.
    + unfold table. right. right. apply (in_map (fun g : group => (fst g, Text (snd g)))) in I. exact I.
    + rewrite G in I. destruct (items_told ts _ l v K I) as (sent & W & S). exists sent. split; [exact W|].
      apply (in_map (fun g : list Z * list Z => (fst g, Text (snd g)))) in S. exact S.
  - intros w w' L. unfold refresh. rewrite TA, TB. set (rows := map _ _). set (rows' := table e t x (told_groups es)).
    assert (F : filter current rows = filter current rows').
    { subst rows rows'. unfold table. rewrite G. destruct K as (H1 & H2 & H3 & H4 & H5 & H6 & H7 & H8). unfold array_items, expected.
      rewrite (fmt_digits 3 (sm_iinst _)) by (auto; lia). destruct (sm_adps (sim_history es) =? 0); reflexivity. }
    pose proof (draw_same rows w w' L) as A. pose proof (draw_same rows' w' w' (conj eq_refl eq_refl)) as A'. rewrite F in A.
    destruct (draw rows w), (draw rows' w'). cbn [snd] in *. eapply same_load_trans; [exact A|apply same_load_sym; exact A'].
Qed.
Lemma c109_events : forall turns, Forall (fun x : list sim_event * (Z * Z) => Forall sim_event_ok (fst x) /\ 0 <= fst (snd x) + snd (snd x) < 253402300800) turns ->
  events_of (concat (map (fun x => stream_event (srv_timestamp (snd (snd x)) (fst (snd x))) (sim_history (fst x))) turns)) =
  map (fun x => json_dict (srv_timestamp (snd (snd x)) (fst (snd x))) (sim_history (fst x))) turns.
Proof.
  intros turns H.
  pose proof (c109_stream (map (fun x => (fst x, srv_timestamp (snd (snd x)) (fst (snd x)))) turns)) as S. rewrite !map_map in S. cbn [fst snd] in S. apply S.
  apply Forall_map. eapply Forall_impl; [|exact H]. intros x (A & B). split; [exact A|]. apply stamp_ascii. exact B.
Qed.
