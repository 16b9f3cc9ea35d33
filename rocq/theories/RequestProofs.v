(** Content of the requests, memory safety over histories, and periods. *)
From Coq Require Import ZArith List Bool Lia.
From Verif Require Import Base BaseFacts Teleinfo TeleinfoSpec HistorySpec Publish Config ConfigSpec ConfigMain ConfigProofs
  ToolSpec ToolProofs ToolMain PageProofs TemplateProofs Json JsonFacts JsonBuildFacts Tic TicSpec NotifProofs NotifMain.
Import ListNotations.
Open Scope Z_scope.

(** The configuration in force is one of those loaded. *)
Lemma run_cfg : forall e evs (Q : cfg -> Prop) st os st', tic_run e evs st = Some (os, st') -> Q (ts_cfg st) ->
  Forall (fun ev => match ev with Configure _ c => Q c | Frame _ _ _ => True end) evs -> Q (ts_cfg st').
Proof.
  induction evs as [|ev evs IH]; intros Q st os st' H A B.
  - inv H. auto.
  - apply run_cons in H. destruct H as (o & st1 & os' & S & R & ->). apply Forall_cons_iff in B. destruct B as [B1 B2].
    refine (IH Q st1 os' st' R _ B2). destruct ev as [now c|now k t].
    + inv S. auto.
    + apply frame_step in S. destruct S as (n & tm & _ & ->). auto.
Qed.
Lemma cstr_split : forall m, In 0 m -> exists tail, m = cstr m ++ 0 :: tail /\ Forall (fun c => c <> 0) (cstr m).
Proof.
  induction m as [|b m IH]; intros H; [contradiction|]. cbn [cstr]. destruct (Z.eqb_spec b 0) as [->|N].
  - exists m. auto.
  - destruct H as [H|H]; [congruence|]. destruct (IH H) as (tail & E & F). exists tail. cbn [app]. split; [now f_equal|auto].
Qed.

(** The frame step at the end of a history, unfolded. *)
Lemma frame_at : forall e now0 c evs past st now k t o st', frames_published evs -> published_ti t ->
  tic_run e evs (tic_start now0 c) = Some (past, st) -> tic_step e (Frame now k t) st = Some (o, st') ->
  view (ts_cfg st) = settings_after (view c) evs /\ Forall (genuine e (ts_cfg st) t) o.
Proof.
  intros e now0 c evs past st now k t o st' P Pt R S. apply run_settings in R. destruct R as [R _]. split; auto.
  apply frame_step in S. destruct S as (n & tm & S & ->). apply tic_notifs_spec in S; auto. tauto.
Qed.

(** ** C17, C11: HTTP notifications *)
Definition by_http (w : reason) : bool := match w with JEEDOM | EMONCMS => false | _ => true end.
Lemma c17_request : forall e now0 c evs past st now k t gs o st' w r ps, frames_published evs -> published_ti t ->
  terminated c -> Forall (fun ev => match ev with Configure _ c' => terminated c' | _ => True end) evs ->
  tic_run e evs (tic_start now0 c) = Some (past, st) -> tic_step e (Frame now k t) st = Some (o, st') ->
  carries t gs ->
  let s := settings_after (view c) evs in
  s_http_url s = concat (map written ps) -> Forall piece_ok ps -> separated ps ->
  In (Request w r) o -> w <> JEEDOM -> w <> EMONCMS ->
  r_url r = concat (map (meaning e (t_ts t) gs (reason_text w)) ps) /\
  (s_use_post s = false -> r_data r = None) /\
  (s_use_post s = true -> exists body, r_data r = Some body /\
     (t_size t <> 0%nat -> quotable (iso e (tv_sec (t_ts t))) = true -> Forall json_ready gs ->
      json_of body = Some (JObj (
       (str "timestamp", JStr (iso e (tv_sec (t_ts t)))) :: (str "seconds", JStr (seconds_text (t_ts t))) ::
       (str "notif", JStr (reason_text w)) :: map (fun g => (fst g, json_value (snd g))) gs)))).
Proof.
  intros e now0 c evs past st now k t gs o st' w r ps P Pt T TT R S C s U K Sep I N1 N2.
  destruct (frame_at _ _ _ _ _ _ _ _ _ _ _ P Pt R S) as [V G].
  assert (Tc : terminated (ts_cfg st)) by (eapply (run_cfg e evs terminated); eauto).
  subst s. rewrite <- V in *. rewrite Forall_forall in G. specialize (G _ I).
  assert (G' : http_notif e (ts_cfg st) t w = Some r) by (destruct w; cbn [genuine] in G; congruence).
  destruct (cstr_split (get HUrl (ts_cfg st)) (Tc HUrl eq_refl)) as (tail & E & _).
  change (cstr (get HUrl (ts_cfg st))) with (s_http_url (view (ts_cfg st))) in E. rewrite U in E.
  unfold http_notif in G'. rewrite E, (c17 e t (reason_text w) gs ps tail) in G' by auto.
  change (s_use_post (view (ts_cfg st))) with (bit 7 HFlags (ts_cfg st)).
  destruct (bit 7 HFlags (ts_cfg st)).
  - destruct (c11 e t (Some (reason_text w)) Pt) as (gs' & body & C' & B & _ & J).
    rewrite (carries_unique _ _ _ C C') in *. rewrite B in G'. inv G'. cbn [r_url r_data]. split; auto. split; [discriminate|].
    intros _. exists body. split; auto. intros X Y Z. apply J; auto. destruct w; reflexivity.
  - inv G'. cbn [r_url r_data]. split; auto. split; [auto|discriminate].
Qed.

(** ** C18 *)
Lemma nth_zero : forall m i, (i < length m)%nat -> nth i m 0 = 0 -> In 0 m.
Proof. intros. rewrite <- H0. apply nth_In. auto. Qed.
Lemma tidy_tail : forall m s tail, m = s ++ 0 :: tail -> tidyb m -> tail = [] \/ exists tail', tail = 0 :: tail'.
Proof.
  intros m s [|x tail] E T; auto. right. exists tail. f_equal.
  assert (A : nth (length s) m 0 = 0). { rewrite E. rewrite app_nth2, Nat.sub_diag by lia. reflexivity. }
  specialize (T (length s) (S (length s)) ltac:(lia) A). rewrite E in T. rewrite app_nth2 in T by lia.
  replace (S (length s) - length s)%nat with 1%nat in T by lia. exact T.
Qed.
Lemma c18_field : forall e t notif s, ordinarily_reachable s -> published_ti t ->
  (expand_url e t notif (get HUrl (c_cfg s)) = None <->
   length (s_http_url (view (c_cfg s))) = 150%nat /\ unterminated (s_http_url (view (c_cfg s))) = true).
Proof.
  intros e t notif s R P. destruct (ordinary_tidy s R) as ((Hw & Hter & _) & Ht & _).
  destruct (cstr_split (get HUrl (c_cfg s)) (Hter HUrl eq_refl)) as (tail & E & F).
  assert (L : length (get HUrl (c_cfg s)) = 151%nat) by (apply (get_len HUrl); auto).
  assert (D := tidy_tail _ _ _ E (Ht HUrl eq_refl)).
  change (s_http_url (view (c_cfg s))) with (cstr (get HUrl (c_cfg s))).
  set (url := cstr (get HUrl (c_cfg s))) in *. rewrite E in L |- *. rewrite app_length in L. cbn [length] in L.
  destruct (c18 e t notif url tail P F) as (A & B & C). split.
  - intros N. destruct D as [->|[tail' ->]].
    + cbn [length] in L. split; [lia|]. destruct (unterminated url); auto. destruct A as [u A]; auto. congruence.
    + destruct (B tail' eq_refl) as [u B']. congruence.
  - intros [X Y]. destruct tail; [apply C; auto|]. cbn [length] in L. lia.
Qed.

Lemma char_end : forall v, char_at v (length v) = Some 0.
Proof. intros. unfold char_at. apply rd_app. Qed.
Lemma char_in : forall v0 c v, char_at (v0 ++ c :: v) (length v0) = Some c.
Proof. intros. unfold char_at. rewrite <- app_assoc. apply rd_app. Qed.
Lemma starts_prefix : forall w v, ~ In 0 w -> starts v w = Some (is_prefix w v).
Proof.
  intros w v N. unfold starts, is_prefix.
  assert (G : forall w v0 v, ~ In 0 w ->
    (fix go (i : nat) (w : list Z) : option bool :=
     match w with [] => Some true | x :: w' => c <- char_at (v0 ++ v) i ;; if c =? x then go (S i) w' else Some false end) (length v0) w
    = Some (beq (firstn (length w) v) w)).
  { clear. induction w as [|x w IH]; intros v0 v N; [reflexivity|]. destruct v as [|c v].
    - rewrite app_nil_r, char_end. cbn [firstn length beq]. destruct (Z.eqb_spec 0 x) as [E|]; auto. exfalso. apply N. left. auto.
    - rewrite char_in. cbn [firstn length beq]. destruct (c =? x); cbn [andb]; auto.
      specialize (IH (v0 ++ [c]) v). rewrite snoc_length, <- app_assoc in IH. cbn [app] in IH. apply IH. intros J. apply N. now right. }
  apply (G w [] v N).
Qed.
Lemma emon_value_code : forall g, emon_value g = Some (emon_code g).
Proof.
  intros g. unfold emon_value, emon_code. cbv zeta. destruct (beq (fst g) (str "OPTARIF")).
  { unfold emon_optarif. rewrite !starts_prefix by (cbn; intuition discriminate).
    cbn [optarif_codes find fst snd]. destruct (is_prefix (str "BAS") (snd g)); [reflexivity|].
    destruct (is_prefix (str "HC") (snd g)); [reflexivity|]. destruct (is_prefix (str "EJP") (snd g)); [reflexivity|].
    destruct (is_prefix (str "BBR") (snd g)); reflexivity. }
  destruct (beq (fst g) (str "HHPHC")). { unfold emon_hhphc, char_at. destruct (snd g); reflexivity. }
  destruct (beq (fst g) (str "PTEC")).
  { assert (SY : forall a b, beq a b = beq b a) by
      (intros a b; destruct (beq b a) eqn:E; [apply beq_eq; apply beq_eq in E; auto|apply beq_neq; apply beq_neq in E; auto]).
    unfold emon_ptec, ptec_codes. cbn [find fst snd].
    rewrite !(SY (snd g)). repeat (match goal with |- context [if ?b then _ else _] => destruct b; [reflexivity|] end). reflexivity. }
  rewrite get_integer_eq. reflexivity.
Qed.
Lemma with_commas_cons : forall x y l, with_commas (x :: y :: l) = x ++ str "," ++ with_commas (y :: l).
Proof. reflexivity. Qed.
Definition emon_item (g : group) : list Z := fst g ++ str ":" ++ emon_code g.
Lemma emon_groups_later : forall gs url, emon_groups false gs url = Some (url ++ concat (map (fun g => str "," ++ emon_item g) gs)).
Proof.
  induction gs as [|g gs IH]; intros; cbn [emon_groups map concat]; [now rewrite app_nil_r|].
  rewrite emon_value_code. rewrite IH. unfold emon_item. rewrite <- !app_assoc. reflexivity.
Qed.
Lemma emon_groups_text : forall gs url, emon_groups true gs url = Some (url ++ with_commas (map emon_item gs)).
Proof.
  intros [|g gs] url; [cbn; now rewrite app_nil_r|]. cbn [emon_groups]. rewrite emon_value_code.
  rewrite emon_groups_later. cbn [app]. f_equal. rewrite <- app_assoc. f_equal. cbn [map].
  change (fst g ++ str ":" ++ emon_code g) with (emon_item g). generalize (emon_item g). clear.
  induction gs as [|h gs IH]; intros x; cbn [map concat]; [apply app_nil_r|]. rewrite with_commas_cons, <- IH, <- !app_assoc. reflexivity.
Qed.
Lemma emoncms_data : forall t gs url, ti_pairs t = Some gs -> tic_emoncms_data t url = Some (url ++ emon_payload gs).
Proof.
  intros t gs url E. unfold tic_emoncms_data. rewrite E, emon_groups_text. unfold emon_payload.
  rewrite <- !app_assoc. reflexivity.
Qed.
Definition or_slash (u : list Z) : list Z := match u with [] => str "/" | _ => u end.

Lemma some2 : forall A (a b : A), Some (Some a) = Some (Some b) -> b = a.
Proof. congruence. Qed.
Lemma c21_request : forall e now0 c evs past st now k t gs o st' r, frames_published evs -> published_ti t ->
  tic_run e evs (tic_start now0 c) = Some (past, st) -> tic_step e (Frame now k t) st = Some (o, st') ->
  carries t gs -> In (Request EMONCMS r) o ->
  let s := settings_after (view c) evs in
  r_data r = None /\
  r_url r = (if Nat.eqb (length (s_emon_url s)) 0 then str "/" else s_emon_url s) ++ str "?" ++
            (if 0 <? s_emon_node s then str "node=" ++ dec (s_emon_node s) ++ str "&" else []) ++
            str "apikey=" ++ s_emon_key s ++ str "&json=" ++ emon_payload gs.
Proof.
  intros e now0 c evs past st now k t gs o st' r P Pt R S C I s.
  destruct (frame_at _ _ _ _ _ _ _ _ _ _ _ P Pt R S) as [V G]. subst s. rewrite <- V.
  rewrite Forall_forall in G. specialize (G _ I). cbn [genuine] in G. unfold emoncms_notif in G.
  destruct (text EHost (ts_cfg st)); [discriminate|]. rewrite (emoncms_data t gs) in G by exact C. apply some2 in G. subst r. cbn [r_url r_data]. split; auto.
  change (s_emon_url (view (ts_cfg st))) with (text EUrl (ts_cfg st)).
  change (s_emon_node (view (ts_cfg st))) with (num ENode (ts_cfg st)).
  change (s_emon_key (view (ts_cfg st))) with (text EKey (ts_cfg st)).
  rewrite <- !app_assoc. destruct (text EUrl (ts_cfg st)); reflexivity.
Qed.

(** ** C20 *)
Lemma jeedom_groups : forall c gs url, fold_left (jeedom_group c) gs url = url ++ concat (map (jeedom_text (text JAdco c)) gs).
Proof.
  induction gs as [|g gs IH]; intros; cbn [fold_left map concat]; [now rewrite app_nil_r|]. rewrite IH. unfold jeedom_group, jeedom_text.
  rewrite <- !app_assoc. destruct (beq (fst g) (str "ADCO")); [|reflexivity]. destruct (text JAdco c); reflexivity.
Qed.
Lemma c20_request : forall e now0 c evs past st now k t gs o st' r, frames_published evs -> published_ti t ->
  tic_run e evs (tic_start now0 c) = Some (past, st) -> tic_step e (Frame now k t) st = Some (o, st') ->
  carries t gs -> In (Request JEEDOM r) o ->
  let s := settings_after (view c) evs in
  r_data r = None /\
  r_url r = (if Nat.eqb (length (s_jdom_url s)) 0 then str "/" else s_jdom_url s) ++ str "?api=" ++ s_jdom_key s ++
            concat (map (jeedom_text (s_jdom_adco s)) gs).
Proof.
  intros e now0 c evs past st now k t gs o st' r P Pt R S C I s.
  destruct (frame_at _ _ _ _ _ _ _ _ _ _ _ P Pt R S) as [V G]. subst s. rewrite <- V.
  rewrite Forall_forall in G. specialize (G _ I). cbn [genuine] in G. unfold jeedom_notif in G.
  destruct (text JHost (ts_cfg st)); [discriminate|]. unfold ti_pairs in G. rewrite C in G. apply some2 in G. subst r. cbn [r_url r_data]. split; auto.
  rewrite jeedom_groups. change (s_jdom_url (view (ts_cfg st))) with (text JUrl (ts_cfg st)).
  change (s_jdom_key (view (ts_cfg st))) with (text JKey (ts_cfg st)).
  change (s_jdom_adco (view (ts_cfg st))) with (text JAdco (ts_cfg st)).
  rewrite <- !app_assoc. destruct (text JUrl (ts_cfg st)); reflexivity.
Qed.

(** ** No frame crashes the module *)
Definition url_safe (c : cfg) : Prop :=
  In 0 (get HUrl c) /\
  (unterminated (text HUrl c) = false \/ exists url tail, get HUrl c = url ++ 0 :: 0 :: tail /\ url = text HUrl c).
Lemma send_some : forall e c t w, published_ti t -> url_safe c -> exists o, send e c t w = Some o.
Proof.
  intros e c t [w|] P [U D]; cbn [send]; [|eauto]. unfold http_notif.
  assert (X : exists u, expand_url e t (reason_text w) (get HUrl c) = Some u).
  { destruct (cstr_split _ U) as (tail & E & F). destruct (c18 e t (reason_text w) (cstr (get HUrl c)) tail P F) as (A & B & _).
    rewrite E. destruct D as [D|(url & tl & E2 & E3)]; auto. apply (B tl).
    rewrite E2 in E at 1. unfold text in E3. rewrite E3 in E. apply app_inv_head in E. now inv E. }
  destruct X as [u ->]. destruct (bit 7 HFlags c); [|eauto].
  destruct (c11 e t (Some (reason_text w)) P) as (gs & body & _ & -> & _). eauto.
Qed.
Lemma tic_notifs_some : forall e c now k t s ts, published_ti t -> url_safe c -> tic_notifs e c now k t s ts <> None.
Proof.
  intros e c now k t s ts P U. destruct (published_facts t P) as (gs & w & C & Gs & _).
  assert (SS := fun w => send_some e c t w P U).
  assert (H : exists r, notifs_http e c now t s (t_http ts) = Some r).
  { unfold notifs_http. destruct (text HHost c); [eauto|]. rewrite notif_ptec_eq by auto.
    assert (X1 : exists x, (if bit 1 HFlags c then Some (f_ptec (value_in t "PTEC") s) else Some (s, None)) = Some x) by (destruct (bit 1 HFlags c); eauto).
    destruct X1 as [[s1 w1] ->]. destruct (SS w1) as [o1 ->]. rewrite notif_seuils_eq by auto.
    assert (X2 : exists x, (if bit 2 HFlags c then Some (f_seuils (num HSeuilHaut c) (num HSeuilBas c) (papp t) s1) else Some (s1, None)) = Some x) by (destruct (bit 2 HFlags c); eauto).
    destruct X2 as [[s2 w2] ->]. destruct (SS w2) as [o2 ->]. rewrite notif_adps_eq by auto.
    assert (X3 : exists x, (if bit 0 HFlags c then Some (f_adps (value_in t "ADPS") s2) else Some (s2, None)) = Some x) by (destruct (bit 0 HFlags c); eauto).
    destruct X3 as [[s3 w3] ->]. destruct (SS w3) as [o3 ->].
    destruct (tm_expired now (t_http ts)) as [fired tm]. destruct (SS (if fired then Some MAJ else None)) as [o4 ->]. eauto. }
  unfold tic_notifs. destruct H as [[[o s'] th] ->].
  destruct (tm_expired now (t_jeedom ts)) as [fj tj].
  assert (X1 : exists x, (if fj then jeedom_notif c t else Some None) = Some x).
  { destruct fj; [|eauto]. unfold jeedom_notif. destruct (text JHost c); [eauto|]. rewrite Gs. eauto. }
  destruct X1 as [rj ->]. destruct (tm_expired now (t_emoncms ts)) as [fe te].
  assert (X2 : exists x, (if fe then emoncms_notif c t else Some None) = Some x).
  { destruct fe; [|eauto]. unfold emoncms_notif. destruct (text EHost c); [eauto|]. rewrite (emoncms_data t gs) by auto. eauto. }
  destruct X2 as [re ->]. destruct (tm_expired now (t_sse ts)) as [fs tsse].
  destruct (fs && negb (Nat.eqb k 0)); [|discriminate]. unfold tic_get_json_dict.
  destruct (c11 e t None P) as (gs' & body & _ & -> & _). discriminate.
Qed.
Lemma run_some : forall e evs st, frames_published evs -> url_safe (ts_cfg st) ->
  Forall (fun ev => match ev with Configure _ c => url_safe c | _ => True end) evs -> exists r, tic_run e evs st = Some r.
Proof.
  induction evs as [|ev evs IH]; intros st P U F; [eexists; reflexivity|]. inv P. apply Forall_cons_iff in F. destruct F as [F1 F2].
  cbn [tic_run].
  assert (X : exists o st1, tic_step e ev st = Some (o, st1) /\ url_safe (ts_cfg st1)).
  { destruct ev as [now c|now k t]; cbn [tic_step]; [eauto|].
    pose proof (tic_notifs_some e (ts_cfg st) now k t (ts_ns st) (ts_tm st) H1 U) as N.
    destruct (tic_notifs _ _ _ _ _ _ _) as [[[o n] tm]|]; [|congruence]. eauto. }
  destruct X as (o & st1 & -> & U1). destruct (IH st1 H2 U1 F2) as [[os st2] ->]. eauto.
Qed.

(** ** C52 *)
Lemma u32_range : forall x, 0 <= u32 x < 4294967296.
Proof. intros. unfold u32. apply Z.mod_pos_bound. reflexivity. Qed.
Lemma u32_small : forall x, 0 <= x < 4294967296 -> u32 x = x.
Proof. intros. unfold u32. apply Z.mod_small. auto. Qed.
(** A timer of period [p] started at [a], last polled [b] ms later. *)
Definition ticking (a p b : Z) (tm : timer) : Prop :=
  tm_period tm = p /\ tm_never tm = false /\ tm_start tm = u32 (a + b / p * p).
Lemma poll : forall a p b d tm, 0 < p -> 0 <= b <= d -> d - b + p <= 4294967296 -> ticking a p b tm ->
  fst (tm_expired (u32 (a + d)) tm) = slot_passed p b d /\ ticking a p d (snd (tm_expired (u32 (a + d)) tm)).
Proof.
  intros a p b d tm Hp Hb Hd (E1 & E2 & E3). unfold tm_expired. rewrite E1, E2.
  replace (p =? 0) with false by (symmetry; apply Z.eqb_neq; lia).
  assert (Mb := Z.div_mod b p ltac:(lia)). assert (Rb := Z.mod_pos_bound b p Hp).
  assert (Md := Z.div_mod d p ltac:(lia)). assert (Rd := Z.mod_pos_bound d p Hp).
  assert (Q : b / p <= d / p) by (apply Z.div_le_mono; lia).
  assert (X : u32 (u32 (a + d) - tm_start tm) = d - b / p * p).
  { rewrite E3. replace (u32 (u32 (a + d) - u32 (a + b / p * p))) with (u32 (d - b / p * p)).
    - apply u32_small. nia.
    - unfold u32. rewrite <- Zminus_mod. f_equal. lia. }
  rewrite X. clear X. unfold slot_passed.
  assert (Y : (d - b / p * p) / p = d / p - b / p).
  { replace (d - b / p * p) with (d + (- (b / p)) * p) by lia. rewrite Z.div_add by lia. lia. }
  destruct (Z.leb_spec p (d - b / p * p)).
  - split; cbn [fst snd].
    + symmetry. apply Z.ltb_lt. assert (1 <= (d - b / p * p) / p) by (apply Z.div_le_lower_bound; lia). lia.
    + unfold ticking. cbn [tm_period tm_never tm_start]. split; auto. split; auto. rewrite E3, Y.
      unfold u32. rewrite Zplus_mod_idemp_l. f_equal. lia.
  - split; cbn [fst snd].
    + symmetry. apply Z.ltb_ge. assert ((d - b / p * p) / p = 0) by (apply Z.div_small; nia). lia.
    + unfold ticking. split; auto. split; auto. rewrite E3. do 2 f_equal.
      assert ((d - b / p * p) / p = 0) by (apply Z.div_small; nia). assert (d / p = b / p) by lia. congruence.
Qed.

Lemma run_ticking : forall e a c (sel : timers -> timer) (hit : nat -> list effect -> bool) (on : nat -> bool) p,
  0 < p ->
  (forall now k t s ts o s' ts', published_ti t -> tic_notifs e c now k t s ts = Some (o, s', ts') ->
     hit k o = fst (tm_expired now (sel ts)) && on k /\ sel ts' = snd (tm_expired now (sel ts))) ->
  forall fs b st os st', Forall (fun f => published_ti (snd (snd f))) fs -> ts_cfg st = c -> ticking a p b (sel (ts_tm st)) ->
  0 <= b -> spaced p b (map fst fs) -> tic_run e (frames_from a fs) st = Some (os, st') ->
  map (fun x => hit (fst (snd (fst x))) (snd x)) (combine fs os) = map (fun x => on (fst (snd (fst x))) && snd x) (combine fs (firings p b (map fst fs))).
Proof.
  intros e a c sel hit on p Hp HS. induction fs as [|f fs IH]; intros b st os st' P C T B Sp R.
  - inv R. reflexivity.
  - cbn [frames_from map] in R. apply run_cons in R. destruct R as (o & st1 & os' & S & R & ->).
    apply frame_step in S. destruct S as (n & tm & S & ->). rewrite C in S. inv P. cbn [map spaced] in Sp. destruct Sp as (S1 & S2 & S3).
    apply HS in S; auto. destruct S as [A N].
    destruct (poll a p b (fst f) (sel (ts_tm st)) Hp ltac:(lia) S2 T) as [F T'].
    cbn [map firings combine]. cbn [fst snd]. f_equal. { rewrite A, F. apply andb_comm. }
    refine (IH (fst f) (mk_ts (ts_cfg st) n tm) os' st' H2 eq_refl _ _ S3 R); [cbn [ts_tm]; rewrite N; exact T'|lia].
Qed.

Lemma combine_right : forall A B (f : B -> bool) (l : list A) (r : list B), length l = length r ->
  map (fun x => f (snd x)) (combine l r) = map f r.
Proof. induction l as [|a l IH]; intros [|b r] H; cbn in *; try congruence. f_equal. apply IH. lia. Qed.
Lemma firings_length : forall p ds b, length (firings p b ds) = length ds.
Proof. induction ds; intros; cbn; auto. Qed.
Lemma arm_ticking : forall a f port host tm, 0 < f -> f * 1000 <= 4294967294 -> port <> 0 -> host <> [] ->
  ticking a (1000 * f) 0 (arm (u32 a) f port host tm).
Proof.
  intros a f port host tm F1 F2 P H. unfold arm.
  replace ((f =? 0) || (Nat.eqb (length host) 0) || (port =? 0)) with false.
  2:{ symmetry. apply Z.eqb_neq in P. rewrite P, orb_false_r. apply orb_false_iff. split; [apply Z.eqb_neq; lia|].
      destruct host; [congruence|reflexivity]. }
  rewrite (u32_small (f * 1000)) by lia. unfold tm_reset, ticking. cbn [tm_period tm_never tm_start].
  split; [lia|]. split; [apply Z.ltb_ge; lia|]. rewrite Z.div_0_l by lia. rewrite Z.mul_0_l, Z.add_0_r. reflexivity.
Qed.
Lemma frames_from_published : forall a fs, Forall (fun f => published_ti (snd (snd f))) fs -> frames_published (frames_from a fs).
Proof. intros. unfold frames_published, frames_from. apply Forall_map. exact H. Qed.
Lemma periodic_hit : forall e c w, periodic w = true -> host_of (view c) w <> [] ->
  forall now k t s ts o s' ts', published_ti t -> tic_notifs e c now k t s ts = Some (o, s', ts') ->
  let sel := match w with JEEDOM => t_jeedom | EMONCMS => t_emoncms | _ => t_http end in
  sent w o = fst (tm_expired now (sel ts)) && true /\ sel ts' = snd (tm_expired now (sel ts)).
Proof.
  intros e c w Pw H now k t s ts o s' ts' P S sel.
  pose proof (frame_reasons _ _ _ _ _ _ _ _ _ _ P S) as (_ & _ & _ & SM & SJ & SE & _).
  apply tic_notifs_spec in S; auto. destruct S as (_ & -> & _). rewrite andb_true_r.
  destruct w; try discriminate Pw; subst sel; cbv iota; cbn [t_http t_jeedom t_emoncms host_of] in *.
  - apply (proj2 (host_ne HHost c)) in H. rewrite SM, H. auto.
  - apply (proj2 (host_ne JHost c)) in H. rewrite SJ, H. auto.
  - apply (proj2 (host_ne EHost c)) in H. rewrite SE, H. auto.
Qed.
Lemma c52 : forall e a c st o st1 fs os st' w,
  tic_step e (Configure (u32 a) c) st = Some (o, st1) ->
  Forall (fun f => published_ti (snd (snd f))) fs ->
  tic_run e (frames_from a fs) st1 = Some (os, st') ->
  let s := view c in let p := 1000 * freq_of s w in
  periodic w = true -> host_of s w <> [] -> port_of s w <> 0 -> 0 < freq_of s w -> p <= 4294967294 ->
  spaced p 0 (map fst fs) ->
  map (sent w) os = firings p 0 (map fst fs).
Proof.
  intros e a c st o st1 fs os st' w S P R s p Pw H Po F1 F2 Sp. inv S.
  assert (L := run_settings _ _ _ _ _ R). destruct L as [_ L]. unfold frames_from in L. rewrite map_length in L.
  assert (T : ticking a p 0 ((match w with JEEDOM => t_jeedom | EMONCMS => t_emoncms | _ => t_http end)
                (tic_make_timers (u32 a) c (ts_tm st)))).
  { subst p s. destruct w; try discriminate Pw; cbn [host_of port_of freq_of] in *;
      cbn [tic_make_timers t_http t_jeedom t_emoncms].
    - apply (arm_ticking a (s_http_freq (view c)) (s_http_port (view c)) (s_http_host (view c))); auto; lia.
    - apply (arm_ticking a (s_jdom_freq (view c)) (s_jdom_port (view c)) (s_jdom_host (view c))); auto; lia.
    - apply (arm_ticking a (s_emon_freq (view c)) (s_emon_port (view c)) (s_emon_host (view c))); auto; lia. }
  pose proof (run_ticking e a c _ (fun _ => sent w) (fun _ => true) p ltac:(subst p; lia) (periodic_hit e c w Pw H)
    fs 0 (mk_ts c (ts_ns st) (tic_make_timers (u32 a) c (ts_tm st))) os st' P eq_refl T (Z.le_refl 0) Sp R) as K. cbv beta in K.
  rewrite (combine_right _ _ (sent w)) in K by auto. rewrite K. cbn [andb].
  rewrite (combine_right _ _ (fun b => b)) by (rewrite firings_length, map_length; auto). apply map_id.
Qed.
Lemma c52_sse : forall e a c st o st1 fs os st',
  tic_step e (Configure (u32 a) c) st = Some (o, st1) ->
  Forall (fun f => published_ti (snd (snd f))) fs ->
  tic_run e (frames_from a fs) st1 = Some (os, st') ->
  let p := 1000 * s_sse_freq (view c) in
  0 < s_sse_freq (view c) < 65536 -> spaced p 0 (map fst fs) ->
  map pushed os = map (fun x => negb (Nat.eqb (fst (snd (fst x))) 0) && snd x) (combine fs (firings p 0 (map fst fs))).
Proof.
  intros e a c st o st1 fs os st' S P R p F Sp. inv S.
  assert (L := run_settings _ _ _ _ _ R). destruct L as [_ L]. unfold frames_from in L. rewrite map_length in L.
  change (s_sse_freq (view c)) with (num SseFreq c) in *.
  assert (T : ticking a p 0 (t_sse (tic_make_timers (u32 a) c (ts_tm st)))).
  { subst p. cbn [tic_make_timers t_sse]. replace (num SseFreq c =? 0) with false by (symmetry; apply Z.eqb_neq; lia).
    unfold tm_reset, ticking. cbn [tm_period tm_never tm_start]. split; [lia|]. split; [apply Z.ltb_ge; lia|].
    rewrite Z.div_0_l by lia. rewrite Z.mul_0_l, Z.add_0_r. reflexivity. }
  assert (HS : forall now k t s ts o s' ts', published_ti t -> tic_notifs e c now k t s ts = Some (o, s', ts') ->
     pushed o = fst (tm_expired now (t_sse ts)) && negb (Nat.eqb k 0) /\ t_sse ts' = snd (tm_expired now (t_sse ts))).
  { intros now k t s ts o s' ts' Pt S. apply tic_notifs_spec in S; auto. destruct S as (_ & -> & -> & _). auto. }
  pose proof (run_ticking e a c t_sse (fun _ => pushed) (fun k => negb (Nat.eqb k 0)) p ltac:(subst p; lia) HS
    fs 0 (mk_ts c (ts_ns st) (tic_make_timers (u32 a) c (ts_tm st))) os st' P eq_refl T (Z.le_refl 0) Sp R) as K. cbv beta in K.
  rewrite (combine_right _ _ pushed) in K by auto. exact K.
Qed.
Lemma c52_sse_always : forall e a c st o st1 fs os st',
  tic_step e (Configure (u32 a) c) st = Some (o, st1) ->
  Forall (fun f => published_ti (snd (snd f))) fs ->
  tic_run e (frames_from a fs) st1 = Some (os, st') ->
  s_sse_freq (view c) = 0 -> map pushed os = map (fun f => negb (Nat.eqb (fst (snd f)) 0)) fs.
Proof.
  intros e a c st o st1 fs os st' S P R F. change (s_sse_freq (view c)) with (num SseFreq c) in F. inv S.
  assert (T : tm_period (t_sse (ts_tm (mk_ts c (ts_ns st) (tic_make_timers (u32 a) c (ts_tm st))))) = 0).
  { cbn [ts_tm tic_make_timers t_sse]. rewrite F. reflexivity. }
  revert R T. generalize (mk_ts c (ts_ns st) (tic_make_timers (u32 a) c (ts_tm st))). clear -P. revert os.
  induction fs as [|f fs IH]; intros os st R T.
  - inv R. reflexivity.
  - cbn [frames_from map] in R. apply run_cons in R. destruct R as (o & st1 & os' & S & R & ->).
    apply frame_step in S. destruct S as (n & tm & S & ->). inv P. apply tic_notifs_spec in S; auto.
    destruct S as (_ & E & D & _).
    assert (X : forall now, tm_expired now (t_sse (ts_tm st)) = (true, t_sse (ts_tm st))) by (intros; unfold tm_expired; rewrite T; reflexivity).
    cbn [map fst snd]. rewrite D, X. cbn [andb fst]. f_equal. apply (IH H2 os' _ R).
    cbn [ts_tm]. rewrite E. cbn [t_sse]. rewrite X. exact T.
Qed.
