(** Proofs about the collector. *)
From Coq Require Import ZArith List Bool Lia ZifyBool Sorted.
From Verif Require Import Base BaseFacts Teleinfo TeleinfoSpec Publish HistorySpec Json JsonBuild JsonBuildFacts AccessProofs Tic TicSpec PageProofs
  Dash DashMain Collect CollectSpec.
Import ListNotations.
Open Scope Z_scope.

Lemma item_property : forall k ms, item k ms = property k ms.
Proof. induction ms as [|[k' v] ms IH]; [reflexivity|]. cbn. rewrite IH. reflexivity. Qed.

(** ** The point of a frame *)
Lemma point_frame : forall e t gs d a c h w i x, published_ti t -> t_size t <> 0%nat -> carries t gs ->
  quotable (iso e (tv_sec (t_ts t))) = true -> Forall json_ready gs -> NoDup (map fst gs) -> tic_get_json_dict e t = Some d ->
  In (str "ADCO", a) gs -> In (str "HCHC", c) gs -> In (str "HCHP", h) gs -> In (str "PAPP", w) gs -> In (str "IINST", i) gs -> In (str "PTEC", x) gs ->
  ~ In (str "timestamp") (map fst gs) ->
  carries_point d (mk_point (json_value a) (JStr (iso e (tv_sec (t_ts t)))) (json_value c) (json_value h) (json_value w) (json_value i) (json_value x)).
Proof.
  intros e t gs d a c h w i x P Z0 C Q R U D Ia Ic Ih Iw Ii Ix NT.
  destruct (c11 e t None P) as (gs' & body & C' & B & _ & J).
  assert (gs' = gs) by (eapply carries_same; eauto). subst gs'.
  assert (body = d) by (unfold tic_get_json_dict in D; congruence). subst body.
  specialize (J Z0 Q Logic.I R). cbn [app] in J. eexists. split; [exact J|].
  set (ms := map (fun g => (fst g, json_value (snd g))) gs) in *.
  assert (L : forall y v, In (y, v) gs ->
    item y ((str "timestamp", JStr (iso e (tv_sec (t_ts t)))) :: (str "seconds", JStr (seconds_text (t_ts t))) :: ms) = Some (json_value v)).
  { intros y v I. rewrite item_property. cbn [property]. subst ms. rewrite (property_group y v gs U I). reflexivity. }
  assert (T : item (str "timestamp") ((str "timestamp", JStr (iso e (tv_sec (t_ts t)))) :: (str "seconds", JStr (seconds_text (t_ts t))) :: ms)
     = Some (JStr (iso e (tv_sec (t_ts t))))).
  { rewrite item_property. cbn [property]. subst ms. rewrite (property_absent _ gs NT). reflexivity. }
  unfold point_of. rewrite (L _ _ Ia), T, (L _ _ Ic), (L _ _ Ih), (L _ _ Iw), (L _ _ Ii), (L _ _ Ix). reflexivity.
Qed.

(** ** The loop *)
Definition accepted_events (msgs : list (Z * list Z)) : list cevent := map (fun m => Message (fst m) (snd m) true) msgs.
Lemma firsts_loop : forall freq msgs ps last before, Forall2 (fun m p => carries_point (snd m) p) msgs ps ->
  Forall (fun m => period freq (fst m) <> 0) msgs ->
  match before with Some b => last = b | None => last = 0 end ->
  exists last', collect_all freq (accepted_events msgs) (Receiving last) =
    (Receiving last', firsts freq before (combine (map fst msgs) ps)).
Proof.
  intros freq msgs ps last before F. revert last before. induction F as [|[ms d] p msgs ps (j & J & P) F IH]; intros last before N B.
  - exists last. reflexivity.
  - inversion N as [|? ? N1 N2]; subst. cbn [accepted_events map collect_all fst snd combine firsts] in *. fold (accepted_events msgs).
    cbn [collect]. fold (period freq ms).
    assert (E : (period freq ms =? last) = match before with Some b => b =? period freq ms | None => false end).
    { destruct before as [b|]; subst last; [apply Z.eqb_sym|]. lia. }
    rewrite E. destruct (match before with Some b => b =? period freq ms | None => false end) eqn:K.
    + destruct (IH last (Some (period freq ms)) N2) as (last' & ->); [|exists last'; reflexivity]. rewrite <- E in K by lia. lia.
    + rewrite J, P. destruct (IH (period freq ms) (Some (period freq ms)) N2 eq_refl) as (last' & ->). exists last'. reflexivity.
Qed.
Lemma c84_firsts : forall freq msgs ps, 0 < freq -> Forall2 (fun m p => carries_point (snd m) p) msgs ps ->
  Forall (fun m => 1000 * freq <= fst m) msgs ->
  snd (collect_all freq (accepted_events msgs) (Receiving 0)) = firsts freq None (combine (map fst msgs) ps).
Proof.
  intros freq msgs ps F0 F N. destruct (firsts_loop freq msgs ps 0 None F) as (l & ->); [|reflexivity|reflexivity].
  eapply Forall_impl; [|exact N]. intros [ms d] H. cbn [fst] in *. unfold period.
  assert (1 <= ms / (1000 * freq)) by (apply Z.div_le_lower_bound; lia). lia.
Qed.

(** at most one point per period when time does not go backwards *)
Lemma firsts_nth : forall freq msgs before j p, nth_error (firsts freq before msgs) j = Some [p] ->
  exists m, nth_error msgs j = Some m /\
    match j with
    | O => match before with Some b => b <> period freq (fst m) | None => True end
    | S i => exists m', nth_error msgs i = Some m' /\ period freq (fst m') <> period freq (fst m)
    end.
Proof.
  intros freq. induction msgs as [|[ms q] t IH]; intros before j p H; [destruct j; discriminate|].
  cbn [firsts] in H. destruct j as [|j].
  - exists (ms, q). split; [reflexivity|]. cbn [nth_error fst] in *. destruct before as [b|]; [|exact Logic.I].
    destruct (Z.eqb_spec b (period freq ms)); [discriminate | assumption].
  - cbn [nth_error] in H. destruct (IH _ _ _ H) as (m & M1 & M2). exists m. split; [exact M1|]. destruct j as [|j].
    + exists (ms, q). split; [reflexivity | exact M2].
    + exact M2.
Qed.
Lemma sorted_nth : forall (l : list Z) i j x y, StronglySorted Z.le l -> (i <= j)%nat -> nth_error l i = Some x -> nth_error l j = Some y -> x <= y.
Proof.
  intros l i j x y S. revert i j. induction S as [|a l S IH H]; intros i j L X Y; [destruct i; discriminate|].
  destruct i as [|i], j as [|j]; cbn [nth_error] in *; try lia.
  - assert (x = y) by congruence. lia.
  - injection X as ->. rewrite Forall_forall in H. apply H. eapply nth_error_In. exact Y.
  - eapply (IH i j); eauto. lia.
Qed.
Lemma c84_rate : forall freq msgs i j p q mi mj, 0 < freq -> StronglySorted Z.le (map fst msgs) ->
  nth_error (firsts freq None msgs) i = Some [p] -> nth_error (firsts freq None msgs) j = Some [q] -> (i < j)%nat ->
  nth_error msgs i = Some mi -> nth_error msgs j = Some mj -> period freq (fst mi) < period freq (fst mj).
Proof.
  intros freq msgs i j p q mi mj F S Hi Hj L Mi Mj. destruct (firsts_nth _ _ _ _ _ Hj) as (m & M1 & M2).
  assert (m = mj) by congruence. subst m. destruct j as [|j]; [lia|]. destruct M2 as (m' & M3 & M4).
  assert (K : forall u v x y, (u <= v)%nat -> nth_error msgs u = Some x -> nth_error msgs v = Some y -> period freq (fst x) <= period freq (fst y)).
  { intros u v x y U X Y. unfold period. apply Z.div_le_mono; [lia|]. apply (sorted_nth (map fst msgs) u v); auto; rewrite nth_error_map; [rewrite X | rewrite Y]; reflexivity. }
  pose proof (K i j mi m' ltac:(lia) Mi M3). pose proof (K j (Datatypes.S j) m' mj ltac:(lia) M3 Mj). lia.
Qed.

(** whatever happens, the collector goes on if all the messages are points, and stores only these points *)
Definition event_ok (e : cevent) : Prop := match e with Message _ d _ => exists p, carries_point d p | Failure => True end.
Lemma c84_goes_on : forall freq es last, Forall event_ok es -> exists last' out,
  collect_all freq es (Receiving last) = (Receiving last', out) /\
  Forall2 (fun e ps => ps = [] \/ exists ms d p, e = Message ms d true /\ carries_point d p /\ ps = [p]) es out.
Proof.
  intros freq es last F. revert last. induction F as [|e es H F IH]; intros last.
  - exists last, []. split; [reflexivity | constructor].
  - cbn [collect_all]. destruct e as [ms d acc|].
    + cbn [event_ok] in H. destruct H as (p & j & J & P). cbn [collect]. destruct (ms / (1000 * freq) =? last).
      { destruct (IH last) as (l & out & -> & G). exists l, ([] :: out). split; [reflexivity|]. constructor; auto. }
      rewrite J, P. destruct acc.
      { destruct (IH (ms / (1000 * freq))) as (l & out & -> & G). exists l, ([p] :: out). split; [reflexivity|]. constructor; [|exact G].
        right. exists ms, d, p. split; [reflexivity|]. split; [exists j; auto | reflexivity]. }
      { destruct (IH 0) as (l & out & -> & G). exists l, ([] :: out). split; [reflexivity|]. constructor; auto. }
    + cbn [collect]. destruct (IH 0) as (l & out & -> & G). exists l, ([] :: out). split; [reflexivity|]. constructor; auto.
Qed.

(** ** Polling *)
Definition answers (bodies : list (list Z)) : list pevent := map (fun b => Answer 200 b true) bodies.
Lemma point_time : forall ms p, point_of (JObj ms) = Some p -> item (str "timestamp") ms = Some (p_time p).
Proof.
  intros ms p H. unfold point_of in H. destruct (item (str "ADCO") ms); [|discriminate]. destruct (item (str "timestamp") ms); [|discriminate].
  destruct (item (str "HCHC") ms); [|discriminate]. destruct (item (str "HCHP") ms); [|discriminate]. destruct (item (str "PAPP") ms); [|discriminate].
  destruct (item (str "IINST") ms); [|discriminate]. destruct (item (str "PTEC") ms); [|discriminate]. injection H as <-. reflexivity.
Qed.
Lemma c84_polling : forall bodies ps last, Forall2 (fun b x => carries_point b (snd x) /\ p_time (snd x) = JStr (fst x)) bodies ps ->
  exists last', poll_all (answers bodies) (Polling (option_map JStr last)) = (Polling last', changes last ps).
Proof.
  intros bodies ps last F. revert last. induction F as [|b [ts p] bodies ps [(j & J & P) T] F IH]; intros last; [eexists; reflexivity|].
  cbn [fst snd] in *. cbn [answers map poll_all]. fold (answers bodies). cbn [poll]. change (200 =? 200) with true. cbv iota. rewrite J.
  destruct j as [| | | | |ms]; try discriminate P. rewrite (point_time ms p P), T, P. cbn [changes].
  destruct last as [l|]; cbn [option_map].
  - cbn [same_text]. destruct (beq ts l) eqn:E.
    + apply beq_eq in E. subst l. destruct (IH (Some ts)) as (l' & X). cbn [option_map] in X. rewrite X. eexists. reflexivity.
    + destruct (IH (Some ts)) as (l' & X). cbn [option_map] in X. rewrite X. eexists. reflexivity.
  - destruct (IH (Some ts)) as (l' & X). cbn [option_map] in X. rewrite X. eexists. reflexivity.
Qed.
