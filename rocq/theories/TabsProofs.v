(** Proofs of C94. *)
From Coq Require Import ZArith List Bool Lia.
From Verif Require Import Tabs TabsSpec.
Import ListNotations.
Open Scope Z_scope.

Lemma res_eqb_eq : forall a b, res_eqb a b = true <-> a = b.
Proof. intros [] []; split; intros H; try reflexivity; try discriminate. Qed.
Lemma res_eqb_refl : forall a, res_eqb a a = true.
Proof. intros []; reflexivity. Qed.
Lemma res_dec : forall a b : resource, a = b \/ res_eqb a b = false.
Proof. intros [] []; auto. Qed.
Lemma tab_eqb_eq : forall a b, tab_eqb a b = true <-> a = b.
Proof. intros [] []; split; intros H; try reflexivity; try discriminate. Qed.

Definition cnt {A : Type} (p : A -> bool) (l : list A) : nat := length (filter p l).
Lemma cnt_app : forall (A : Type) (p : A -> bool) a b, cnt p (a ++ b) = (cnt p a + cnt p b)%nat.
Proof. intros. unfold cnt. rewrite filter_app, app_length. reflexivity. Qed.
Lemma cnt_one : forall (A : Type) (p : A -> bool) a, cnt p [a] = (if p a then 1 else 0)%nat.
Proof. intros. unfold cnt. cbn [filter]. destruct (p a); reflexivity. Qed.
Lemma cnt_remove : forall (A : Type) (p : A -> bool) l n a, nth_error l n = Some a ->
  cnt p l = (cnt p (remove_nth n l) + (if p a then 1 else 0))%nat.
Proof.
  intros A p l. induction l as [|x l IH]; intros n a H; [destruct n; discriminate|].
  destruct n; cbn [nth_error] in H.
  - assert (x = a) by congruence. subst x. unfold remove_nth. cbn [firstn skipn app]. unfold cnt. cbn [filter]. destruct (p a); cbn [length]; lia.
  - specialize (IH n a H). change (remove_nth (S n) (x :: l)) with (x :: remove_nth n l).
    unfold cnt in *. cbn [filter]. destruct (p x); cbn [length]; lia.
Qed.
Lemma in_remove : forall (A : Type) (l : list A) n x, In x (remove_nth n l) -> In x l.
Proof.
  intros A l n x H. unfold remove_nth in H. apply in_app_or in H. destruct H as [H|H].
  - rewrite <- (firstn_skipn n l). apply in_or_app. auto.
  - rewrite <- (firstn_skipn (S n) l). apply in_or_app. auto.
Qed.
Lemma cnt_filter_le : forall (A : Type) (p q : A -> bool) l, (cnt p (filter q l) <= cnt p l)%nat.
Proof. induction l; cbn [filter]; auto. unfold cnt in *. destruct (q a); cbn [filter]; destruct (p a); cbn [length]; lia. Qed.
Lemma cnt_pos : forall (A : Type) (p : A -> bool) l x, In x l -> p x = true -> (1 <= cnt p l)%nat.
Proof.
  intros A p l x H Hp. unfold cnt. assert (F : In x (filter p l)) by (apply filter_In; auto).
  destruct (filter p l); [contradiction|cbn; lia].
Qed.
Lemma cnt_zero : forall (A : Type) (p : A -> bool) l, (forall x, In x l -> p x = false) -> cnt p l = 0%nat.
Proof. induction l; intros H; [reflexivity|]. unfold cnt in *. cbn [filter]. rewrite (H a) by (left; auto). apply IHl. intros. apply H. right; auto. Qed.

Definition is_timer (r : resource) (t : timer) : bool := res_eqb r (tm_table t).
Lemma waits_cnt : forall r s, waits r s = cnt (is_timer r) (st_timers s).
Proof. reflexivity. Qed.
Lemma prog_cnt : forall r s, in_progress r s = cnt (res_eqb r) (st_asked s).
Proof. reflexivity. Qed.
Lemma req_app : forall r a b, requests_for r (a ++ b) = requests_for r a ++ requests_for r b.
Proof. intros. unfold requests_for. rewrite filter_app, map_app. reflexivity. Qed.

Lemma clear_in : forall v l t, In t (clear v l) -> In t l.
Proof. intros [i|] l t H; cbn [clear] in H; [apply filter_In in H; tauto|auto]. Qed.
Lemma clear_gone : forall i l t, In t (clear (Some i) l) -> tm_id t <> i.
Proof. intros i l t H. cbn [clear] in H. apply filter_In in H. destruct H as [_ H]. apply negb_true_iff, Nat.eqb_neq in H. auto. Qed.

(** ** What always holds *)
Record fine (s : script) : Prop := mk_fine {
  fine_asked : forall r, In r (st_asked s) -> r = RTinfo \/ r = RSys;
  fine_timer : forall t, In t (st_timers s) -> (tm_table t = RTinfo \/ tm_table t = RSys);
  fine_url : st_nav s = Some TabSys \/ In RSys (st_asked s) \/ (exists t, In t (st_timers s) /\ tm_table t = RSys) -> st_sys_url s = true;
  fine_source : st_open s = match st_source s with Some i => [i] | None => [] end;
  fine_gauges : st_nav s = Some TabGauges <-> st_source s <> None }.

Lemma refresh_eq : forall r s, r = RTinfo \/ (r = RSys /\ st_sys_url s = true) ->
  refresh r s = (mk_script (st_now s) (st_nav s) (st_sys_url s) (st_asked s ++ [r]) (st_timers s) (st_timer_tinfo s) (st_timer_sys s)
         (st_source s) (st_open s) (st_next s), [(st_now s, r)]).
Proof. intros r s [->|[-> H]]; unfold refresh; [reflexivity|]. rewrite H. reflexivity. Qed.

Lemma fine_add : forall r s, fine s -> r = RTinfo \/ (r = RSys /\ st_sys_url s = true) -> fine (fst (refresh r s)).
Proof.
  intros r s [F1 F2 F3 F4 F5] H. rewrite refresh_eq by auto. cbn [fst].
  constructor; cbn; auto.
  - intros x Hx. apply in_app_or in Hx. destruct Hx as [Hx|[<-|[]]]; [auto|tauto].
  - intros [Hn|[Hn|Hn]]; auto. apply in_app_or in Hn. destruct Hn as [Hn|[->|[]]]; [auto|].
    destruct H as [H|[_ H]]; [discriminate|auto].
Qed.

Lemma closed_all : forall v, closed v (match v with Some i => [i] | None => [] end) = [].
Proof. intros [i|]; cbn [closed filter]; [rewrite Nat.eqb_refl; reflexivity|reflexivity]. Qed.

Lemma fine_shown : forall t s, fine s -> fine (fst (shown_tab t s)).
Proof.
  intros t s [F1 F2 F3 F4 F5]. unfold shown_tab.
  assert (G : t <> TabGauges -> st_sys_url s = true \/ t <> TabSys -> fine (left_tab t s)).
  { intros Hg Hs. constructor; cbn; try rewrite F4, closed_all; auto.
    - intros x Hx. apply clear_in, clear_in in Hx. auto.
    - intros [Hn|[Hn|(x & Hx & Hn)]].
      + destruct Hs as [Hs|Hs]; [auto|]. congruence.
      + apply F3. auto.
      + apply F3. right; right. exists x. split; [apply clear_in, clear_in in Hx; auto|auto].
    - split; [intros; congruence|intros Hc; destruct Hc; reflexivity]. }
  destruct t.
  - cbn [fst]. constructor; cbn; try rewrite F4, closed_all; auto.
    + intros x Hx. apply clear_in, clear_in in Hx. auto.
    + intros [Hn|[Hn|(x & Hx & Hn)]]; [discriminate| |].
      * apply F3. auto.
      * apply F3. right; right. exists x. split; [apply clear_in, clear_in in Hx; auto|auto].
    + split; [intros; discriminate|auto].
  - apply fine_add; [|auto]. apply G; [discriminate|right; discriminate].
  - apply fine_add; [|right; auto]. clear G. constructor; cbn; try rewrite F4, closed_all; auto.
    + intros x Hx. apply clear_in, clear_in in Hx. auto.
    + split; [intros; discriminate|intros Hc; destruct Hc; reflexivity].
  - cbn [fst]. apply G; [discriminate|right; discriminate].
Qed.

Lemma fine_loaded : forall r s, fine s -> fine (loaded_table r s).
Proof.
  intros r s [F1 F2 F3 F4 F5]. destruct r; cbn [loaded_table]; try (constructor; assumption).
  - destruct (is_active TabTinfo s); [|constructor; assumption]. constructor; cbn; auto.
    + intros x Hx. apply in_app_or in Hx. destruct Hx as [Hx|[<-|[]]]; [auto|left; reflexivity].
    + intros [Hn|[Hn|(x & Hx & Hn)]]; [apply F3; auto|apply F3; auto|].
      apply in_app_or in Hx. destruct Hx as [Hx|[<-|[]]]; [|discriminate]. apply F3. right; right. exists x; auto.
  - destruct (is_active TabSys s) eqn:EA; [|constructor; assumption].
    assert (EN : st_nav s = Some TabSys).
    { unfold is_active in EA. destruct (st_nav s) as [u|]; [|discriminate]. apply tab_eqb_eq in EA. congruence. }
    constructor; cbn; auto.
    intros x Hx. apply in_app_or in Hx. destruct Hx as [Hx|[<-|[]]]; [auto|right; reflexivity].
Qed.
Lemma fine_without_asked : forall n s, fine s -> fine (without_asked n s).
Proof.
  intros n s [F1 F2 F3 F4 F5]. constructor; cbn; auto.
  - intros r Hr. apply in_remove in Hr. auto.
  - intros [Hn|[Hn|Hn]]; auto. apply in_remove in Hn. auto.
Qed.
Lemma fine_without_timer : forall n s, fine s -> fine (without_timer n s).
Proof.
  intros n s [F1 F2 F3 F4 F5]. constructor; cbn; auto.
  - intros r Hr. apply in_remove in Hr. auto.
  - intros [Hn|[Hn|(x & Hx & Hn)]]; auto. apply in_remove in Hx. apply F3. right; right. exists x; auto.
Qed.

Lemma fine_step : forall e s, fine s -> fine (fst (happen e s)).
Proof.
  intros e s F. destruct e as [t|r|n ok|n|d]; cbn [happen].
  - unfold click_tab. destruct (is_active t s); [exact F|apply fine_shown; exact F].
  - destruct r; try exact F.
    + apply fine_add; auto.
    + unfold refresh. destruct (st_sys_url s) eqn:E; [|exact F].
      pose proof (fine_add RSys s F (or_intror (conj eq_refl E))) as G. unfold refresh in G. rewrite E in G. exact G.
  - destruct (nth_error (st_asked s) n) eqn:E; [|exact F]. destruct ok; cbn [fst].
    + apply fine_loaded, fine_without_asked, F.
    + apply fine_without_asked, F.
  - destruct (nth_error (st_timers s) n) as [t|] eqn:E; [|exact F]. destruct (tm_due t <=? st_now s); [|exact F].
    apply fine_add; [apply fine_without_timer, F|]. apply nth_error_In in E.
    destruct (fine_timer s F t E) as [-> | Ht]; [auto|]. right. split; [exact Ht|]. cbn.
    apply (fine_url s F). right; right. exists t; auto.
  - destruct F as [F1 F2 F3 F4 F5]. constructor; cbn; auto.
Qed.
Lemma happens_app : forall a b s, happens (a ++ b) s =
  (let '(s1, o1) := happens a s in let '(s2, o2) := happens b s1 in (s2, o1 ++ o2)).
Proof.
  induction a; intros b s; cbn [happens app].
  - destruct (happens b s). reflexivity.
  - destruct (happen a s) as [s1 o1]. rewrite IHa. destruct (happens a0 s1) as [s2 o2]. destruct (happens b s2) as [s3 o3].
    rewrite app_assoc. reflexivity.
Qed.
Lemma fine_run : forall es s s' o, fine s -> happens es s = (s', o) -> fine s'.
Proof.
  induction es; intros s s' o F H; cbn [happens] in H.
  - assert (s = s') by congruence. subst. exact F.
  - pose proof (fine_step a s F) as F1. destruct (happen a s) as [s1 o1]. destruct (happens es s1) as [s2 o2] eqn:E.
    assert (s2 = s') by congruence. subst. eapply IHes; [exact F1|exact E].
Qed.
Lemma fine_start : fine script_start.
Proof. constructor; cbn; intros; try contradiction; try reflexivity. - intuition. discriminate. destruct H as (? & [] & _). - split; [discriminate|intros H; contradiction]. Qed.
Lemma fine_opened : forall hash, fine (fst (opened hash)).
Proof.
  intros hash. unfold opened.
  assert (G : fine (fst (match hash with Some t => click_tab t script_start | None => (script_start, []) end))).
  { destruct hash as [t|]; [|exact fine_start]. change (click_tab t script_start) with (shown_tab t script_start). apply fine_shown, fine_start. }
  destruct (match hash with Some t => click_tab t script_start | None => (script_start, []) end) as [s1 o1].
  pose proof (fine_add RTinfo s1 G (or_introl eq_refl)) as G2. destruct (refresh RTinfo s1) as [s2 o2]. exact G2.
Qed.

Lemma nav_refresh : forall r s, st_nav (fst (refresh r s)) = st_nav s.
Proof. intros r s. unfold refresh. destruct r, (st_sys_url s); reflexivity. Qed.
Lemma nav_shown : forall t s, st_nav (fst (shown_tab t s)) = Some t.
Proof. intros t s. unfold shown_tab. destruct t; try reflexivity; rewrite nav_refresh; reflexivity. Qed.
Lemma nav_click : forall t s, st_nav (fst (click_tab t s)) = Some t.
Proof.
  intros t s. unfold click_tab. destruct (is_active t s) eqn:E; [|apply nav_shown].
  cbn [fst]. unfold is_active in E. destruct (st_nav s) as [u|]; [|discriminate]. apply tab_eqb_eq in E. congruence.
Qed.
Lemma nav_loaded : forall r s, st_nav (loaded_table r s) = st_nav s.
Proof. intros r s. destruct r; cbn [loaded_table]; try reflexivity; destruct (is_active _ s); reflexivity. Qed.
Lemma nav_step : forall e s, st_nav (fst (happen e s)) = match e with Clicks t => Some t | _ => st_nav s end.
Proof.
  intros e s. destruct e as [t|r|n ok|n|d]; cbn [happen].
  - apply nav_click.
  - destruct r; try reflexivity; apply nav_refresh.
  - destruct (nth_error (st_asked s) n); [|reflexivity]. destruct ok; cbn [fst]; [rewrite nav_loaded|]; reflexivity.
  - destruct (nth_error (st_timers s) n) as [t|]; [|reflexivity]. destruct (tm_due t <=? st_now s); [|reflexivity].
    rewrite nav_refresh. reflexivity.
  - reflexivity.
Qed.
Lemma nav_run : forall es s s' o, happens es s = (s', o) -> st_nav s' = chosen (st_nav s) es.
Proof.
  induction es; intros s s' o H; cbn [happens] in H.
  - assert (s = s') by congruence. subst. reflexivity.
  - pose proof (nav_step a s) as N. destruct (happen a s) as [s1 o1]. destruct (happens es s1) as [s2 o2] eqn:E.
    assert (s2 = s') by congruence. subst. rewrite (IHes _ _ _ E). cbn [fst] in N. rewrite N. unfold chosen. cbn [fold_left]. destruct a; reflexivity.
Qed.
Lemma nav_opened : forall hash, st_nav (fst (opened hash)) = hash.
Proof. intros [[]|]; reflexivity. Qed.

Lemma lived_fine : forall hash es s o, lived hash es s o -> fine s /\ st_nav s = chosen hash es.
Proof.
  intros hash es s o (s0 & o0 & o1 & E0 & E1 & ->). pose proof (fine_opened hash) as F. pose proof (nav_opened hash) as N. rewrite E0 in F, N.
  cbn [fst] in F, N. split; [eapply fine_run; eauto|]. rewrite (nav_run _ _ _ _ E1), N. reflexivity.
Qed.

Lemma c94_stream : forall hash es s o, lived hash es s o ->
  length (st_open s) = match chosen hash es with Some TabGauges => 1%nat | _ => 0%nat end.
Proof.
  intros hash es s o L. destruct (lived_fine _ _ _ _ L) as [F N]. rewrite <- N. rewrite (fine_source s F).
  pose proof (fine_gauges s F) as G. destruct (st_source s) as [i|].
  - rewrite (proj2 G) by discriminate. reflexivity.
  - destruct (st_nav s) as [[]|]; try reflexivity. exfalso. apply G; reflexivity.
Qed.

(** ** The number of loops *)
Definition loops (r : resource) (s : script) : nat := (in_progress r s + waits r s)%nat.

Lemma loops_add : forall r x s, fine s -> x = RTinfo \/ (x = RSys /\ st_sys_url s = true) ->
  loops r (fst (refresh x s)) = (loops r s + (if res_eqb r x then 1 else 0))%nat.
Proof.
  intros r x s F H. rewrite refresh_eq by auto. unfold loops. rewrite !prog_cnt, !waits_cnt. cbn [fst st_asked st_timers]. rewrite cnt_app, cnt_one. lia.
Qed.
Lemma active_nav : forall t s, is_active t s = true <-> st_nav s = Some t.
Proof.
  intros t s. unfold is_active. destruct (st_nav s) as [u|]; split; intros H; try discriminate.
  - apply tab_eqb_eq in H. congruence.
  - apply tab_eqb_eq. congruence.
Qed.
Lemma loops_loaded : forall t r x s, st_nav s = Some t -> table_of_tab t = Some r ->
  loops r (loaded_table x s) = (loops r s + (if res_eqb r x then 1 else 0))%nat.
Proof.
  intros t r x s N T. unfold loops. rewrite !prog_cnt, !waits_cnt.
  destruct t; try discriminate; assert (Er : r = RTinfo \/ r = RSys) by (cbn in T; first [left; congruence|right; congruence]); cbn in T; assert (R : Some r = Some r) by reflexivity.
  - assert (r = RTinfo) by congruence. subst r. destruct x; cbn [loaded_table res_eqb]; try lia.
    + rewrite (proj2 (active_nav TabTinfo s)) by exact N. cbn [st_asked st_timers]. rewrite cnt_app, cnt_one. cbn. lia.
    + destruct (is_active TabSys s) eqn:E; [apply active_nav in E; congruence|lia].
  - assert (r = RSys) by congruence. subst r. destruct x; cbn [loaded_table res_eqb]; try lia.
    + destruct (is_active TabTinfo s) eqn:E; [apply active_nav in E; congruence|lia].
    + rewrite (proj2 (active_nav TabSys s)) by exact N. cbn [st_asked st_timers]. rewrite cnt_app, cnt_one. cbn. lia.
Qed.

Definition presses (r : resource) (es : list happening) : nat :=
  length (filter (fun e => match e with Reloads x => res_eqb r x | _ => false end) es).

Lemma loops_step : forall t r e s, fine s -> st_nav s = Some t -> table_of_tab t = Some r ->
  (forall n, e <> Answered n false) -> (forall u, e <> Clicks u) ->
  loops r (fst (happen e s)) = (loops r s + presses r [e])%nat.
Proof.
  intros t r e s F N T NF NC. destruct e as [u|x|n ok|n|d]; cbn [happen].
  - destruct (NC u); reflexivity.
  - assert (NR : r = RTinfo \/ r = RSys) by (destruct t; cbn in T; try discriminate; [left|right]; congruence).
    unfold presses. cbn [filter].
    destruct x; try (destruct NR; subst r; cbn; rewrite ?Nat.add_0_r; reflexivity).
    + rewrite loops_add by auto. destruct (res_eqb r RTinfo); reflexivity.
    + destruct (st_sys_url s) eqn:U.
      * rewrite loops_add by auto. destruct (res_eqb r RSys); reflexivity.
      * unfold refresh. rewrite U. cbn [fst].
        assert (res_eqb r RSys = false).
        { destruct (res_eqb r RSys) eqn:R; [|reflexivity]. apply res_eqb_eq in R. subst r. destruct t; try discriminate.
          pose proof (fine_url s F (or_introl N)). congruence. }
        rewrite H. cbn. lia.
  - cbn. rewrite Nat.add_0_r. destruct (nth_error (st_asked s) n) as [x|] eqn:E; [|reflexivity].
    destruct ok; [|destruct (NF n); reflexivity]. cbn [fst]. rewrite (loops_loaded t r x) by auto.
    unfold loops. rewrite !prog_cnt, !waits_cnt. cbn [without_asked st_asked st_timers]. rewrite (cnt_remove _ (res_eqb r) _ _ _ E).
    lia.
  - cbn. rewrite Nat.add_0_r. destruct (nth_error (st_timers s) n) as [x|] eqn:E; [|reflexivity].
    destruct (tm_due x <=? st_now s); [|reflexivity].
    pose proof (nth_error_In _ _ E) as IN.
    rewrite loops_add; [|apply fine_without_timer, F|].
    2:{ destruct (fine_timer s F x IN) as [-> | Hx]; [auto|]. right. split; [exact Hx|]. cbn. apply (fine_url s F). right; right. exists x; auto. }
    unfold loops. rewrite !prog_cnt, !waits_cnt. cbn [without_timer st_asked st_timers].
    rewrite (cnt_remove _ (is_timer r) _ _ _ E). change (is_timer r x) with (res_eqb r (tm_table x)). lia.
  - cbn. rewrite Nat.add_0_r. reflexivity.
Qed.

Lemma loops_run : forall t r es s s' o, fine s -> st_nav s = Some t -> table_of_tab t = Some r ->
  all_answered es -> (forall u, ~ In (Clicks u) es) -> happens es s = (s', o) ->
  loops r s' = (loops r s + presses r es)%nat.
Proof.
  induction es; intros s s' o F N T A C H; cbn [happens] in H.
  - assert (s = s') by congruence. subst. unfold presses. cbn. lia.
  - assert (NC : forall u, a <> Clicks u). { intros u ->. apply (C u). left; reflexivity. }
    pose proof (loops_step t r a s F N T) as L. pose proof (fine_step a s F) as F1. pose proof (nav_step a s) as N1.
    destruct (happen a s) as [s1 o1]. destruct (happens es s1) as [s2 o2] eqn:E.
    assert (s2 = s') by congruence. subst. cbn [fst] in *.
    rewrite (IHes s1 s' o2 F1); auto.
    + rewrite L; [|intros n ->; apply (A n); left; reflexivity|exact NC]. unfold presses. cbn [filter].
      destruct (match a with Reloads x => res_eqb r x | _ => false end); cbn [length]; lia.
    + rewrite N1. destruct a; auto. destruct (NC t0); reflexivity.
    + intros n Hn. apply (A n). right; auto.
    + intros u Hu. apply (C u). right; auto.
Qed.

Lemma c94_loops : forall hash es0 s0 o0 t r es s o, lived hash es0 s0 o0 -> chosen hash es0 = Some t -> table_of_tab t = Some r ->
  all_answered es -> (forall u, ~ In (Clicks u) es) -> happens es s0 = (s, o) ->
  (in_progress r s + waits r s = in_progress r s0 + waits r s0 + presses r es)%nat.
Proof.
  intros hash es0 s0 o0 t r es s o L N T A C H. destruct (lived_fine _ _ _ _ L) as [F N0].
  apply (loops_run t r es s0 s o F); auto. congruence.
Qed.

(** ** The tab shown stays alive *)
Lemma loops_shown : forall t r s, fine s -> table_of_tab t = Some r -> (1 <= loops r (fst (shown_tab t s)))%nat.
Proof.
  intros t r s F T. unfold shown_tab. destruct t; try discriminate; cbn in T; unfold loops; rewrite prog_cnt.
  - assert (r = RTinfo) by congruence. subst r. rewrite refresh_eq by auto. cbn [fst st_asked]. rewrite cnt_app, cnt_one. cbn. lia.
  - assert (r = RSys) by congruence. subst r. rewrite refresh_eq by auto. cbn [fst st_asked]. rewrite cnt_app, cnt_one. cbn. lia.
Qed.
Definition alive (s : script) : Prop := forall t r, st_nav s = Some t -> table_of_tab t = Some r -> (1 <= loops r s)%nat.
Lemma alive_step : forall e s, fine s -> alive s -> (forall n, e <> Answered n false) -> alive (fst (happen e s)).
Proof.
  intros e s F A NF t r N T. rewrite nav_step in N.
  destruct e as [u|x|n ok|n|d].
  - assert (u = t) by congruence. subst u. cbn [happen]. unfold click_tab. destruct (is_active t s) eqn:E.
    + cbn [fst]. apply A with t; auto. apply active_nav. exact E.
    + apply loops_shown; auto.
  - rewrite (loops_step t r) by (auto; discriminate). specialize (A t r N T). lia.
  - rewrite (loops_step t r) by (auto; discriminate). specialize (A t r N T). lia.
  - rewrite (loops_step t r) by (auto; discriminate). specialize (A t r N T). lia.
  - rewrite (loops_step t r) by (auto; discriminate). specialize (A t r N T). lia.
Qed.
Lemma alive_run : forall es s s' o, fine s -> alive s -> all_answered es -> happens es s = (s', o) -> alive s'.
Proof.
  induction es; intros s s' o F A NF H; cbn [happens] in H.
  - assert (s = s') by congruence. subst. exact A.
  - pose proof (fine_step a s F) as F1. pose proof (alive_step a s F A) as A1.
    destruct (happen a s) as [s1 o1]. destruct (happens es s1) as [s2 o2] eqn:E.
    assert (s2 = s') by congruence. subst. cbn [fst] in *. apply (IHes s1 s' o2); auto.
    + apply A1. intros n ->. apply (NF n). left; reflexivity.
    + intros n Hn. apply (NF n). right; auto.
Qed.
Lemma alive_opened : forall hash, alive (fst (opened hash)).
Proof. intros [[]|] t r N T; cbn in N; try discriminate; assert (t = t) by reflexivity; injection N as <-; cbn in T; try discriminate; injection T as <-; cbn; lia. Qed.

Lemma c94_alive : forall hash es s o t r, lived hash es s o -> all_answered es -> chosen hash es = Some t -> table_of_tab t = Some r ->
  In r (st_asked s) \/ exists x, In x (st_timers s) /\ tm_table x = r.
Proof.
  intros hash es s o t r L A N T. destruct (lived_fine _ _ _ _ L) as [F N0]. rewrite <- N0 in N.
  destruct L as (s0 & o0 & o1 & E0 & E1 & ->). pose proof (alive_opened hash) as AO. pose proof (fine_opened hash) as FO. rewrite E0 in AO, FO.
  pose proof (alive_run _ _ _ _ FO AO A E1 t r N T) as G. unfold loops in G. rewrite prog_cnt, waits_cnt in G. unfold cnt in G.
  destruct (filter (res_eqb r) (st_asked s)) as [|x l] eqn:E.
  - destruct (filter (is_timer r) (st_timers s)) as [|y l'] eqn:E'; [cbn in G; lia|].
    right. exists y. assert (I : In y (filter (is_timer r) (st_timers s))) by (rewrite E'; left; reflexivity).
    apply filter_In in I. destruct I as [I1 I2]. split; [exact I1|]. apply res_eqb_eq in I2. auto.
  - left. assert (I : In x (filter (res_eqb r) (st_asked s))) by (rewrite E; left; reflexivity).
    apply filter_In in I. destruct I as [I1 I2]. apply res_eqb_eq in I2. subst. exact I1.
Qed.

(** ** A tab that is left *)
Lemma left_step : forall r e s, fine s -> match e with Clicks _ | Reloads _ => False | _ => True end ->
  (forall t, st_nav s = Some t -> table_of_tab t <> Some r) ->
  (length (requests_for r (snd (happen e s))) + waits r (fst (happen e s)) <= waits r s)%nat.
Proof.
  intros r e s F U N. destruct e as [u|x|n ok|n|d]; try contradiction; cbn [happen].
  - destruct (nth_error (st_asked s) n) as [x|] eqn:E; [|exact (le_n _)]. destruct ok; cbn [fst snd]; [|exact (le_n _)].
    change (length (requests_for r [])) with 0%nat. rewrite !waits_cnt.
    destruct x; cbn [loaded_table]; try exact (le_n _).
    + destruct (is_active TabTinfo (without_asked n s)) eqn:A; [|exact (le_n _)]. apply active_nav in A. cbn in A.
      cbn [st_timers]. rewrite cnt_app, cnt_one. cbn [without_asked st_timers st_next st_now].
      change (is_timer r (mk_timer (st_next s) RTinfo _)) with (res_eqb r RTinfo).
      destruct (res_dec r RTinfo) as [->|H]; [exfalso; apply (N TabTinfo A); reflexivity|]. rewrite H. lia.
    + destruct (is_active TabSys (without_asked n s)) eqn:A; [|exact (le_n _)]. apply active_nav in A. cbn in A.
      cbn [st_timers]. rewrite cnt_app, cnt_one. cbn [without_asked st_timers st_next st_now].
      change (is_timer r (mk_timer (st_next s) RSys _)) with (res_eqb r RSys).
      destruct (res_dec r RSys) as [->|H]; [exfalso; apply (N TabSys A); reflexivity|]. rewrite H. lia.
  - destruct (nth_error (st_timers s) n) as [x|] eqn:E; [|exact (le_n _)].
    destruct (tm_due x <=? st_now s); [|exact (le_n _)].
    pose proof (nth_error_In _ _ E) as IN.
    rewrite refresh_eq.
    2:{ destruct (fine_timer s F x IN) as [-> | Hx]; [auto|]. right. split; [exact Hx|]. cbn. apply (fine_url s F). right; right. exists x; auto. }
    cbn [fst snd]. rewrite !waits_cnt. cbn [without_timer st_timers]. rewrite (cnt_remove _ (is_timer r) _ _ _ E).
    change (is_timer r x) with (res_eqb r (tm_table x)). unfold requests_for. cbn [filter snd].
    assert (S : res_eqb (tm_table x) r = res_eqb r (tm_table x)) by (destruct (tm_table x), r; reflexivity). rewrite S.
    destruct (res_eqb r (tm_table x)); cbn; lia.
  - exact (le_n _).
Qed.
Lemma left_run : forall r es s s' o, fine s -> untouched es -> (forall t, st_nav s = Some t -> table_of_tab t <> Some r) ->
  happens es s = (s', o) -> (length (requests_for r o) + waits r s' <= waits r s)%nat.
Proof.
  induction es; intros s s' o F U N H; cbn [happens] in H.
  - assert (s = s' /\ [] = o) as [-> <-] by (split; congruence). cbn. lia.
  - pose proof (fine_step a s F) as F1. pose proof (left_step r a s F (U a (or_introl eq_refl)) N) as L. pose proof (nav_step a s) as N1.
    destruct (happen a s) as [s1 o1]. destruct (happens es s1) as [s2 o2] eqn:E.
    assert (s2 = s' /\ o1 ++ o2 = o) as [<- <-] by (split; congruence). cbn [fst snd] in *.
    assert (X : (length (requests_for r o2) + waits r s2 <= waits r s1)%nat).
    { apply (IHes s1 s2 o2); auto.
      - intros e He. apply U. right; auto.
      - intros t Ht. apply N. rewrite <- Ht, N1. pose proof (U a (or_introl eq_refl)) as Ua. destruct a; auto. contradiction. }
    rewrite req_app, app_length. lia.
Qed.

Lemma c94_left : forall hash es0 s0 o0 r es s o, lived hash es0 s0 o0 ->
  (forall t, chosen hash es0 = Some t -> table_of_tab t <> Some r) -> untouched es -> happens es s0 = (s, o) ->
  (length (requests_for r o) <= waits r s0)%nat.
Proof.
  intros hash es0 s0 o0 r es s o L N U H. destruct (lived_fine _ _ _ _ L) as [F N0]. rewrite <- N0 in N.
  pose proof (left_run r es s0 s o F U N H). lia.
Qed.

(** ** One loop only *)
Definition var_of (r : resource) (s : script) : option nat := match r with RTinfo => st_timer_tinfo s | _ => st_timer_sys s end.
Definition tab_of (r : resource) : tab := match r with RTinfo => TabTinfo | _ => TabSys end.
Definition last_of (l : list Z) (z : Z) : Prop := exists b, l = b ++ [z].
Record single (r : resource) (s : script) (o : trace) : Prop := mk_single {
  sg_loops : (loops r s <= 1)%nat;
  sg_var : forall t, In t (st_timers s) -> tm_table t = r -> var_of r s = Some (tm_id t);
  sg_quiet : st_nav s <> Some (tab_of r) -> waits r s = 0%nat;
  sg_last : forall z, last_of (requests_for r o) z -> z <= st_now s;
  sg_due : forall t z, In t (st_timers s) -> tm_table t = r -> last_of (requests_for r o) z -> z + pause r <= tm_due t }.

Lemma last_app : forall l z y, last_of (l ++ [y]) z -> z = y.
Proof. intros l z y (b & H). apply app_inj_tail in H. destruct H. auto. Qed.
Lemma waits_none : forall r s, waits r s = 0%nat <-> forall t, In t (st_timers s) -> tm_table t <> r.
Proof.
  intros r s. rewrite waits_cnt. split.
  - intros H t Ht E. assert (1 <= cnt (is_timer r) (st_timers s))%nat; [|lia]. apply cnt_pos with t; auto. unfold is_timer. rewrite E. apply res_eqb_refl.
  - intros H. apply cnt_zero. intros t Ht. unfold is_timer. destruct (res_dec r (tm_table t)) as [E|E]; [|exact E]. destruct (H t Ht). auto.
Qed.
Lemma prog_none : forall r s, ~ In r (st_asked s) -> in_progress r s = 0%nat.
Proof.
  intros r s H. rewrite prog_cnt. apply cnt_zero. intros x Hx. destruct (res_dec r x) as [<- |E]; [contradiction|exact E].
Qed.

(** a request for [x] *)
Lemma single_add : forall r x s o, (r = RTinfo \/ r = RSys) -> fine s -> single r s o -> x = RTinfo \/ (x = RSys /\ st_sys_url s = true) ->
  (x = r -> loops r s = 0%nat) ->
  single r (fst (refresh x s)) (o ++ snd (refresh x s)).
Proof.
  intros r x s o R F [S1 S2 S3 S4 S5] X Z0. rewrite refresh_eq by auto. cbn [fst snd].
  assert (W : forall t, In t (st_timers s) -> tm_table t = r -> x <> r).
  { intros t Ht Et ->. specialize (Z0 eq_refl). unfold loops in Z0. assert (W0 : waits r s = 0%nat) by lia. apply (proj1 (waits_none r s) W0 t Ht Et). }
  assert (Q : x <> r -> requests_for r (o ++ [(st_now s, x)]) = requests_for r o).
  { intros Hx. rewrite req_app. unfold requests_for at 2. cbn [filter snd].
    destruct (res_dec x r) as [E|E]; [contradiction|]. rewrite E. cbn [map]. apply app_nil_r. }
  constructor.
  - unfold loops in *. rewrite prog_cnt, waits_cnt in *. cbn [st_asked st_timers]. rewrite cnt_app, cnt_one.
    destruct (res_dec r x) as [<- |E]; [|rewrite E; lia]. rewrite res_eqb_refl. specialize (Z0 eq_refl). lia.
  - exact S2.
  - exact S3.
  - intros z Hz. cbn [st_now]. destruct (res_dec x r) as [-> |E].
    + rewrite req_app in Hz. unfold requests_for at 2 in Hz. cbn [filter snd] in Hz. rewrite res_eqb_refl in Hz. cbn [map fst] in Hz.
      apply last_app in Hz. lia.
    + rewrite Q in Hz by (intros ->; rewrite res_eqb_refl in E; discriminate). auto.
  - cbn [st_timers]. intros t z Ht Et Hz. rewrite Q in Hz by (apply (W t); auto). eauto.
Qed.

Lemma single_shown : forall r t s o, (r = RTinfo \/ r = RSys) -> fine s -> single r s o -> ~ In r (st_asked s) ->
  single r (fst (shown_tab t s)) (o ++ snd (shown_tab t s)).
Proof.
  intros r t s o R F [S1 S2 S3 S4 S5] NI.
  assert (C : forall x, In x (clear (st_timer_tinfo s) (clear (st_timer_sys s) (st_timers s))) -> tm_table x <> r).
  { intros x Hx Ex. pose proof (clear_in _ _ _ (clear_in _ _ _ Hx)) as Hx0. pose proof (S2 x Hx0 Ex) as V.
    destruct R as [-> | ->]; cbn [var_of] in V.
    - rewrite V in Hx. apply clear_gone in Hx. congruence.
    - apply clear_in in Hx. rewrite V in Hx. apply clear_gone in Hx. congruence. }
  assert (L0 : forall s', st_asked s' = st_asked s -> st_timers s' = clear (st_timer_tinfo s) (clear (st_timer_sys s) (st_timers s)) -> loops r s' = 0%nat).
  { intros s' E1 E2. unfold loops. rewrite prog_none by (rewrite E1; exact NI). rewrite (proj2 (waits_none r s')); [reflexivity|]. rewrite E2. exact C. }
  assert (G : forall s' o', st_asked s' = st_asked s -> st_timers s' = clear (st_timer_tinfo s) (clear (st_timer_sys s) (st_timers s)) ->
     st_now s' = st_now s -> requests_for r o' = [] -> single r s' (o ++ o')).
  { intros s' o' E1 E2 E3 E4. pose proof (L0 s' E1 E2) as L. constructor.
    - lia.
    - rewrite E2. intros x Hx Ex. destruct (C x Hx Ex).
    - intros _. unfold loops in L. lia.
    - intros z Hz. rewrite req_app, E4, app_nil_r in Hz. rewrite E3. auto.
    - rewrite E2. intros x z Hx Ex. destruct (C x Hx Ex). }
  assert (FL : t <> TabGauges -> fine (give_url (left_tab t s))).
  { intros Hg. destruct F as [F1 F2 F3 F4 F5]. constructor; cbn; try rewrite F4, closed_all; auto.
    - intros x Hx. apply clear_in, clear_in in Hx. auto.
    - split; [intros; congruence|intros Hc; destruct Hc; reflexivity]. }
  unfold shown_tab. destruct t.
  - apply G; try reflexivity. destruct R as [-> | ->]; reflexivity.
  - pose proof (G (left_tab TabTinfo s) [] eq_refl eq_refl eq_refl eq_refl) as G0. rewrite app_nil_r in G0.
    apply single_add; auto.
    pose proof (fine_shown TabTinfo s F) as FS. unfold shown_tab in FS. rewrite refresh_eq in FS by auto. cbn [fst] in FS.
    destruct F as [F1 F2 F3 F4 F5]. constructor; cbn; try rewrite F4, closed_all; auto.
    + intros x Hx. apply clear_in, clear_in in Hx. auto.
    + intros [Hn|[Hn|(x & Hx & Hn)]]; [discriminate|apply F3; auto|].
      apply F3. right; right. exists x. split; [apply clear_in, clear_in in Hx; auto|auto].
    + split; [intros; discriminate|intros Hc; destruct Hc; reflexivity].
  - pose proof (G (give_url (left_tab TabSys s)) [] eq_refl eq_refl eq_refl eq_refl) as G0. rewrite app_nil_r in G0.
    apply single_add; auto. apply FL. discriminate.
  - apply G; try reflexivity. destruct R as [-> | ->]; reflexivity.
Qed.

Lemma single_step : forall r e s o, (r = RTinfo \/ r = RSys) -> fine s -> single r s o -> e <> Reloads r ->
  (forall u, e = Clicks u -> ~ In r (st_asked s)) ->
  single r (fst (happen e s)) (o ++ snd (happen e s)).
Proof.
  intros r e s o R F SG NB P. destruct e as [u|x|n ok|n|d]; cbn [happen].
  - unfold click_tab. destruct (is_active u s); [cbn [fst snd]; rewrite app_nil_r; exact SG|].
    apply single_shown; auto. apply (P u). reflexivity.
  - assert (NX : x <> r) by congruence.
    destruct x; cbn [fst snd]; rewrite ?app_nil_r; try exact SG.
    + apply single_add; auto. intros X. destruct (NX X).
    + destruct (st_sys_url s) eqn:U.
      * apply single_add; auto. intros X. destruct (NX X).
      * unfold refresh. rewrite U. cbn [fst snd]. rewrite app_nil_r. exact SG.
  - destruct (nth_error (st_asked s) n) as [x|] eqn:E; [|cbn [fst snd]; rewrite app_nil_r; exact SG].
    assert (C : cnt (res_eqb r) (st_asked s) = (cnt (res_eqb r) (remove_nth n (st_asked s)) + (if res_eqb r x then 1 else 0))%nat)
      by (apply cnt_remove; exact E).
    assert (W : single r (without_asked n s) o).
    { destruct SG as [S1 S2 S3 S4 S5]. constructor; auto. unfold loops in *. rewrite prog_cnt, waits_cnt in *. cbn [without_asked st_asked st_timers]. lia. }
    destruct ok; cbn [fst snd]; rewrite app_nil_r; [|exact W].
    assert (NW : x = r -> forall t, In t (st_timers s) -> tm_table t <> r).
    { intros ->. apply waits_none. rewrite res_eqb_refl in C. destruct SG as [S1 _ _ _ _]. unfold loops in S1. rewrite prog_cnt in S1. lia. }
    assert (LW : x = r -> loops r (without_asked n s) = 0%nat).
    { intros ->. rewrite res_eqb_refl in C. destruct SG as [S1 _ _ _ _]. unfold loops in *. rewrite prog_cnt, waits_cnt in *. cbn [without_asked st_asked st_timers]. lia. }
    pose proof SG as SG0. destruct SG as [S1 S2 S3 S4 S5]. destruct W as [W1 W2 W3 W4 W5].
    destruct x; cbn [loaded_table]; try (constructor; assumption).
    + destruct (is_active TabTinfo (without_asked n s)) eqn:A; [|constructor; assumption].
      apply active_nav in A. cbn in A.
      destruct (res_dec RTinfo r) as [<- |NR].
      * specialize (LW eq_refl). specialize (NW eq_refl). constructor; cbn [st_asked st_timers st_nav st_now without_asked].
        -- unfold loops in *. rewrite prog_cnt, waits_cnt in *. cbn [without_asked st_asked st_timers] in *. rewrite cnt_app, cnt_one. cbn. lia.
        -- intros t Ht Et. apply in_app_or in Ht. destruct Ht as [Ht|[<- |[]]]; [destruct (NW t Ht Et)|reflexivity].
        -- intros X. destruct X. exact A.
        -- exact S4.
        -- intros t z Ht Et Hz. apply in_app_or in Ht. destruct Ht as [Ht|[<- |[]]]; [destruct (NW t Ht Et)|].
           cbn [tm_due pause]. specialize (S4 z Hz). cbn [st_now without_asked]. lia.
      * assert (Er : r = RSys) by (destruct R; [subst r; discriminate|assumption]). subst r.
        constructor; cbn [st_asked st_timers st_nav st_now without_asked].
        -- unfold loops in *. rewrite prog_cnt, waits_cnt in *. cbn [without_asked st_asked st_timers] in *. rewrite cnt_app, cnt_one. cbn. lia.
        -- intros t Ht Et. apply in_app_or in Ht. destruct Ht as [Ht|[<- |[]]]; [apply (S2 t Ht Et)|discriminate].
        -- intros X. rewrite waits_cnt in *. cbn [st_timers] in *. rewrite cnt_app, cnt_one. cbn. specialize (S3 X). lia.
        -- exact S4.
        -- intros t z Ht Et Hz. apply in_app_or in Ht. destruct Ht as [Ht|[<- |[]]]; [apply (S5 t z Ht Et Hz)|discriminate].
    + destruct (is_active TabSys (without_asked n s)) eqn:A; [|constructor; assumption].
      apply active_nav in A. cbn in A.
      destruct (res_dec RSys r) as [<- |NR].
      * specialize (LW eq_refl). specialize (NW eq_refl). constructor; cbn [st_asked st_timers st_nav st_now without_asked].
        -- unfold loops in *. rewrite prog_cnt, waits_cnt in *. cbn [without_asked st_asked st_timers] in *. rewrite cnt_app, cnt_one. cbn. lia.
        -- intros t Ht Et. apply in_app_or in Ht. destruct Ht as [Ht|[<- |[]]]; [destruct (NW t Ht Et)|reflexivity].
        -- intros X. destruct X. exact A.
        -- exact S4.
        -- intros t z Ht Et Hz. apply in_app_or in Ht. destruct Ht as [Ht|[<- |[]]]; [destruct (NW t Ht Et)|].
           cbn [tm_due pause]. specialize (S4 z Hz). cbn [st_now without_asked]. lia.
      * assert (Er : r = RTinfo) by (destruct R; [assumption|subst r; discriminate]). subst r.
        constructor; cbn [st_asked st_timers st_nav st_now without_asked].
        -- unfold loops in *. rewrite prog_cnt, waits_cnt in *. cbn [without_asked st_asked st_timers] in *. rewrite cnt_app, cnt_one. cbn. lia.
        -- intros t Ht Et. apply in_app_or in Ht. destruct Ht as [Ht|[<- |[]]]; [apply (S2 t Ht Et)|discriminate].
        -- intros X. rewrite waits_cnt in *. cbn [st_timers] in *. rewrite cnt_app, cnt_one. cbn. specialize (S3 X). lia.
        -- exact S4.
        -- intros t z Ht Et Hz. apply in_app_or in Ht. destruct Ht as [Ht|[<- |[]]]; [apply (S5 t z Ht Et Hz)|discriminate].
  - destruct (nth_error (st_timers s) n) as [x|] eqn:E; [|cbn [fst snd]; rewrite app_nil_r; exact SG].
    destruct (tm_due x <=? st_now s); [|cbn [fst snd]; rewrite app_nil_r; exact SG].
    pose proof (nth_error_In _ _ E) as IN.
    assert (C : cnt (is_timer r) (st_timers s) = (cnt (is_timer r) (remove_nth n (st_timers s)) + (if is_timer r x then 1 else 0))%nat)
      by (apply cnt_remove; exact E).
    assert (W : single r (without_timer n s) o).
    { destruct SG as [S1 S2 S3 S4 S5]. constructor; cbn [without_timer st_asked st_timers st_nav st_now].
      - unfold loops in *. rewrite prog_cnt, waits_cnt in *. cbn [without_timer st_asked st_timers]. lia.
      - intros t Ht. apply in_remove in Ht. apply (S2 t Ht).
      - intros X. specialize (S3 X). rewrite waits_cnt in S3. rewrite waits_cnt. cbn [without_timer st_timers]. lia.
      - exact S4.
      - intros t z Ht. apply in_remove in Ht. apply (S5 t z Ht). }
    apply single_add; auto.
    + apply fine_without_timer, F.
    + destruct (fine_timer s F x IN) as [-> | Hx]; [auto|]. right. split; [exact Hx|]. cbn. apply (fine_url s F). right; right. exists x; auto.
    + intros X. change (is_timer r x) with (res_eqb r (tm_table x)) in C. rewrite X, res_eqb_refl in C. destruct SG as [S1 _ _ _ _].
      unfold loops in *. rewrite prog_cnt, waits_cnt in *. cbn [without_timer st_asked st_timers]. lia.
  - destruct SG as [S1 S2 S3 S4 S5]. cbn [fst snd]. rewrite app_nil_r. constructor; auto.
    intros z Hz. cbn [st_now]. specialize (S4 z Hz). lia.
Qed.

Lemma single_run : forall r es s s' o o', (r = RTinfo \/ r = RSys) -> fine s -> single r s o -> no_button r es -> patient r es s ->
  happens es s = (s', o') -> single r s' (o ++ o').
Proof.
  induction es; intros s s' o o' R F SG NB P H; cbn [happens] in H.
  - assert (s = s' /\ [] = o') as [-> <-] by (split; congruence). rewrite app_nil_r. exact SG.
  - cbn [patient] in P. destruct P as [P1 P2].
    assert (NA : a <> Reloads r) by (intros ->; apply NB; left; reflexivity).
    pose proof (fine_step a s F) as F1. pose proof (single_step r a s o R F SG NA P1) as S1.
    destruct (happen a s) as [s1 o1]. destruct (happens es s1) as [s2 o2] eqn:E.
    assert (s2 = s' /\ o1 ++ o2 = o') as [<- <-] by (split; congruence). cbn [fst snd] in *.
    rewrite app_assoc. apply (IHes s1 s2 (o ++ o1) o2); auto. intros X. apply NB. right; auto.
Qed.

Lemma single_opened : forall r hash, (r = RTinfo \/ r = RSys) -> (hash = Some TabTinfo -> r <> RTinfo) ->
  single r (fst (opened hash)) (snd (opened hash)).
Proof.
  intros r hash R H.
  assert (B : forall z, last_of (requests_for r (snd (opened hash))) z -> z = 0).
  { intros z (b & Hb). destruct R as [-> | ->]; destruct hash as [[]|]; cbn in Hb; try (destruct H; reflexivity);
    destruct b as [|? [|? ?]]; try discriminate; cbn in Hb; try congruence. }
  constructor.
  - destruct R as [-> | ->]; destruct hash as [[]|]; cbn; try lia. exfalso. apply H; reflexivity.
  - destruct hash as [[]|]; cbn; contradiction.
  - destruct R as [-> | ->]; destruct hash as [[]|]; cbn; intros; reflexivity.
  - intros z Hz. rewrite (B z Hz). destruct hash as [[]|]; cbn; lia.
  - destruct hash as [[]|]; cbn; contradiction.
Qed.

Lemma untouched_ok : forall r es s, untouched es -> no_button r es /\ patient r es s.
Proof.
  induction es; intros s U; [split; [intros []|exact Logic.I]|].
  assert (U' : untouched es) by (intros e He; apply U; right; exact He). pose proof (U a (or_introl eq_refl)) as Ua.
  destruct (IHes (fst (happen a s)) U') as [I1 I2]. split.
  - intros [E|E]; [subst a; exact Ua|auto].
  - split; [|exact I2]. intros u ->. contradiction.
Qed.

Lemma step_spaced : forall r e s o z, (r = RTinfo \/ r = RSys) -> fine s -> single r s o ->
  match e with Clicks _ | Reloads _ => False | _ => True end -> last_of (requests_for r o) z ->
  requests_for r (snd (happen e s)) = [] \/ exists y, requests_for r (snd (happen e s)) = [y] /\ z + pause r <= y.
Proof.
  intros r e s o z R F SG U Hz. destruct e as [u|x|n ok|n|d]; try contradiction; cbn [happen].
  - destruct (nth_error (st_asked s) n); [|auto]. destruct ok; auto.
  - destruct (nth_error (st_timers s) n) as [x|] eqn:E; [|auto]. destruct (Z.leb_spec (tm_due x) (st_now s)); [|auto].
    pose proof (nth_error_In _ _ E) as IN.
    rewrite refresh_eq.
    2:{ destruct (fine_timer s F x IN) as [-> | Hx]; [auto|]. right. split; [exact Hx|]. cbn. apply (fine_url s F). right; right. exists x; auto. }
    unfold requests_for. cbn [snd filter]. destruct (res_dec (tm_table x) r) as [ER|NR]; [|rewrite NR; auto].
    rewrite ER, res_eqb_refl. right. exists (st_now s). split; [reflexivity|].
    pose proof (sg_due _ _ _ SG x z IN ER Hz). lia.
  - auto.
Qed.

Lemma spaced_run : forall r es s s' o o' z, (r = RTinfo \/ r = RSys) -> fine s -> single r s o -> untouched es ->
  last_of (requests_for r o) z -> happens es s = (s', o') -> spaced (pause r) (z :: requests_for r o').
Proof.
  induction es; intros s s' o o' z R F SG U Hz H; cbn [happens] in H.
  - assert ([] = o') as <- by congruence. cbn. exact Logic.I.
  - assert (U' : untouched es) by (intros e He; apply U; right; exact He). pose proof (U a (or_introl eq_refl)) as Ua.
    pose proof (fine_step a s F) as F1.
    assert (NA : a <> Reloads r) by (intros ->; exact Ua).
    assert (PA : forall u, a = Clicks u -> ~ In r (st_asked s)) by (intros u ->; contradiction).
    pose proof (single_step r a s o R F SG NA PA) as S1. pose proof (step_spaced r a s o z R F SG Ua Hz) as D.
    destruct (happen a s) as [s1 o1]. destruct (happens es s1) as [s2 o2] eqn:E.
    assert (o1 ++ o2 = o') as <- by congruence. cbn [fst snd] in *. rewrite req_app.
    destruct D as [D|(y & D & Hy)]; rewrite D; cbn [app].
    + apply (IHes s1 s2 (o ++ o1) o2 z); auto. rewrite req_app, D, app_nil_r. exact Hz.
    + split; [exact Hy|]. apply (IHes s1 s2 (o ++ o1) o2 y); auto. rewrite req_app, D. eexists; reflexivity.
Qed.

Lemma c94_rate : forall hash es0 s0 o0 r es s o,
  r = RTinfo \/ r = RSys -> (hash = Some TabTinfo -> r <> RTinfo) ->
  lived hash es0 s0 o0 -> no_button r es0 -> patient r es0 (fst (opened hash)) ->
  untouched es -> happens es s0 = (s, o) ->
  (in_progress r s + waits r s <= 1)%nat /\
  (forall b z, requests_for r o0 = b ++ [z] -> spaced (pause r) (z :: requests_for r o)) /\
  (chosen hash es0 <> Some (match r with RTinfo => TabTinfo | _ => TabSys end) -> requests_for r o = []).
Proof.
  intros hash es0 s0 o0 r es s o R HH L NB P U H. pose proof L as L0. destruct L as (s1 & o1 & o2 & E0 & E1 & ->).
  destruct (lived_fine _ _ _ _ L0) as [F N0]. pose proof (fine_opened hash) as FO. pose proof (single_opened r hash R HH) as SO.
  rewrite E0 in FO, SO, P. cbn [fst snd] in *.
  pose proof (single_run r es0 s1 s0 o1 o2 R FO SO NB P E1) as S0.
  destruct (untouched_ok r es s0 U) as [U1 U2].
  pose proof (single_run r es s0 s _ o R F S0 U1 U2 H) as S1.
  split; [apply (sg_loops _ _ _ S1)|]. split.
  - intros b z Hz. apply (spaced_run r es s0 s (o1 ++ o2) o z R F S0 U); [exists b; exact Hz|exact H].
  - intros NC. rewrite <- N0 in NC. pose proof (sg_quiet _ _ _ S0 NC) as Q.
    assert (length (requests_for r o) + waits r s <= waits r s0)%nat.
    { apply (left_run r es s0 s o F U); [|exact H]. intros t Ht Et. apply NC. rewrite Ht. f_equal. destruct t; cbn in Et; try discriminate; inversion Et; reflexivity. }
    destruct (requests_for r o); [reflexivity|cbn in *; lia].
Qed.

(** ** A wait is never longer than the pause *)
Definition soon (s : script) : Prop := forall x, In x (st_timers s) -> tm_due x <= st_now s + pause (tm_table x).
Lemma soon_refresh : forall r s, soon s -> soon (fst (refresh r s)).
Proof. intros r s H. unfold refresh. destruct r, (st_sys_url s); exact H. Qed.
Lemma soon_left : forall t s, soon s -> soon (left_tab t s).
Proof. intros t s H x Hx. cbn in *. apply clear_in, clear_in in Hx. exact (H x Hx). Qed.
Lemma soon_step : forall e s, soon s -> soon (fst (happen e s)).
Proof.
  intros e s H. destruct e as [t|r|n ok|n|d]; cbn [happen].
  - unfold click_tab. destruct (is_active t s); [exact H|]. unfold shown_tab. pose proof (soon_left t s H) as L.
    destruct t; [exact L|apply soon_refresh, L|apply soon_refresh, L|exact L].
  - destruct r; try exact H; apply soon_refresh, H.
  - destruct (nth_error (st_asked s) n) as [x|]; [|exact H]. destruct ok; [|exact H]. cbn [fst].
    destruct x; cbn [loaded_table]; try exact H.
    + destruct (is_active TabTinfo (without_asked n s)); [|exact H].
      intros x Hx. cbn in Hx. apply in_app_or in Hx. destruct Hx as [Hx|[<- |[]]]; [exact (H x Hx)|cbn; lia].
    + destruct (is_active TabSys (without_asked n s)); [|exact H].
      intros x Hx. cbn in Hx. apply in_app_or in Hx. destruct Hx as [Hx|[<- |[]]]; [exact (H x Hx)|cbn; lia].
  - destruct (nth_error (st_timers s) n) as [x|]; [|exact H]. destruct (tm_due x <=? st_now s); [|exact H].
    apply soon_refresh. intros y Hy. cbn in Hy. apply in_remove in Hy. exact (H y Hy).
  - intros x Hx. cbn in Hx |- *. specialize (H x Hx). lia.
Qed.
Lemma soon_run : forall es s s' o, soon s -> happens es s = (s', o) -> soon s'.
Proof.
  induction es; intros s s' o F H; cbn [happens] in H.
  - assert (s = s') by congruence. subst. exact F.
  - pose proof (soon_step a s F) as F1. destruct (happen a s) as [s1 o1]. destruct (happens es s1) as [s2 o2] eqn:E.
    assert (s2 = s') by congruence. subst. eapply IHes; [exact F1|exact E].
Qed.
Lemma c94_fresh : forall hash es s o t r, lived hash es s o -> all_answered es -> chosen hash es = Some t -> table_of_tab t = Some r ->
  In r (st_asked s) \/ exists x, In x (st_timers s) /\ tm_table x = r /\ tm_due x <= st_now s + pause r.
Proof.
  intros hash es s o t r L A N T. destruct (c94_alive hash es s o t r L A N T) as [H|(x & H1 & H2)]; [auto|].
  right. exists x. split; [exact H1|]. split; [exact H2|]. subst r.
  destruct L as (s0 & o0 & o1 & E0 & E1 & _). apply (soon_run es s0 s o1); [|exact E1|exact H1].
  assert (SO : soon (fst (opened hash))). { intros y Hy. destruct hash as [[]|]; destruct Hy. }
  rewrite E0 in SO. exact SO.
Qed.

(** ** The first tab *)
Lemma first_run : forall es s s' o, st_nav s = None -> st_sys_url s = false -> st_timers s = [] -> (forall u, ~ In (Clicks u) es) ->
  happens es s = (s', o) -> requests_for RSys o = [].
Proof.
  induction es; intros s s' o N U T C H; cbn [happens] in H.
  - assert ([] = o) as <- by congruence. reflexivity.
  - assert (C' : forall u, ~ In (Clicks u) es) by (intros u Hu; apply (C u); right; exact Hu).
    assert (G : st_nav (fst (happen a s)) = None /\ st_sys_url (fst (happen a s)) = false /\ st_timers (fst (happen a s)) = [] /\
      requests_for RSys (snd (happen a s)) = []).
    { destruct a as [t|r|n ok|n|d]; cbn [happen].
      - destruct (C t); left; reflexivity.
      - destruct r; unfold refresh; try rewrite U; cbn; auto.
      - destruct (nth_error (st_asked s) n) as [x|]; [|cbn; auto]. destruct ok; [|cbn; auto].
        assert (NA : forall t, is_active t (without_asked n s) = false) by (intros t; unfold is_active; cbn; rewrite N; reflexivity).
        destruct x; cbn [loaded_table]; rewrite ?NA; cbn; auto.
      - rewrite T. destruct n; cbn; auto.
      - cbn. auto. }
    destruct (happen a s) as [s1 o1]. destruct (happens es s1) as [s2 o2] eqn:E.
    assert (o1 ++ o2 = o) as <- by congruence. cbn [fst snd] in G. destruct G as (G1 & G2 & G3 & G4).
    rewrite req_app, G4. exact (IHes s1 s2 o2 G1 G2 G3 C' E).
Qed.
Lemma c94_first : exists s0 o0, opened None = (s0, o0) /\ requests_for RSys o0 = [] /\
  forall es s o, (forall u, ~ In (Clicks u) es) -> happens es s0 = (s, o) -> requests_for RSys o = [].
Proof.
  do 2 eexists. split; [reflexivity|]. split; [reflexivity|]. intros es s o C H. eapply first_run; [| | |exact C|exact H]; reflexivity.
Qed.
Lemma c94_opens : forall hash es s o t s' o', lived hash es s o -> happen (Clicks t) s = (s', o') ->
  o' = if match chosen hash es with Some u => tab_eqb u t | None => false end then [] else map (fun r => (st_now s, r)) (shown_in t).
Proof.
  intros hash es s o t s' o' L H. destruct (lived_fine _ _ _ _ L) as (_ & N). rewrite <- N. cbn [happen] in H. unfold click_tab, is_active in H.
  destruct (match st_nav s with Some u => tab_eqb u t | None => false end); [congruence|].
  destruct t; cbn in H; injection H as <- <-; reflexivity.
Qed.
