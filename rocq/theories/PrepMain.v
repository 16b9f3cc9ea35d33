(** Proofs about the builds of the data directory (C76). *)
From Coq Require Import ZArith List Bool Lia Sorted Permutation.
From Verif Require Import Base BaseFacts Erfs Prep PrepSpec PrepText PrepProofs.
Import ListNotations.
Open Scope Z_scope.

Definition done (t : tools) (d : tree) (p : path) (f : file) : Prop :=
  (exists g, get d (target p) = Some g /\ f_data g = produce t (packing_of p) (f_data f)) /\
  (is_page p -> occurs (str "<!--MAKE_RESTRICT-->") (f_data f) ->
   exists g, get d (restricted_target p) = Some g /\ f_data g = t_gzip t (t_minify t (cut 0 (f_data f)))).
(** What is true before each build: a file that will not be made again is right. *)
Definition sound (t : tools) (d : tree) (p : path) (f : file) : Prop :=
  forall g, get d (target p) = Some g -> f_time f <= f_time g -> done t d p f.

Lemma page_packing : forall p, is_page p -> packing_of p = Page.
Proof. intros p H. unfold packing_of. rewrite H. reflexivity. Qed.
Lemma outputs_page : forall p, is_page p -> In (restricted_target p) (outputs p).
Proof. intros p H. unfold outputs. rewrite H. rewrite beq_refl. right. left. reflexivity. Qed.
Lemma touched_ops : forall t now d p f q, In q (map touched (file_ops t now d (p, f))) -> In q (outputs p).
Proof.
  intros t now d p f q H. unfold file_ops in H. unfold outputs.
  destruct (match get d (target p) with Some g => f_time f <=? f_time g | None => false end); [destruct H|].
  destruct (packing_of p); destruct (beq (suffix (name_of p)) (str ".html")); destruct (find_in make_mark (f_data f)); cbn in H |- *; tauto.
Qed.
Lemma file_done : forall t now d p f, sound t d p f -> (is_page p -> target p <> restricted_target p) ->
  done t (fold_left apply (file_ops t now d (p, f)) d) p f.
Proof.
  intros t now d p f S N. unfold file_ops.
  destruct (match get d (target p) with Some g => f_time f <=? f_time g | None => false end) eqn:E.
  - cbn [fold_left]. destruct (get d (target p)) as [g|] eqn:G; [|discriminate]. apply (S g); [exact G|]. apply Z.leb_le. exact E.
  - clear E. destruct (beq (suffix (name_of p)) (str ".html")) eqn:B.
    + apply beq_eq in B. pose proof (page_packing p B) as K. rewrite K.
      assert (NE : path_eq (restricted_target p) (target p) = false) by (apply path_neq; intro X; apply (N B); congruence).
      split.
      * exists (mk_file now (produce t Page (f_data f))). rewrite K. split; [|reflexivity].
        destruct (find_in make_mark (f_data f)); cbn [andb fold_left apply]; rewrite get_put; [rewrite NE; rewrite get_put|]; rewrite path_eq_refl; reflexivity.
      * intros _ OC. destruct (find_in make_mark (f_data f)) eqn:F; [|apply find_none in F; contradiction].
        cbn [andb fold_left apply]. eexists. split; [rewrite get_put; rewrite path_eq_refl; reflexivity|reflexivity].
    + apply beq_neq in B. split; [|intro PG; contradiction].
      destruct (packing_of p) eqn:K; cbn [andb fold_left apply];
        (eexists; split; [rewrite get_put; rewrite path_eq_refl; reflexivity|reflexivity]).
Qed.
(** The dates of the files written. *)
Lemma file_dates : forall t now m d p f q g, now <= m -> f_time f <= m -> get (fold_left apply (file_ops t now d (p, f)) d) q = Some g ->
  get d q = Some g \/ f_time g <= m.
Proof.
  intros t now m d p f q g LN L H. unfold file_ops in H.
  destruct (match get d (target p) with Some g => f_time f <=? f_time g | None => false end); [left; exact H|].
  destruct (packing_of p); try destruct (beq _ _ && _); cbn [fold_left apply] in H; rewrite ?get_put in H;
    repeat match type of H with context [if ?c then _ else _] => destruct c end; try (left; exact H); right; injection H as <-; cbn; lia.
Qed.

Lemma outputs_disjoint : forall U p q x, NoDup (flat_map outputs U) -> In p U -> In q U -> p <> q -> In x (outputs p) -> In x (outputs q) -> False.
Proof.
  induction U as [|u U IH]; intros p q x N P Q D X Y; [destruct P|]. cbn [flat_map] in N.
  assert (A : forall a b (x : path), NoDup (a ++ b) -> In x a -> In x b -> False).
  { intros a b y NA IA IB. apply in_split in IA. destruct IA as (a1 & a2 & ->). rewrite <- app_assoc in NA. cbn in NA. apply NoDup_remove_2 in NA.
    apply NA. rewrite !in_app_iff. tauto. }
  assert (N2 : NoDup (flat_map outputs U)).
  { clear -N. induction (outputs u) as [|a l IHl]; [exact N|]. cbn in N. inversion N. auto. }
  destruct P as [P|P]; destruct Q as [Q|Q].
  - congruence.
  - subst u. apply (A _ _ x N X). apply in_flat_map. exists q. split; assumption.
  - subst u. apply (A _ _ x N Y). apply in_flat_map. exists p. split; assumption.
  - eapply IH; eauto.
Qed.
Lemma outputs_two : forall U p, NoDup (flat_map outputs U) -> In p U -> is_page p -> target p <> restricted_target p.
Proof.
  intros U p N P PG E. induction U as [|u U IH]; [destruct P|]. cbn [flat_map] in N. destruct P as [->|P].
  - unfold outputs in N. rewrite PG in N. rewrite beq_refl in N. cbn in N. inversion N. apply H1. left. congruence.
  - apply IH; [|exact P]. clear -N. induction (outputs u) as [|a l IHl]; [exact N|]. cbn in N. inversion N. auto.
Qed.

Definition times_le (now : Z) (d : tree) : Prop := forall q g, get d q = Some g -> f_time g <= now.
Lemma done_ext : forall t d d' p f, (forall q, In q (outputs p) -> get d' q = get d q) -> done t d p f -> done t d' p f.
Proof.
  intros t d d' p f E [A B]. split.
  - rewrite E; [exact A|]. left. reflexivity.
  - intros PG OC. rewrite E; [exact (B PG OC)|]. apply outputs_page. exact PG.
Qed.
Lemma sound_ext : forall t d d' p f, (forall q, In q (outputs p) -> get d' q = get d q) -> sound t d p f -> sound t d' p f.
Proof.
  intros t d d' p f E S g G L. apply (done_ext t d); [exact E|]. apply (S g); [|exact L]. rewrite <- E; [exact G|]. left. reflexivity.
Qed.

Section Loop.
  Context (t : tools) (now m : Z) (U : list path).
  Hypothesis names : NoDup (flat_map outputs U).
  Hypothesis bound : now <= m.

  Lemma files_loop : forall L d, NoDup (map fst L) -> (forall p f, In (p, f) L -> In p U /\ f_time f <= m /\ sound t d p f) -> times_le m d ->
    let d' := fold_left apply (files_ops t now L d) d in
    (forall p f, In (p, f) L -> done t d' p f) /\ times_le m d' /\
    (forall q, (forall p f, In (p, f) L -> ~ In q (outputs p)) -> get d' q = get d q) /\
    (forall q, get d' q <> None -> get d q <> None \/ exists p f, In (p, f) L /\ In q (outputs p)).
  Proof using names bound.
    induction L as [|[p f] L IH]; intros d ND H T; cbn [files_ops].
    - cbn [fold_left]. split; [intros p f []|]. split; [exact T|]. split; [reflexivity|]. tauto.
    - cbn in ND. inversion ND as [|? ? NI ND']; subst. rewrite fold_left_app. set (d1 := fold_left apply (file_ops t now d (p, f)) d).
      destruct (H p f (or_introl eq_refl)) as (IU & LE & SO).
      assert (OTH : forall q, ~ In q (outputs p) -> get d1 q = get d q).
      { intros q Q. apply apply_other. intro X. apply Q. eapply touched_ops. exact X. }
      assert (D1 : done t d1 p f) by (apply file_done; [exact SO|apply (outputs_two U); assumption]).
      assert (T1 : times_le m d1) by (intros q g G; destruct (file_dates _ _ _ _ _ _ _ _ bound LE G) as [G'|G']; [apply (T q); exact G'|exact G']).
      assert (DIS : forall p' f' q, In (p', f') L -> In q (outputs p') -> ~ In q (outputs p)).
      { intros p' f' q I' Q' Q. destruct (H p' f' (or_intror I')) as (IU' & _). apply (outputs_disjoint U p' p q); try assumption.
        intro E. subst p'. apply NI. apply (in_map fst) in I'. exact I'. }
      destruct (IH d1 ND') as (A & B & C & D).
      { intros p' f' I'. destruct (H p' f' (or_intror I')) as (IU' & LE' & SO'). split; [exact IU'|]. split; [exact LE'|].
        apply (sound_ext t d); [|exact SO']. intros q Q. apply OTH. eapply DIS; eauto. }
      { exact T1. }
      split; [|split; [|split]].
      + intros p' f' [E|I']; [|apply A; exact I']. injection E as <- <-. apply (done_ext t d1); [|exact D1]. intros q Q. apply C.
        intros p' f' I' Q'. apply (DIS p' f' q I' Q' Q).
      + exact B.
      + intros q Q. rewrite C; [|intros p' f' I'; apply (Q p' f'); right; exact I']. apply OTH. apply (Q p f). left. reflexivity.
      + intros q Q. apply D in Q. destruct Q as [Q|(p' & f' & I' & Q)].
        * destruct (in_dec path_dec q (outputs p)) as [I'|I']; [right; exists p, f; split; [left; reflexivity|exact I']|]. left. rewrite <- OTH; assumption.
        * right. exists p', f'. split; [right; exact I'|exact Q].
  Qed.
End Loop.

Lemma good_parts : forall U, good_names U -> NoDup (flat_map outputs U) /\ (forall p, In p U -> ~ In version_path (outputs p)) /\
  forall p, In p U -> p <> [] /\ (is_page p -> hd 0 (name_of p) <> 46).
Proof.
  intros U [N F]. inversion N; subst. split; [assumption|]. split.
  - intros p I X. apply H1. apply in_flat_map. exists p. split; assumption.
  - intros p I. rewrite Forall_forall in F. apply F. exact I.
Qed.

(** One build. *)
Lemma build_step : forall t now m v U listing d, now <= m -> good_names U -> NoDup (map fst listing) ->
  (forall p f, In (p, f) listing -> In p U /\ f_time f <= m /\ sound t d p f) -> times_le m d ->
  let d' := build t now v listing d in
  (forall p f, In (p, f) listing -> done t d' p f) /\ times_le m d' /\ get d' version_path = Some (mk_file now v) /\
  (forall q, get d' q <> None -> q = version_path \/ (exists p f, In (p, f) listing /\ In q (outputs p)) \/ get d q <> None /\ existsb (obsolete listing) (entries q) = false).
Proof.
  intros t now m v U L d LM G ND H T. destruct (good_parts U G) as (N & NV & NN). unfold build, build_ops. rewrite !fold_left_app.
  set (d0 := fold_left apply (cleaning L d) d).
  assert (C0 : forall q, get d0 q = if existsb (obsolete L) (entries q) then None else get d q) by (intro q; apply cleaning_get).
  assert (KEPT : forall p f q, In (p, f) L -> In q (outputs p) -> get d0 q = get d q).
  { intros p f q I Q. rewrite C0. destruct (H p f I) as (IU & _). destruct (NN p IU) as [NP HD].
    unfold outputs in Q. destruct (beq (suffix (name_of p)) (str ".html")) eqn:B.
    - apply beq_eq in B. destruct Q as [<-|[<-|[]]].
      + rewrite (kept_target L p f I NP). reflexivity.
      + rewrite (kept_restricted L p f I NP B (HD B)). reflexivity.
    - destruct Q as [<-|[]]. rewrite (kept_target L p f I NP). reflexivity. }
  destruct (files_loop t now m U N LM L d0 ND) as (A & B & C & D).
  { intros p f I. destruct (H p f I) as (IU & LE & SO). split; [exact IU|]. split; [exact LE|]. apply (sound_ext t d); [|exact SO]. intros q Q. eapply KEPT; eauto. }
  { intros q g E. rewrite C0 in E. destruct (existsb _ _); [discriminate|]. apply (T q). exact E. }
  set (d1 := fold_left apply (files_ops t now L d0) d0) in *. cbn [fold_left apply]. split; [|split; [|split]].
  - intros p f I. apply (done_ext t d1); [|apply A; exact I]. intros q Q. rewrite get_put.
    destruct (path_eq version_path q) eqn:E; [|reflexivity]. apply path_eq_spec in E. subst q. exfalso. destruct (H p f I) as (IU & _). apply (NV p IU Q).
  - intros q g. rewrite get_put. destruct (path_eq version_path q); [intro E; injection E as <-; cbn; lia|apply B].
  - rewrite get_put. rewrite path_eq_refl. reflexivity.
  - intros q. rewrite get_put. destruct (path_eq version_path q) eqn:E; [apply path_eq_spec in E; intros _; left; congruence|].
    intro Q. apply D in Q. destruct Q as [Q|Q]; [|right; left; exact Q]. right. right. rewrite C0 in Q.
    destruct (existsb (obsolete L) (entries q)); [congruence|]. split; [exact Q|reflexivity].
Qed.

(** ** Histories *)

Definition good_state (t : tools) (U : list path) (clock : Z) (w : work) : Prop :=
  NoDup (map fst (fst w)) /\ (forall p, In p (map fst (fst w)) -> In p U) /\ times_le clock (fst w) /\ times_le clock (snd w) /\
  forall p f, get (fst w) p = Some f -> sound t (snd w) p f.

Lemma permuted : forall s s' p f, NoDup (map fst s) -> Permutation s s' -> (In (p, f) s' <-> get s p = Some f).
Proof.
  intros s s' p f N P. split.
  - intro I. apply in_get; [exact N|]. apply (Permutation_in _ (Permutation_sym P)). exact I.
  - intro G. apply (Permutation_in _ P). apply get_in. exact G.
Qed.
Lemma build_good : forall t now v U order s d clock, good_names U -> good_state t U clock (s, d) -> clock < now -> (forall x : tree, Permutation x (order x)) ->
  let d' := build t now v (order s) d in
  up_to_date t s d' /\ good_state t U now (s, d') /\ get d' version_path = Some (mk_file now v) /\
  (forall q, get d' q <> None -> q = version_path \/ (exists p f, get s p = Some f /\ In q (outputs p)) \/
    get d q <> None /\ existsb (obsolete (order s)) (entries q) = false).
Proof.
  intros t now v U order s d clock G (ND & IU & TS & TD & SO) LT P. cbn [fst snd] in *.
  destruct (build_step t now now v U (order s) d (Z.le_refl _) G) as (A & B & C & D).
  - apply (Permutation_NoDup (l := map fst s)); [apply Permutation_map; apply P|exact ND].
  - intros p f I. apply (permuted s) in I; [|exact ND|apply P]. split; [|split].
    + apply IU. apply get_in in I. apply (in_map fst) in I. exact I.
    + apply TS in I. lia.
    + apply SO. exact I.
  - intros q g E. apply TD in E. lia.
  - cbn zeta. set (d' := build t now v (order s) d) in *. assert (U2 : up_to_date t s d').
    { intros p f E. apply A. apply (permuted s); [exact ND|apply P|exact E]. }
    split; [exact U2|]. split; [|split; [exact C|]].
    + split; [exact ND|]. split; [exact IU|]. split; [intros q g E; apply TS in E; cbn; lia|]. split; [exact B|].
      intros p f E g _ _. apply U2. exact E.
    + intros q Q. destruct (D q Q) as [X|[(p & f & I & X)|X]]; [left; exact X| |right; right; exact X]. right. left. exists p, f.
      split; [|exact X]. apply (permuted s (order s)); [exact ND|apply P|exact I].
Qed.
Lemma edit_good : forall t U s d clock p data m, good_state t U clock (s, d) -> clock < m -> In p U -> good_state t U m (put s p (mk_file m data), d).
Proof.
  intros t U s d clock p data m (ND & IU & TS & TD & SO) LT I. cbn [fst snd] in *. split; [|split; [|split; [|split]]]; cbn [fst snd].
  - apply put_nodup. exact ND.
  - intros q Q. apply put_keys in Q. destruct Q as [->|Q]; [exact I|apply IU; exact Q].
  - intros q g. rewrite get_put. destruct (path_eq p q); [intro E; injection E as <-; cbn; lia|]. intro E. apply TS in E. lia.
  - intros q g E. apply TD in E. lia.
  - intros q f. rewrite get_put. destruct (path_eq p q) eqn:E; [|apply SO]. intro X. injection X as <-. intros g Gq L. cbn in L. apply TD in Gq. lia.
Qed.
Lemma delete_good : forall t U s d clock p, good_state t U clock (s, d) -> good_state t U clock (remove s p, d).
Proof.
  intros t U s d clock p (ND & IU & TS & TD & SO). cbn [fst snd] in *. split; [|split; [|split; [|split]]]; cbn [fst snd].
  - apply filter_nodup. exact ND.
  - intros q Q. apply remove_keys in Q. apply IU. exact Q.
  - intros q g. rewrite get_remove. destruct (path_eq p q); [discriminate|]. apply TS.
  - exact TD.
  - intros q f. rewrite get_remove. destruct (path_eq p q); [discriminate|]. apply SO.
Qed.
(** [dates] are increasing from [clock]. *)
Lemma history_good : forall t U cs w clock, good_names U -> good_state t U clock w -> Forall (usual t) cs -> incl (edited cs) U -> StronglySorted Z.lt (clock :: dates cs) ->
  good_state t U (last (dates cs) clock) (fold_left wstep cs w).
Proof.
  induction cs as [|c cs IH]; intros [s d] clock G W F I S; [exact W|]. apply Forall_cons_iff in F. destruct F as [F0 F].
  assert (LAST : forall (m : Z) l (x : Z), last (m :: l) x = last l m).
  { intros m l. revert m. induction l as [|y l IHl]; intros m x; [reflexivity|]. change (last (m :: y :: l) x) with (last (y :: l) x).
    rewrite !IHl. reflexivity. }
  destruct c as [p data m|p data m|p|t' now v order|t' now v order k j]; cbn [usual] in F0; try contradiction; cbn [fold_left wstep].
  - change (dates (Edit p data m :: cs)) with (m :: dates cs) in *. rewrite LAST. inversion S as [|? ? S1 S2]; subst. apply IH; try assumption.
    + apply (edit_good t U s d clock); [exact W| |apply I; left; reflexivity]. apply Forall_cons_iff in S2. tauto.
    + intros q Q. apply I. right. exact Q.
  - apply IH; try assumption. apply delete_good. exact W.
  - destruct F0 as [-> P]. change (dates (Build t now v order :: cs)) with (now :: dates cs) in *. rewrite LAST. inversion S as [|? ? S1 S2]; subst. apply IH; try assumption.
    apply (build_good t now v U order s d clock); try assumption. apply Forall_cons_iff in S2. tauto.
Qed.

Lemma present_spec : forall s p, exists_in s p = true -> exists q f n, In (q, f) s /\ p = firstn n q.
Proof.
  intros s p H. unfold exists_in in H. apply existsb_exists in H. destruct H as ([q f] & I & E). cbn in E. apply path_eq_spec in E.
  exists q, f, (length p). split; [exact I|congruence].
Qed.
Lemma own_entry : forall q, q <> [] -> In q (entries q).
Proof.
  intros q N. unfold entries. apply in_map_iff. exists (length q - 1)%nat. destruct q as [|x q]; [congruence|]. cbn [length]. split.
  - rewrite Nat.sub_1_r. cbn [Nat.pred]. change (S (length q)) with (length (x :: q)). apply firstn_all.
  - apply in_seq. lia.
Qed.
Lemma not_obsolete : forall s q, q <> [] -> existsb (obsolete s) (entries q) = false ->
  exists_in s q = true \/ suffix (name_of q) = str ".gz" /\ exists_in s (with_name q (stem (name_of q))) = true \/ In (str ".restrict") (suffixes (name_of q)).
Proof.
  intros s q N E. assert (O : obsolete s q = false).
  { destruct (obsolete s q) eqn:O; [|reflexivity]. assert (X : existsb (obsolete s) (entries q) = true); [|congruence].
    apply existsb_exists. exists q. split; [apply own_entry; exact N|exact O]. }
  unfold obsolete in O. apply andb_false_iff in O. destruct O as [O|O]; [apply andb_false_iff in O; destruct O as [O|O]|];
    apply negb_false_iff in O.
  - left. exact O.
  - apply andb_true_iff in O. destruct O as [A B]. apply beq_eq in A. right. left. split; assumption.
  - apply existsb_exists in O. destruct O as (x & I & B). apply beq_eq in B. subst x. right. right. exact I.
Qed.
Lemma with_not_nil : forall p n, with_name p n <> [].
Proof. intros p n H. unfold with_name in H. apply app_eq_nil in H. destruct H. discriminate. Qed.
Lemma outputs_not_nil : forall p q, p <> [] -> In q (outputs p) -> q <> [].
Proof.
  intros p q N I. unfold outputs in I. destruct I as [<-|I].
  - unfold target. destruct (packing_of p); try apply with_not_nil. exact N.
  - destruct (beq _ _); [|destruct I]. destruct I as [<-|[]]. apply with_not_nil.
Qed.
Lemma c76 : forall t U cs now v order, good_names U -> Forall (usual t) cs -> incl (edited cs) U -> StronglySorted Z.lt (dates cs ++ [now]) ->
  (forall s : tree, Permutation s (order s)) ->
  let '(s, d) := fold_left wstep (cs ++ [Build t now v order]) ([], []) in
  up_to_date t s d /\ get d version_path = Some (mk_file now v) /\
  forall q, q <> [] -> get d q <> None -> q = version_path \/ (exists p f, get s p = Some f /\ In q (outputs p)) \/
    In (str ".restrict") (suffixes (name_of q)) \/
    (exists p f n, get s p = Some f /\ (q = firstn n p \/ suffix (name_of q) = str ".gz" /\ with_name q (stem (name_of q)) = firstn n p)).
Proof.
  intros t U cs now v order G F I S P.
  set (clock := hd now (dates cs) - 1).
  assert (SC : StronglySorted Z.lt (clock :: dates cs)).
  { assert (S0 : forall l m, StronglySorted Z.lt (l ++ [m]) -> StronglySorted Z.lt ((hd m l - 1) :: l)).
    { clear. intros l m H. assert (SL : StronglySorted Z.lt l).
      { induction l as [|x l IH]; [constructor|]. cbn in H. inversion H as [|? ? H1 H2]; subst. constructor; [apply IH; exact H1|].
        apply Forall_app in H2. tauto. }
      constructor; [exact SL|]. destruct l as [|x l]; [constructor|]. cbn [hd]. inversion SL as [|? ? H1 H2]; subst. constructor; [lia|].
      apply (Forall_impl (fun y => x - 1 < y) (P := fun y => x < y)); [intros; lia|exact H2]. }
    apply S0. exact S. }
  assert (W0 : good_state t U clock ([], [])).
  { split; [constructor|]. split; [intros p []|]. split; [intros p g E; discriminate|]. split; [intros p g E; discriminate|]. intros p f E; discriminate. }
  pose proof (history_good t U cs ([], []) clock G W0 F I SC) as W. rewrite fold_left_app. destruct (fold_left wstep cs ([], [])) as [s d] eqn:E.
  cbn [fold_left wstep].
  assert (LT : last (dates cs) clock < now).
  { clear -S. unfold clock. assert (X : forall l c, StronglySorted Z.lt (l ++ [now]) -> c < now -> last l c < now).
    { induction l as [|x l IH]; intros c H L; [exact L|]. cbn in H. inversion H as [|? ? H1 H2]; subst. destruct l as [|y l].
      - cbn. apply Forall_app in H2. destruct H2 as [_ H2]. inversion H2. assumption.
      - change (last (x :: y :: l) c) with (last (y :: l) c). apply IH; [exact H1|exact L]. }
    destruct (dates cs) as [|x l] eqn:D; [cbn; lia|]. cbn [hd]. apply X; [exact S|]. cbn in S. inversion S as [|? ? H1 H2]; subst.
    apply Forall_app in H2. destruct H2 as [_ H2]. inversion H2. lia. }
  destruct (build_good t now v U order s d _ G W LT P) as (A & B & C & D). split; [exact A|]. split; [exact C|].
  intros q NQ Q. destruct (D q Q) as [X|[X|[X Y]]]; [left; exact X|right; left; exact X|].
  right. right. destruct W as (ND & _). cbn [fst] in ND.
  apply not_obsolete in Y; [|exact NQ]. destruct Y as [Y|[[Y1 Y]|Y]]; [| |left; exact Y]; right;
    apply present_spec in Y; destruct Y as (p & f & n & J & EQ); exists p, f, n; (split; [apply (permuted s (order s)); [exact ND|apply P|exact J]|]).
  - left. exact EQ.
  - right. split; assumption.
Qed.

Lemma c76_clean : forall t U s now v order, good_names U -> NoDup (map fst s) -> incl (map fst s) U -> (forall s : tree, Permutation s (order s)) ->
  up_to_date t s (build t now v (order s) []) /\ get (build t now v (order s) []) version_path = Some (mk_file now v) /\
  forall q, get (build t now v (order s) []) q <> None -> q = version_path \/ exists p f, get s p = Some f /\ In q (outputs p).
Proof.
  intros t U s now v order G ND I P.
  assert (M : forall l : tree, exists m, now <= m /\ forall p f, In (p, f) l -> f_time f <= m).
  { induction l as [|[p f] l (m & L & H)]; [exists now; split; [lia|intros p f []]|]. exists (Z.max m (f_time f)). split; [lia|].
    intros q g [E|J]; [injection E as <- <-; lia|]. apply H in J. lia. }
  destruct (M (order s)) as (m & LM & HM).
  destruct (build_step t now m v U (order s) [] LM G) as (A & B & C & D).
  - apply (Permutation_NoDup (l := map fst s)); [apply Permutation_map; apply P|exact ND].
  - intros p f J. split; [|split; [apply (HM p); exact J|intros g E; discriminate]]. apply I. apply (Permutation_in _ (Permutation_sym (P s))) in J.
    apply (in_map fst) in J. exact J.
  - intros q g E. discriminate.
  - split; [|split; [exact C|]].
    + intros p f E. apply A. apply (permuted s); [exact ND|apply P|exact E].
    + intros q Q. destruct (D q Q) as [X|[(p & f & J & X)|[X _]]]; [left; exact X|right; exists p, f; split; [|exact X]|exfalso; apply X; reflexivity].
      apply (permuted s (order s)); [exact ND|apply P|exact J].
Qed.

(** ** Names of the usual pages *)
Lemma plain_names : forall dir b, b <> [] -> ~ In 46 b ->
  packing_of (dir ++ [b ++ str ".html"]) = Page /\
  target (dir ++ [b ++ str ".html"]) = dir ++ [b ++ str ".html.gz"] /\
  restricted_target (dir ++ [b ++ str ".html"]) = dir ++ [b ++ str ".restrict.html.gz"].
Proof.
  intros dir b NB ND.
  assert (NM : name_of (dir ++ [b ++ str ".html"]) = b ++ str ".html") by apply last_last.
  assert (SF : suffix (b ++ str ".html") = str ".html").
  { change (str ".html") with (46 :: str "html"). apply suffix_app; [exact NB|discriminate|cbn; intuition discriminate]. }
  assert (ST : stem (b ++ str ".html") = b).
  { change (str ".html") with (46 :: str "html"). apply stem_app; [exact NB|discriminate|cbn; intuition discriminate]. }
  assert (PG : packing_of (dir ++ [b ++ str ".html"]) = Page) by (apply page_packing; unfold is_page; rewrite NM; exact SF).
  assert (SS : suffixes (b ++ str ".html") = [str ".html"]).
  { unfold suffixes. replace (last (b ++ str ".html") 0) with 108.
    2: { change (str ".html") with (str ".htm" ++ [108]). rewrite app_assoc. symmetry. apply last_last. }
    change (108 =? 46) with false. cbv iota. destruct b as [|x b]; [congruence|]. cbn [app lstrip].
    destruct (x =? 46) eqn:E; [apply Z.eqb_eq in E; exfalso; apply ND; left; exact E|].
    change (x :: b ++ str ".html") with ((x :: b) ++ 46 :: str "html"). rewrite split_app.
    assert (ONE : forall l, ~ In 46 l -> split_on 46 l = [l]).
    { induction l as [|y l IH]; intro N; [reflexivity|]. cbn in N. cbn. rewrite IH by tauto. destruct (y =? 46) eqn:Y; [apply Z.eqb_eq in Y; tauto|reflexivity]. }
    rewrite ONE by exact ND. rewrite ONE by (cbn; intuition discriminate). reflexivity. }
  split; [exact PG|]. split.
  - unfold target. rewrite PG, NM. unfold with_name. rewrite removelast_last. rewrite <- app_assoc. reflexivity.
  - unfold restricted_target. rewrite NM, ST, SS. unfold with_name. rewrite removelast_last. reflexivity.
Qed.

(** ** Version *)
Lemma skip_none : forall c l, is_space c = false -> skip_spaces (c :: l) = c :: l.
Proof. intros c l H. cbn. rewrite H. reflexivity. Qed.
Lemma skip_all : forall b l, Forall (fun c => is_space c = true) b -> skip_spaces (b ++ l) = skip_spaces l.
Proof. induction b as [|c b IH]; intros l F; [reflexivity|]. apply Forall_cons_iff in F. destruct F as [F0 F]. cbn. rewrite F0. apply IH. exact F. Qed.
Lemma past_first : forall k l, ~ In 47 k -> past_slash (k ++ 47 :: l) = Some l.
Proof.
  induction k as [|c k IH]; intros l N; cbn; [reflexivity|]. cbn in N. destruct (c =? 47) eqn:E; [apply Z.eqb_eq in E; tauto|]. apply IH. tauto.
Qed.
Lemma version_named : forall c k rest e spaces env, is_space c = false -> is_space e = false -> ~ In 47 (c :: k) -> Forall (fun x => is_space x = true) spaces ->
  get_version (Some ((c :: k) ++ 47 :: rest ++ [e] ++ spaces)) env = Some (rest ++ [e]).
Proof.
  intros c k rest e spaces env C E N S. unfold get_version, strip_spaces. change ((c :: k) ++ 47 :: rest ++ [e] ++ spaces) with (c :: (k ++ 47 :: rest ++ [e] ++ spaces)).
  rewrite skip_none by exact C.
  replace (c :: k ++ 47 :: rest ++ [e] ++ spaces) with ((((c :: k) ++ 47 :: rest) ++ [e]) ++ spaces) by (rewrite <- !app_assoc; reflexivity).
  rewrite rev_app_distr. rewrite skip_all by (apply Forall_rev; exact S). rewrite rev_app_distr. cbn [rev app]. rewrite skip_none by exact E.
  change (e :: (rev (k ++ 47 :: rest) ++ [c])) with ([e] ++ rev (c :: k ++ 47 :: rest)).
  rewrite rev_app_distr. rewrite rev_involutive. cbn [rev app]. change (c :: (k ++ 47 :: rest) ++ [e]) with (((c :: k) ++ 47 :: rest) ++ [e]).
  rewrite <- app_assoc. cbn [app]. change (c :: k ++ 47 :: rest ++ [e]) with ((c :: k) ++ 47 :: rest ++ [e]). apply past_first. exact N.
Qed.
Lemma space_white : forall c, is_space c = true <-> white c.
Proof. intros c. unfold is_space, white. rewrite orb_true_iff, andb_true_iff, Z.eqb_eq, !Z.leb_le. tauto. Qed.
Lemma c78_named : forall c k rest e spaces env, ~ white c -> ~ white e -> ~ In 47 (c :: k) -> Forall white spaces ->
  get_version (Some ((c :: k) ++ 47 :: rest ++ [e] ++ spaces)) env = Some (rest ++ [e]).
Proof.
  intros c k rest e spaces env C E N S. apply version_named; auto.
  - destruct (is_space c) eqn:X; [|reflexivity]. apply space_white in X. contradiction.
  - destruct (is_space e) eqn:X; [|reflexivity]. apply space_white in X. contradiction.
  - revert S. apply Forall_impl. intros x. apply space_white.
Qed.
Lemma version_bare : forall l env, ~ In 47 l -> get_version (Some l) env = None.
Proof.
  intros l env N. unfold get_version.
  assert (P : forall m, ~ In 47 m -> past_slash m = None).
  { induction m as [|c m IH]; intro M; [reflexivity|]. cbn in M. cbn. destruct (c =? 47) eqn:E; [apply Z.eqb_eq in E; tauto|]. apply IH. tauto. }
  apply P. intro I. apply N. unfold strip_spaces in I.
  assert (K : forall m x, In x (skip_spaces m) -> In x m).
  { induction m as [|c m IH]; intros x X; [exact X|]. cbn in X. destruct (is_space c); [right; apply IH; exact X|exact X]. }
  apply in_rev in I. apply K in I. apply in_rev in I. apply K in I. exact I.
Qed.
