(** Proofs about the preparation of the data directory (C76). *)
From Coq Require Import ZArith List Bool Lia Sorted Permutation.
From Verif Require Import Base BaseFacts Erfs Prep PrepSpec PrepText.
Import ListNotations.
Open Scope Z_scope.

(** ** Trees *)

Lemma path_eq_spec : forall a b, path_eq a b = true <-> a = b.
Proof.
  induction a as [|x a IH]; intros [|y b]; cbn; try (split; [discriminate|discriminate]); [split; reflexivity|].
  rewrite andb_true_iff, beq_eq, IH. split; [intros [-> ->]; reflexivity|intro H; injection H as -> ->; split; reflexivity].
Qed.
Lemma path_eq_refl : forall a, path_eq a a = true.
Proof. intro a. apply path_eq_spec. reflexivity. Qed.
Lemma path_neq : forall a b, path_eq a b = false <-> a <> b.
Proof.
  intros a b. split.
  - intros H E. apply path_eq_spec in E. congruence.
  - intro N. destruct (path_eq a b) eqn:E; [|reflexivity]. apply path_eq_spec in E. contradiction.
Qed.
Lemma path_dec : forall a b : path, {a = b} + {a <> b}.
Proof. intros a b. destruct (path_eq a b) eqn:E; [left; apply path_eq_spec; exact E|right; apply path_neq; exact E]. Qed.

Lemma get_put : forall t p f q, get (put t p f) q = if path_eq p q then Some f else get t q.
Proof.
  induction t as [|[r g] t IH]; intros p f q; cbn [put get]; [reflexivity|].
  destruct (path_eq r p) eqn:E; cbn [get].
  - apply path_eq_spec in E. subst r. destruct (path_eq p q); reflexivity.
  - rewrite IH. destruct (path_eq r q) eqn:F; [|reflexivity]. destruct (path_eq p q) eqn:G; [|reflexivity].
    apply path_eq_spec in F. apply path_eq_spec in G. subst. rewrite path_eq_refl in E. discriminate.
Qed.
Lemma get_remove : forall t p q, get (remove t p) q = if path_eq p q then None else get t q.
Proof.
  induction t as [|[r g] t IH]; intros p q; cbn; [destruct (path_eq p q); reflexivity|].
  destruct (path_eq r p) eqn:E; cbn.
  - fold (remove t p). rewrite IH. apply path_eq_spec in E. subst r. destruct (path_eq p q); reflexivity.
  - fold (remove t p). rewrite IH. destruct (path_eq r q) eqn:F; [|reflexivity]. destruct (path_eq p q) eqn:G; [|reflexivity].
    apply path_eq_spec in F. apply path_eq_spec in G. subst. rewrite path_eq_refl in E. discriminate.
Qed.
Lemma get_in : forall t p f, get t p = Some f -> In (p, f) t.
Proof.
  induction t as [|[r g] t IH]; intros p f H; cbn in H; [discriminate|]. destruct (path_eq r p) eqn:E.
  - apply path_eq_spec in E. left. congruence.
  - right. apply IH. exact H.
Qed.
Lemma in_get : forall t p f, NoDup (map fst t) -> In (p, f) t -> get t p = Some f.
Proof.
  induction t as [|[r g] t IH]; intros p f N H; [destruct H|]. cbn in N. inversion N; subst. cbn. destruct H as [H|H].
  - injection H as -> ->. rewrite path_eq_refl. reflexivity.
  - destruct (path_eq r p) eqn:E; [|apply IH; assumption]. apply path_eq_spec in E. subst. exfalso. apply H2. apply (in_map fst) in H. exact H.
Qed.
Lemma put_keys : forall t p f q, In q (map fst (put t p f)) <-> q = p \/ In q (map fst t).
Proof.
  induction t as [|[r g] t IH]; intros p f q; cbn; [intuition|].
  destruct (path_eq r p) eqn:E; cbn.
  - apply path_eq_spec in E. subst. intuition.
  - rewrite IH. intuition.
Qed.
Lemma put_nodup : forall t p f, NoDup (map fst t) -> NoDup (map fst (put t p f)).
Proof.
  induction t as [|[r g] t IH]; intros p f N; cbn; [constructor; [intros []|constructor]|].
  cbn in N. inversion N; subst. destruct (path_eq r p) eqn:E; cbn; [constructor; assumption|].
  constructor; [|apply IH; assumption]. intro H. apply put_keys in H. apply path_neq in E. destruct H as [H|H]; [congruence|contradiction].
Qed.
Lemma remove_keys : forall t p q, In q (map fst (remove t p)) -> In q (map fst t).
Proof.
  intros t p q H. apply in_map_iff in H. destruct H as (e & <- & H). apply filter_In in H. apply in_map. tauto.
Qed.
Lemma filter_nodup : forall (g : path * file -> bool) t, NoDup (map fst t) -> NoDup (map fst (filter g t)).
Proof.
  induction t as [|e t IH]; intro N; [exact N|]. cbn in N. inversion N; subst. cbn. destruct (g e); [|apply IH; assumption].
  cbn. constructor; [|apply IH; assumption]. intro H. apply in_map_iff in H. destruct H as (x & E & H). apply filter_In in H.
  apply H1. rewrite <- E. apply in_map. tauto.
Qed.

Definition touched (o : op) : path := match o with Remove p => p | Write p _ _ => p end.
Lemma apply_other : forall ops d q, ~ In q (map touched ops) -> get (fold_left apply ops d) q = get d q.
Proof.
  induction ops as [|o ops IH]; intros d q N; [reflexivity|]. cbn in N. cbn [fold_left]. rewrite IH by tauto.
  destruct o as [p|p m c]; cbn [apply touched] in *; [rewrite get_remove|rewrite get_put];
    destruct (path_eq p q) eqn:E; try reflexivity; apply path_eq_spec in E; subst; tauto.
Qed.
Lemma removed_get : forall ps d q, get (fold_left apply (map Remove ps) d) q = if existsb (fun p => path_eq p q) ps then None else get d q.
Proof.
  induction ps as [|p ps IH]; intros d q; [reflexivity|]. cbn [map fold_left existsb apply]. rewrite IH. rewrite get_remove.
  destruct (existsb _ ps); [rewrite orb_true_r; reflexivity|]. rewrite orb_false_r. reflexivity.
Qed.
Lemma cleaning_get : forall src d q,
  get (fold_left apply (cleaning src d) d) q = if existsb (obsolete src) (entries q) then None else get d q.
Proof.
  intros src d q. unfold cleaning. rewrite <- map_map with (f := fst) (g := Remove). rewrite removed_get.
  set (ps := map fst (filter _ d)). destruct (existsb (fun p => path_eq p q) ps) eqn:E.
  - apply existsb_exists in E. destruct E as (p & I & E). apply path_eq_spec in E. subst p. apply in_map_iff in I.
    destruct I as (e & <- & I). apply filter_In in I. destruct I as [_ I]. rewrite I. reflexivity.
  - destruct (existsb (obsolete src) (entries q)) eqn:O; [|reflexivity]. destruct (get d q) as [f|] eqn:G; [|reflexivity].
    exfalso. assert (X : existsb (fun p => path_eq p q) ps = true); [|congruence]. apply existsb_exists. exists q. split; [|apply path_eq_refl].
    apply get_in in G. apply in_map_iff. exists (q, f). split; [reflexivity|]. apply filter_In. split; [exact G|exact O].
Qed.

(** ** Names *)

Lemma rfind_app : forall c a b, ~ In c b -> rfind c (a ++ c :: b) = Some (length a).
Proof.
  assert (Z0 : forall c b, ~ In c b -> rfind c b = None).
  { induction b as [|x b IH]; intro N; [reflexivity|]. cbn in N. cbn. rewrite IH by tauto.
    destruct (x =? c) eqn:E; [apply Z.eqb_eq in E; subst; tauto|reflexivity]. }
  induction a as [|x a IH]; intros b N; cbn.
  - rewrite Z0 by exact N. rewrite Z.eqb_refl. reflexivity.
  - rewrite IH by exact N. reflexivity.
Qed.
Lemma suffix_app : forall a b, a <> [] -> b <> [] -> ~ In 46 b -> suffix (a ++ 46 :: b) = 46 :: b.
Proof.
  intros a b A B N. unfold suffix. rewrite rfind_app by exact N.
  replace (Nat.ltb 0 (length a)) with true by (symmetry; apply Nat.ltb_lt; destruct a; [congruence|cbn; lia]).
  replace (Nat.ltb (S (length a)) (length (a ++ 46 :: b))) with true.
  - cbn [andb]. apply skipn_app_exact.
  - symmetry. apply Nat.ltb_lt. rewrite app_length. cbn. destruct b; [congruence|cbn; lia].
Qed.
Lemma stem_app : forall a b, a <> [] -> b <> [] -> ~ In 46 b -> stem (a ++ 46 :: b) = a.
Proof.
  intros a b A B N. unfold stem. rewrite suffix_app by assumption. rewrite app_length.
  replace (length a + length (46%Z :: b) - length (46%Z :: b))%nat with (length a) by lia. apply firstn_app_exact.
Qed.
Lemma suffix_split : forall n, exists a, n = a ++ suffix n /\ (suffix n <> [] -> a = stem n /\ a <> [] /\ exists r, suffix n = 46 :: r /\ r <> []).
Proof.
  intro n. unfold stem. unfold suffix. destruct (rfind 46 n) as [i|] eqn:R.
  2: { exists n. rewrite app_nil_r. split; [reflexivity|]. intro H. congruence. }
  destruct (Nat.ltb 0 i && Nat.ltb (S i) (length n))%bool eqn:B.
  2: { exists n. rewrite app_nil_r. split; [reflexivity|]. intro H. congruence. }
  apply andb_true_iff in B. destruct B as [B1 B2]. apply Nat.ltb_lt in B1. apply Nat.ltb_lt in B2.
  exists (firstn i n). split; [symmetry; apply firstn_skipn|]. intros _. split; [|split].
  - rewrite skipn_length. f_equal. lia.
  - destruct n; [cbn in B2; lia|]. destruct i; [lia|]. discriminate.
  - clear B1. revert i R B2. induction n as [|x n IH]; intros i R B2; [discriminate|]. cbn in R. destruct (rfind 46 n) as [k|] eqn:K.
    + injection R as <-. cbn [skipn]. apply IH; [reflexivity|]. cbn in B2. lia.
    + destruct (x =? 46) eqn:E; [|discriminate]. injection R as <-. apply Z.eqb_eq in E. subst x. exists n. split; [reflexivity|].
      destruct n; [cbn in B2; lia|discriminate].
Qed.
Lemma name_with : forall p n, name_of (with_name p n) = n.
Proof. intros p n. unfold name_of, with_name. apply last_last. Qed.
Lemma with_with : forall p n m, with_name (with_name p n) m = with_name p m.
Proof. intros p n m. unfold with_name. rewrite removelast_last. reflexivity. Qed.
Lemma with_own : forall p, p <> [] -> with_name p (name_of p) = p.
Proof. intros p N. unfold with_name, name_of. symmetry. apply app_removelast_last. exact N. Qed.

Lemma split_app : forall c a b, split_on c (a ++ c :: b) = split_on c a ++ split_on c b.
Proof.
  induction a as [|x a IH]; intros b; cbn.
  - rewrite Z.eqb_refl. reflexivity.
  - rewrite IH. destruct (x =? c); [reflexivity|]. assert (N : split_on c a <> []).
    { destruct a; cbn; [discriminate|]. destruct (_ =? _); discriminate. }
    destruct (split_on c a); [congruence|reflexivity].
Qed.
Lemma split_nil : forall c a, split_on c a <> [].
Proof. intros c [|x a]; cbn; [discriminate|]. destruct (x =? c); discriminate. Qed.
Lemma suffixes_dot : forall n, concat (suffixes n) = [] \/ exists r, concat (suffixes n) = 46 :: r.
Proof.
  intro n. unfold suffixes. destruct (last n 0 =? 46); [left; reflexivity|].
  destruct (tl (split_on 46 (lstrip 46 n))) as [|x l]; [left; reflexivity|]. right. cbn. eexists. reflexivity.
Qed.
Lemma restricted_name : forall n, suffix n = str ".html" -> hd 0 n <> 46 ->
  existsb (beq (str ".restrict")) (suffixes (stem n ++ str ".restrict" ++ concat (suffixes n) ++ str ".gz")) = true.
Proof.
  intros n S H. destruct (suffix_split n) as (a & E & X). rewrite S in X. destruct X as (A & NA & _); [discriminate|]. subst a.
  set (t := concat (suffixes n) ++ str ".gz").
  assert (T : exists r, t = 46 :: r /\ last t 0 = 122).
  { unfold t. destruct (suffixes_dot n) as [-> | [r ->]].
    - eexists. split; reflexivity.
    - eexists. split; [reflexivity|]. change (str ".gz") with ([46; 103] ++ [122]). rewrite app_assoc. apply last_last. }
  destruct T as (r & T & L). rewrite T in *.
  assert (SH : exists x s, stem n = x :: s /\ x <> 46).
  { destruct (stem n) as [|x s] eqn:SN; [congruence|]. exists x, s. split; [reflexivity|]. rewrite E in H. cbn in H. exact H. }
  destruct SH as (x & s & SN & NX). rewrite SN. unfold suffixes.
  replace (last ((x :: s) ++ str ".restrict" ++ 46 :: r) 0) with 122.
  2: { assert (LA : forall (u v : list Z), v <> [] -> last (u ++ v) 0 = last v 0).
       { induction u as [|y u IHu]; intros v Nv; [reflexivity|]. cbn [app last]. rewrite IHu by exact Nv. destruct (u ++ v) eqn:UV; [|reflexivity].
         apply app_eq_nil in UV. tauto. }
       rewrite LA by discriminate. rewrite LA by discriminate. symmetry. exact L. }
  change (122 =? 46) with false. cbv iota.
  replace (lstrip 46 ((x :: s) ++ str ".restrict" ++ 46 :: r)) with ((x :: s) ++ 46 :: str "restrict" ++ 46 :: r).
  2: { cbn [lstrip app]. destruct (x =? 46) eqn:EX; [apply Z.eqb_eq in EX; contradiction|]. reflexivity. }
  rewrite split_app. rewrite split_app. pose proof (split_nil 46 (x :: s)) as NN. destruct (split_on 46 (x :: s)) as [|y l]; [congruence|].
  cbn [app tl]. rewrite map_app. rewrite existsb_app. rewrite orb_true_iff. right. reflexivity.
Qed.

Lemma existing : forall src p f n, In (p, f) src -> exists_in src (firstn n p) = true.
Proof.
  intros src p f n H. unfold exists_in. apply existsb_exists. exists (p, f). split; [exact H|]. cbn [fst]. apply path_eq_spec.
  rewrite firstn_length. destruct (le_lt_dec n (length p)).
  - f_equal. lia.
  - rewrite (firstn_all2 (n := n)) by lia. apply firstn_all2. lia.
Qed.
Lemma entries_with : forall p n e, p <> [] -> In e (entries (with_name p n)) -> e = with_name p n \/ exists k, e = firstn k p /\ e <> p.
Proof.
  intros p n e NP H. unfold entries in H. apply in_map_iff in H. destruct H as (k & <- & H). apply in_seq in H.
  unfold with_name in *. rewrite app_length in H. cbn in H.
  assert (P : p = removelast p ++ [last p []]) by (apply app_removelast_last; exact NP).
  destruct (Nat.eq_dec k (length (removelast p))) as [->|D].
  - left. rewrite firstn_all2 by (rewrite app_length; cbn; lia). reflexivity.
  - right. exists (S k). assert (EQ : firstn (S k) (removelast p ++ [n]) = firstn (S k) p).
    { rewrite P at 2. rewrite !firstn_app. replace (S k - length (removelast p))%nat with 0%nat by lia. reflexivity. }
    split; [exact EQ|]. rewrite EQ. intro B. apply (f_equal (@length (list Z))) in B. rewrite firstn_length in B. 
    assert (LP : length p = S (length (removelast p))) by (rewrite P at 1; rewrite app_length; cbn; lia). lia.
Qed.
Lemma kept_target : forall src p f, In (p, f) src -> p <> [] -> existsb (obsolete src) (entries (target p)) = false.
Proof.
  intros src p f I NP. destruct (existsb _ _) eqn:E; [|reflexivity]. exfalso. apply existsb_exists in E. destruct E as (e & H & O).
  assert (X : forall k, obsolete src (firstn k p) = false) by (intro k; unfold obsolete; rewrite (existing _ _ _ k I); reflexivity).
  unfold target in H. destruct (packing_of p) eqn:K.
  3: { apply in_map_iff in H. destruct H as (k & <- & _). rewrite X in O. discriminate. }
  all: apply entries_with in H; [|exact NP]; destruct H as [->|(k & -> & _)]; [|rewrite X in O; discriminate];
    assert (NN : name_of p <> []) by (intro Z0; unfold packing_of in K; rewrite Z0 in K; discriminate);
    unfold obsolete in O; rewrite name_with in O; change (str ".gz") with (46 :: [103; 122]) in O;
    rewrite suffix_app in O by (try exact NN; try discriminate; cbn; intuition discriminate);
    rewrite stem_app in O by (try exact NN; try discriminate; cbn; intuition discriminate);
    rewrite with_with, with_own in O by exact NP;
    pose proof (existing _ _ _ (length p) I) as Y; rewrite firstn_all in Y; rewrite Y in O; rewrite beq_refl in O; cbn in O; rewrite !andb_false_r in O; discriminate.
Qed.
Lemma kept_restricted : forall src p f, In (p, f) src -> p <> [] -> is_page p -> hd 0 (name_of p) <> 46 ->
  existsb (obsolete src) (entries (restricted_target p)) = false.
Proof.
  intros src p f I NP PG H0. destruct (existsb _ _) eqn:E; [|reflexivity]. exfalso. apply existsb_exists in E. destruct E as (e & H & O).
  unfold restricted_target in H. apply entries_with in H; [|exact NP]. destruct H as [->|(k & -> & _)].
  - unfold obsolete in O. rewrite name_with in O. rewrite (restricted_name _ PG H0) in O. rewrite andb_false_r in O. discriminate.
  - unfold obsolete in O. rewrite (existing _ _ _ k I) in O. discriminate.
Qed.
