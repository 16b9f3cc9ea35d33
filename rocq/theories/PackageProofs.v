(** Proofs for C116. *)
From Coq Require Import ZArith List Bool Lia.
From Verif Require Import Base BaseFacts Amalg AmalgSpec AmalgProofs Package PackageSpec.
Import ListNotations.
Open Scope Z_scope.

Lemma peq_eq : forall p q, peq p q = true <-> p = q.
Proof.
  induction p as [|a p IH]; intros [|b q]; cbn [peq]; try (split; congruence).
  rewrite andb_true_iff, beq_eq, IH. split; [intros [-> ->]; reflexivity|intros E; injection E as -> ->; auto].
Qed.
Lemma peq_refl : forall p, peq p p = true.
Proof. intros. apply peq_eq. reflexivity. Qed.
Lemma peq_neq : forall p q, p <> q -> peq p q = false.
Proof. intros p q N. destruct (peq p q) eqn:E; [apply peq_eq in E; congruence|reflexivity]. Qed.
Lemma above_inside : forall p q, above p q = true <-> inside p q.
Proof.
  unfold inside. induction p as [|a p IH]; intros [|b q]; cbn [above].
  - split; [discriminate|intros (x & r & E); discriminate].
  - split; [intros _; exists b, q; reflexivity|reflexivity].
  - split; [discriminate|intros (x & r & E); discriminate].
  - rewrite andb_true_iff, beq_eq, IH. split.
    + intros [-> (x & r & ->)]. exists x, r. reflexivity.
    + intros (x & r & E). injection E as -> ->. split; [reflexivity|]. exists x, r. reflexivity.
Qed.
Lemma at_put : forall t p c q, at_path (put p c t) q = if peq p q then Some c else at_path t q.
Proof.
  induction t as [|[r d] t IH]; intros p c q; cbn [put at_path]; [reflexivity|].
  destruct (peq r p) eqn:E; cbn [at_path].
  - apply peq_eq in E. subst r. destruct (peq p q); reflexivity.
  - rewrite IH. destruct (peq r q) eqn:F; [|reflexivity]. apply peq_eq in F. subst r.
    rewrite peq_neq; [reflexivity|]. intros ->. rewrite peq_refl in E. discriminate.
Qed.
Lemma in_put : forall t p c q, In q (map fst (put p c t)) -> q = p \/ In q (map fst t).
Proof.
  induction t as [|[r d] t IH]; intros p c q; cbn [put map fst In]; [intros [<-|[]]; auto|].
  destruct (peq r p) eqn:E; cbn [map fst In]; [apply peq_eq in E; subst r; tauto|].
  intros [<-|H]; [auto|]. destruct (IH _ _ _ H); auto.
Qed.
Lemma unpack_other : forall fs t p, ~ In p (map fst fs) -> at_path (unpack fs t) p = at_path t p.
Proof.
  unfold unpack. induction fs as [|[q c] fs IH]; intros t p N; cbn [fold_left fst snd]; [reflexivity|].
  cbn [map fst In] in N. rewrite IH by tauto. rewrite at_put, peq_neq by tauto. reflexivity.
Qed.
Lemma unpack_in : forall fs t p c, NoDup (map fst fs) -> In (p, c) fs -> at_path (unpack fs t) p = Some c.
Proof.
  induction fs as [|[q d] fs IH]; intros t p c ND I; [destruct I|]. inversion ND as [|x y NI ND']; subst.
  unfold unpack. cbn [fold_left fst snd]. fold (unpack fs (put q d t)). destruct I as [E|I].
  - injection E as -> ->. rewrite unpack_other by exact NI. rewrite at_put, peq_refl. reflexivity.
  - apply IH; assumption.
Qed.
Lemma copied_is_unpacked : forall fs t t', copy_all fs t = (t', true) -> t' = unpack fs t.
Proof.
  induction fs as [|[p c] fs IH]; intros t t' E; cbn [copy_all] in E; [injection E as <-; reflexivity|].
  destruct (existsb _ t); [discriminate|]. apply IH in E. exact E.
Qed.
Lemma copy_ok : forall fs t, (forall p q, In p (map fst fs) -> In q (map fst fs) -> ~ inside p q) ->
  (forall p q, In p (map fst t) -> In q (map fst fs) -> ~ inside p q /\ ~ inside q p) -> copy_all fs t = (unpack fs t, true).
Proof.
  induction fs as [|[p c] fs IH]; intros t A B; cbn [copy_all]; [reflexivity|].
  replace (existsb _ t) with false.
  - unfold unpack. cbn [fold_left fst snd]. apply IH.
    + intros x y X Y. apply A; right; assumption.
    + intros x y X Y. destruct (in_put _ _ _ _ X) as [->|X'].
      * split; apply A; (left; reflexivity) || (right; assumption).
      * apply B; [exact X'|right; exact Y].
  - symmetry. apply not_true_iff_false. intros E. apply existsb_exists in E. destruct E as ([q d] & I & E). cbn [fst] in E.
    destruct (B q p (in_map fst _ _ I) (or_introl eq_refl)) as [X Y].
    apply orb_true_iff in E. destruct E as [E|E]; apply above_inside in E; contradiction.
Qed.

Lemma nodup_map : forall (A B : Type) (f : A -> B) l, (forall x y, f x = f y -> x = y) -> NoDup l -> NoDup (map f l).
Proof.
  intros A B f l I. induction 1 as [|x l N ND IH]; cbn [map]; constructor; [|exact IH].
  intros H. apply in_map_iff in H. destruct H as (y & E & J). apply I in E. subst y. contradiction.
Qed.
Lemma nodup_join : forall (A : Type) (a b : list A), NoDup a -> NoDup b -> (forall x, In x a -> ~ In x b) -> NoDup (a ++ b).
Proof.
  induction a as [|x a IH]; intros b NA NB D; cbn [app]; [exact NB|]. inversion NA as [|y z N NA']; subst. constructor.
  - intros H. apply in_app_or in H. destruct H as [H|H]; [contradiction|]. exact (D x (or_introl eq_refl) H).
  - apply IH; [exact NA'|exact NB|]. intros y I. apply D. right. exact I.
Qed.
Definition plain_given (src : sources) (data : tree) : tree :=
  map (fun f => ([root; fst f], concat (snd f))) src ++ map (fun f => (root :: str "data" :: fst f, snd f)) data.
Definition rest_given (data : tree) : tree := map (fun f => (root :: str "data" :: fst f, snd f)) data.
Lemma rest_paths : forall data, map fst (rest_given data) = map place_of_data (map fst data).
Proof. intros. unfold rest_given. rewrite !map_map. reflexivity. Qed.
Lemma plain_paths : forall src data, map fst (plain_given src data) = map place_of_source (map fst src) ++ map place_of_data (map fst data).
Proof. intros. unfold plain_given. rewrite map_app, !map_map. reflexivity. Qed.
Lemma in_plain : forall src data p, In p (map fst (plain_given src data)) <-> in_package src data p.
Proof.
  intros. rewrite plain_paths, in_app_iff, !in_map_iff. unfold in_package.
  split; (intros [(x & E & I)|(x & E & I)]; [left|right]; exists x; auto).
Qed.
Lemma nodup_rest : forall data, NoDup (map fst data) -> NoDup (map fst (rest_given data)).
Proof. intros data N. rewrite rest_paths. apply nodup_map; [|exact N]. unfold place_of_data. congruence. Qed.
Lemma nodup_plain : forall src data, proper src data -> NoDup (map fst (plain_given src data)).
Proof.
  intros src data (N1 & [N2 _] & D & E). rewrite plain_paths. apply nodup_join.
  - apply nodup_map; [unfold place_of_source; congruence|exact N1].
  - apply nodup_map; [unfold place_of_data; congruence|exact N2].
  - intros p I J. apply in_map_iff in I, J. destruct I as (n & <- & I), J as (q & F & J).
    unfold place_of_source, place_of_data in F. injection F as _ F. subst q. contradiction.
Qed.
Lemma inside_data : forall p q, inside (place_of_data p) (place_of_data q) -> inside p q.
Proof. intros p q (x & r & E). unfold place_of_data in E. cbn [app] in E. injection E as E. exists x, r. exact E. Qed.
Lemma apart_plain : forall src data, proper src data -> forall p q, in_package src data p -> in_package src data q -> ~ inside p q.
Proof.
  intros src data (N1 & [N2 C] & D & E) p q P Q I.
  destruct P as [(n & In_ & ->)|(p' & Ip & ->)], Q as [(m & Im & ->)|(q' & Iq & ->)].
  - destruct I as (x & r & F). unfold place_of_source in F. cbn [app] in F. injection F as _ F. discriminate.
  - destruct I as (x & r & F). unfold place_of_source, place_of_data in F. cbn [app] in F. injection F as F _. subst n. contradiction.
  - destruct I as (x & r & F). unfold place_of_source, place_of_data in F. cbn [app] in F. injection F as _ F. destruct p'; discriminate.
  - apply inside_data in I. exact (C p' q' Ip Iq I).
Qed.
Lemma plain_expected : forall src data t p, proper src data -> expected_at src data p (at_path (unpack (plain_given src data) t) p).
Proof.
  intros src data t p P. pose proof (nodup_plain src data P) as N. split.
  - intros n ls I ->. apply unpack_in; [exact N|]. unfold plain_given. apply in_or_app. left.
    change (In ((fun f => ([root; fst f], concat (snd f))) (n, ls)) (map (fun f => ([root; fst f], concat (snd f))) src)). apply in_map. exact I.
  - intros q c I ->. apply unpack_in; [exact N|]. unfold plain_given. apply in_or_app. right.
    change (In ((fun f : path * list Z => (root :: str "data" :: fst f, snd f)) (q, c)) (map (fun f => (root :: str "data" :: fst f, snd f)) data)). apply in_map. exact I.
Qed.

Lemma c116_copied : forall target src data d d', proper src data -> package true false target src data d = (d', true) ->
  (forall p, expected_at src data p (at_path (dk_folder d') p)) /\
  (forall p, ~ in_package src data p -> at_path (dk_folder d') p = at_path (dk_folder d) p) /\
  dk_archives d' = dk_archives d.
Proof.
  intros target src data d d' P E. unfold package, given in E. fold (plain_given src data) in E.
  destruct (copy_all (plain_given src data) (dk_folder d)) as [t ok] eqn:C. injection E as <- ->. apply copied_is_unpacked in C. subst t.
  cbn [dk_folder dk_archives]. split; [|split; [|reflexivity]].
  - intros p. apply plain_expected, P.
  - intros p N. apply unpack_other. rewrite in_plain. exact N.
Qed.
Lemma c116_archive : forall target src data d, proper src data -> exists d' entries, package false false target src data d = (d', true) /\
  dk_archives d' (archive_name target) = Some entries /\
  (forall p, expected_at src data p (at_path (unpack entries []) p)) /\
  (forall p, ~ in_package src data p -> at_path (unpack entries []) p = None) /\
  dk_folder d' = dk_folder d /\ forall n, n <> archive_name target -> dk_archives d' n = dk_archives d n.
Proof.
  intros target src data d P. unfold package, given. fold (plain_given src data). eexists. exists (plain_given src data). split; [reflexivity|].
  cbn [dk_folder dk_archives]. rewrite beq_refl. split; [reflexivity|]. split; [intros p; apply plain_expected, P|]. split.
  - intros p N. apply unpack_other. rewrite in_plain. exact N.
  - split; [reflexivity|]. intros n N. apply beq_neq in N. rewrite N. reflexivity.
Qed.
Lemma c116_single : forall (copy : bool) target src data d d' a, NoDup (map fst data) -> amalgamate src = Made a ->
  package copy true target src data d = (d', true) -> exists t,
  (if copy then dk_folder d' = t else exists entries, dk_archives d' (archive_name target) = Some entries /\ t = unpack entries []) /\
  at_path t [str "wifinfo"; str "wifinfo.ino"] = Some (concat (map snd (am_lines a))) /\
  (forall q c, In (q, c) data -> at_path t (place_of_data q) = Some c) /\
  (forall p, p <> [str "wifinfo"; str "wifinfo.ino"] -> (forall q, In q (map fst data) -> p <> place_of_data q) ->
    at_path t p = if copy then at_path (dk_folder d) p else None).
Proof.
  intros copy target src data d d' a N M E. unfold package, given in E. rewrite M in E. fold (rest_given data) in E.
  set (ino := [root; str "wifinfo.ino"]) in *. set (text := concat (map snd (am_lines a))) in *.
  assert (ND : NoDup (map fst ((ino, text) :: rest_given data))).
  { cbn [map fst]. constructor; [|apply nodup_rest, N]. rewrite rest_paths. intros I. apply in_map_iff in I. destruct I as (q & F & _). unfold place_of_data, ino in F. injection F as F _. discriminate. }
  assert (G : forall t0, at_path (unpack ((ino, text) :: rest_given data) t0) ino = Some text /\
    (forall q c, In (q, c) data -> at_path (unpack ((ino, text) :: rest_given data) t0) (place_of_data q) = Some c) /\
    (forall p, p <> ino -> (forall q, In q (map fst data) -> p <> place_of_data q) -> at_path (unpack ((ino, text) :: rest_given data) t0) p = at_path t0 p)).
  { intros t0. split; [apply unpack_in; [exact ND|left; reflexivity]|]. split.
    - intros q c I. apply unpack_in; [exact ND|]. right. unfold rest_given.
      change (In ((fun f : path * list Z => (root :: str "data" :: fst f, snd f)) (q, c)) (map (fun f => (root :: str "data" :: fst f, snd f)) data)). apply in_map. exact I.
    - intros p P Q. apply unpack_other. cbn [map fst In]. rewrite rest_paths, in_map_iff. intros [F|(q & F & I)]; [congruence|]. exact (Q q I (eq_sym F)). }
  destruct copy.
  - destruct (copy_all ((ino, text) :: rest_given data) (dk_folder d)) as [t ok] eqn:C. injection E as <- ->. apply copied_is_unpacked in C. subst t.
    eexists. split; [reflexivity|]. apply G.
  - injection E as <-. eexists. split; [eexists; split; [cbn [dk_archives]; rewrite beq_refl; reflexivity|reflexivity]|]. apply (G []).
Qed.
Lemma c116_same : forall one target src data d d1 d2 ok entries, package true one target src data d = (d1, true) -> package false one target src data d = (d2, ok) ->
  dk_archives d2 (archive_name target) = Some entries -> dk_folder d1 = unpack entries (dk_folder d).
Proof.
  intros one target src data d d1 d2 ok entries C A E. unfold package in C, A. destruct (given one src data) as [fs|]; [|discriminate].
  injection A as <- <-. cbn [dk_archives] in E. rewrite beq_refl in E. injection E as <-.
  destruct (copy_all fs (dk_folder d)) as [t k] eqn:X. injection C as <- ->. apply copied_is_unpacked in X. exact X.
Qed.
Lemma c116_succeeds : forall target src data d, proper src data ->
  (forall p q, In p (map fst (dk_folder d)) -> in_package src data q -> ~ inside p q /\ ~ inside q p) ->
  exists d', package true false target src data d = (d', true).
Proof.
  intros target src data d P F. unfold package, given. fold (plain_given src data). rewrite copy_ok; [eexists; reflexivity| |].
  - intros p q I J. apply (apart_plain src data P); apply in_plain; assumption.
  - intros p q I J. apply F; [exact I|]. apply in_plain. exact J.
Qed.
Lemma c116_succeeds_single : forall target src data d, consistent (map fst data) -> complete src ->
  (forall p q, In p (map fst (dk_folder d)) -> in_package [(str "wifinfo.ino", [])] data q -> ~ inside p q /\ ~ inside q p) ->
  exists d', package true true target src data d = (d', true).
Proof.
  intros target src data d [N C] M F. destruct (c89_made src M) as [a A]. unfold package, given. rewrite A. fold (rest_given data).
  assert (X : forall p c, In p (map fst (([root; str "wifinfo.ino"], c) :: rest_given data)) -> in_package [(str "wifinfo.ino", [])] data p).
  { intros p c I. cbn [map fst In] in I. rewrite rest_paths, in_map_iff in I. destruct I as [<-|(q & <- & I)].
    - left. exists (str "wifinfo.ino"). split; [left; reflexivity|reflexivity].
    - right. exists q. auto. }
  rewrite copy_ok; [eexists; reflexivity| |].
  - intros p q I J. apply X in I, J. destruct I as [(n & [<-|[]] & ->)|(p' & Ip & ->)], J as [(m & [<-|[]] & ->)|(q' & Iq & ->)]; intros K.
    + destruct K as (x & r & E). unfold place_of_source in E. cbn [app] in E. injection E as E. discriminate.
    + destruct K as (x & r & E). unfold place_of_source, place_of_data in E. cbn [app] in E. injection E as E _. discriminate.
    + destruct K as (x & r & E). unfold place_of_source, place_of_data in E. cbn [app] in E. injection E as E _. discriminate.
    + apply inside_data in K. exact (C p' q' Ip Iq K).
  - intros p q I J. apply F; [exact I|]. exact (X _ _ J).
Qed.
Lemma c116_failed : forall target src data d d', package true true target src data d = (d', false) -> (forall a, amalgamate src <> Made a) -> d' = d.
Proof.
  intros target src data d d' E N. unfold package, given in E. destruct (amalgamate src) eqn:A; [exfalso; exact (N _ eq_refl)| | |]; injection E as <-; reflexivity.
Qed.

(** The name of the archive. *)
Lemma last_none : forall c l, last_at c l = None <-> ~ In c l.
Proof.
  intros c. induction l as [|x l IH]; cbn [last_at]; [split; [intros _ []|reflexivity]|].
  destruct (last_at c l) eqn:E; [split; [discriminate|]|].
  - intros N. exfalso. assert (X : ~ In c l) by (intros I; apply N; right; exact I). apply IH in X. discriminate.
  - destruct (x =? c) eqn:F; [apply Z.eqb_eq in F; split; [discriminate|intros N; exfalso; apply N; left; exact F]|].
    apply Z.eqb_neq in F. split; [|reflexivity]. intros _ [H|H]; [contradiction|]. apply IH in H; [exact H|reflexivity].
Qed.
Lemma last_app : forall c a b, ~ In c b -> last_at c (a ++ c :: b) = Some (length a).
Proof.
  intros c. induction a as [|x a IH]; intros b N; cbn [app last_at length].
  - replace (last_at c b) with (@None nat) by (symmetry; apply last_none; exact N). rewrite Z.eqb_refl. reflexivity.
  - rewrite IH by exact N. reflexivity.
Qed.
Lemma c116_name : (forall n, ~ In 46 n -> archive_name n = n ++ str ".zip" /\ archive_name (46 :: n) = 46 :: n ++ str ".zip") /\
  (forall n, archive_name (n ++ [46]) = n ++ [46] ++ str ".zip") /\
  (forall n e, n <> [] -> e <> [] -> ~ In 46 e -> archive_name (n ++ 46 :: e) = n ++ 46 :: e).
Proof.
  split; [|split].
  - intros n N. unfold archive_name, suffix. rewrite (last_app 46 [] n N : last_at 46 (46 :: n) = Some O). apply last_none in N. rewrite N. split; reflexivity.
  - intros n. unfold archive_name, suffix. rewrite last_app by (intros []). destruct n as [|x n]; [reflexivity|]. cbn [length].
    replace (Nat.ltb _ _) with false; [rewrite <- app_assoc; reflexivity|]. symmetry. apply Nat.ltb_ge. rewrite app_length. cbn [length]. lia.
  - intros n e N E D. unfold archive_name, suffix. rewrite last_app by exact D. destruct n as [|x n]; [congruence|]. cbn [length].
    replace (Nat.ltb _ _) with true.
    + replace (skipn (S (length n)) ((x :: n) ++ 46 :: e)) with (46 :: e); [reflexivity|]. symmetry. exact (skipn_app_exact (x :: n) (46 :: e)).
    + symmetry. apply Nat.ltb_lt. rewrite app_length. cbn [length]. destruct e; [congruence|]. cbn [length]. lia.
Qed.
