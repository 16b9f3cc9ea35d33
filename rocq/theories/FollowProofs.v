(** Proofs about what a server knows. *)
From Coq Require Import ZArith List Bool Lia.
From Verif Require Import Base BaseFacts TeleinfoSpec ConfigSpec Tic TicSpec ChainSpec FollowSpec.
Import ListNotations.
Open Scope Z_scope.

Lemma watched_on : forall A trigger (look : list group -> A) m, on trigger m -> watched trigger look m = Some (look (m_groups m)).
Proof.
  intros A trigger look m [H T]. unfold watched. rewrite T. destruct (s_http_host (m_set m)); [congruence|]. reflexivity.
Qed.
Lemma last_cons : forall (x : trial) y xs m, last_frame (x :: y :: xs) m -> last_frame (y :: xs) m.
Proof.
  intros x y xs m (r & [|b before] & E).
  - discriminate E.
  - exists r, before. cbn [app] in E. injection E as _ E. exact E.
Qed.
Lemma last_one : forall (x : trial) m, last_frame [x] m -> m = fst x.
Proof. intros x m (r & [|b [|c before]] & E); try discriminate E. injection E as ->. reflexivity. Qed.

(** ** Overload *)
Definition oknow (k : bool) (x : trial) : bool := if got ADPS x then true else if got NORM x then false else k.
(** The edges from the state [b] of the frame before; the server knows [k]. *)
Lemma overload_step : forall xs b, map (fun m => (sends ADPS m, sends NORM m)) (map fst xs) = edges b (map (fun m => Some (in_overload m)) (map fst xs)) ->
  Forall reached xs -> forall m, last_frame xs m -> fold_left oknow xs b = in_overload m.
Proof.
  induction xs as [|x xs IH]; intros b E R m L; [destruct L as (r & [|? ?] & X); discriminate X|].
  cbn [map edges] in E. injection E as A N E. inversion R as [|? ? R1 R2]; subst.
  assert (K : oknow b x = in_overload (fst x)).
  { unfold oknow, got. rewrite R1, A, N. cbn [andb]. destruct (in_overload (fst x)), b; reflexivity. }
  cbn [fold_left]. rewrite K. destruct xs as [|y xs].
  - apply last_one in L. subst m. reflexivity.
  - apply (IH _ E R2). exact (last_cons _ _ _ _ L).
Qed.
Lemma edges_after : forall l1 l2 b, map (fun m => (sends ADPS m, sends NORM m)) (l1 ++ l2) = edges b (map (fun m => Some (in_overload m)) (l1 ++ l2)) ->
  exists b', map (fun m => (sends ADPS m, sends NORM m)) l2 = edges b' (map (fun m => Some (in_overload m)) l2).
Proof.
  induction l1 as [|x l1 IH]; intros l2 b E; [exists b; exact E|]. cbn [app map edges] in E. injection E as _ _ E. exact (IH _ _ E).
Qed.
Lemma overload_from : forall xs, map (fun m => (sends ADPS m, sends NORM m)) (map fst xs) = edges false (map (fun m => Some (in_overload m)) (map fst xs)) ->
  forall before x after m, xs = before ++ x :: after -> got ADPS x = true \/ got NORM x = true -> Forall reached after -> last_frame xs m ->
  overload_known xs = in_overload m.
Proof.
  intros xs E before x after m -> G R L. rewrite map_app in E. destruct (edges_after _ _ _ E) as (b & E'). cbn [map edges] in E'. injection E' as A N E'.
  change (overload_known (before ++ x :: after)) with (fold_left oknow (before ++ x :: after) false). rewrite fold_left_app. cbn [fold_left].
  assert (K : forall k, oknow k x = in_overload (fst x)).
  { intros k. unfold oknow, got in *. rewrite A, N in *. destruct (snd x), (in_overload (fst x)), b, k; cbn in *; destruct G; congruence. }
  rewrite K. destruct after as [|y after].
  - cbn [fold_left]. destruct L as (r & l & Q). apply app_inj_tail in Q. destruct Q as [_ ->]. reflexivity.
  - apply (overload_step _ _ E' R). destruct L as (r & l & Q). destruct (exists_last (l := y :: after) ltac:(discriminate)) as (af & z & Z).
    rewrite Z in Q |- *. rewrite (app_comm_cons af [z] x), app_assoc in Q. apply app_inj_tail in Q. destruct Q as [_ ->]. exists r, af. reflexivity.
Qed.
Lemma overload_lost : forall xs, map (fun m => (sends ADPS m, sends NORM m)) (map fst xs) = edges false (map (fun m => Some (in_overload m)) (map fst xs)) ->
  forall before m after, xs = before ++ (m, false) :: after -> Forall (fun x => in_overload (fst x) = in_overload m) after ->
  overload_known xs = overload_known before.
Proof.
  intros xs E before m after -> S. rewrite map_app in E. destruct (edges_after _ _ _ E) as (b & E'). cbn [map edges fst] in E'. injection E' as _ _ E'.
  change (overload_known (before ++ (m, false) :: after)) with (fold_left oknow (before ++ (m, false) :: after) false). rewrite fold_left_app. cbn [fold_left].
  change (fold_left oknow before false) with (overload_known before). generalize (overload_known before). intros k.
  change (oknow k (m, false)) with k. clear E b. revert E' S. generalize (in_overload m). intros v. induction after as [|y after IH]; intros E S; [reflexivity|].
  inversion S as [|? ? S1 S2]; subst. cbn [map edges] in E. injection E as A N E. cbn [fold_left].
  assert (Y : oknow k y = k). { unfold oknow, got. rewrite A, N. destruct (snd y), (in_overload (fst y)); reflexivity. }
  rewrite Y. apply IH; auto.
Qed.

(** ** Tariff *)
Definition period_of (m : moment) : option (list Z) := lookup (str "PTEC") (m_groups m).
Definition pknow (k : option (list Z)) (x : trial) : option (list Z) := if got PTEC x then period_of (fst x) else k.
Definition short (m : moment) : Prop := exists p, period_of m = Some p /\ (1 <= length p <= 7)%nat.
Lemma changes_short : forall ms b, Forall short ms -> (match b with Some q => (length q <= 7)%nat | None => True end) ->
  changes_7 b (map (fun m => Some (period_of m)) ms) = changes b (map (fun m => Some (period_of m)) ms).
Proof.
  induction ms as [|m ms IH]; intros b S B; [reflexivity|]. inversion S as [|? ? (p & P & L) S2]; subst. cbn [map changes changes_7]. rewrite P.
  assert (N : changes_7 (Some p) (map (fun m => Some (period_of m)) ms) = changes (Some p) (map (fun m => Some (period_of m)) ms)) by (apply IH; [exact S2|lia]).
  destruct b as [q|].
  - rewrite firstn_all2 by lia. rewrite N. reflexivity.
  - destruct p; [cbn in L; lia|]. rewrite N. reflexivity.
Qed.
Lemma tariff_step : forall xs q k, Forall short (map fst xs) -> map (sends PTEC) (map fst xs) = changes (Some q) (map (fun m => Some (period_of m)) (map fst xs)) ->
  Forall reached xs ->
  (fold_left pknow xs k = k /\ forall x, In x xs -> period_of (fst x) = Some q) \/ (exists m, last_frame xs m /\ fold_left pknow xs k = period_of m).
Proof.
  induction xs as [|x xs IH]; intros q k S E R; [left; split; [reflexivity|intros ? []]|].
  inversion S as [|? ? (p & P & L) S2]; subst. inversion R as [|? ? R1 R2]; subst. cbn [map changes] in E. rewrite P in E. cbn [changes] in E. injection E as A E.
  cbn [fold_left]. assert (PK : pknow k x = if beq p q then k else Some p) by (unfold pknow, got; rewrite R1, A, P; destruct (beq p q); reflexivity).
  destruct (IH p (pknow k x) S2 E R2) as [[H1 H2]|(m & (r & l & ->) & H2)].
  - rewrite PK in *. destruct (beq p q) eqn:B.
    + apply beq_eq in B. subst q. left. split; [exact H1|]. intros y [<-|I]; [exact P|]. exact (H2 y I).
    + right. destruct xs as [|y xs _] using rev_ind.
      * exists (fst x). split; [exists (snd x), []; destruct x; reflexivity|]. rewrite H1, P. reflexivity.
      * exists (fst y). split; [exists (snd y), (x :: xs); destruct y; reflexivity|]. rewrite H1. symmetry. apply H2. apply in_or_app. right. left. reflexivity.
  - right. exists m. split; [exists r, (x :: l); reflexivity|]. exact H2.
Qed.
Lemma last_same : forall (xs : list trial) m m', last_frame xs m -> last_frame xs m' -> m = m'.
Proof. intros xs m m' (r & l & ->) (r' & l' & E). apply app_inj_tail in E. destruct E as [_ E]. congruence. Qed.
Lemma last_tail : forall (l : list trial) x y xs m, last_frame (l ++ x :: y :: xs) m -> last_frame (y :: xs) m.
Proof.
  intros l x y xs m (r & b & Q). destruct (exists_last (l := y :: xs) ltac:(discriminate)) as (af & z & Z).
  rewrite Z in Q |- *. rewrite (app_comm_cons af [z] x), app_assoc in Q. apply app_inj_tail in Q. destruct Q as [_ ->]. exists r, af. reflexivity.
Qed.
Lemma changes_after : forall l1 l2 b, Forall short l1 -> map (sends PTEC) (l1 ++ l2) = changes b (map (fun m => Some (period_of m)) (l1 ++ l2)) ->
  exists b', map (sends PTEC) l2 = changes b' (map (fun m => Some (period_of m)) l2).
Proof.
  induction l1 as [|x l1 IH]; intros l2 b S E; [exists b; exact E|]. inversion S as [|? ? (p & P & _) S2]; subst.
  cbn [app map changes] in E. rewrite P in E. injection E as _ E. exact (IH _ _ S2 E).
Qed.
Lemma tariff_all : forall xs, Forall short (map fst xs) -> map (sends PTEC) (map fst xs) = changes None (map (fun m => Some (period_of m)) (map fst xs)) ->
  Forall reached xs -> forall m, last_frame xs m ->
  period_known xs = period_of m \/ (period_known xs = None /\ forall x, In x xs -> period_of (fst x) = period_of m).
Proof.
  intros [|x xs] S E R m L; [destruct L as (r & [|? ?] & X); discriminate X|].
  inversion S as [|? ? (p & P & _) S2]; subst. inversion R as [|? ? R1 R2]; subst. cbn [map changes] in E. rewrite P in E. cbn [changes] in E. injection E as A E.
  change (period_known (x :: xs)) with (fold_left pknow xs (pknow None x)).
  assert (PK : pknow None x = None) by (unfold pknow, got; rewrite A, andb_false_r; reflexivity). rewrite PK.
  destruct (tariff_step xs p None S2 E R2) as [[H1 H2]|(m' & H1 & H2)].
  - right. split; [exact H1|]. assert (ALL : forall y, In y (x :: xs) -> period_of (fst y) = Some p) by (intros y [<-|I]; [exact P|exact (H2 y I)]).
    destruct L as (r & l & L). rewrite L in ALL |- *. assert (M : period_of m = Some p) by (apply (ALL (m, r)); apply in_or_app; right; left; reflexivity).
    intros y I. rewrite M. exact (ALL y I).
  - left. rewrite H2. destruct xs as [|y xs]; [destruct H1 as (r & [|? ?] & X); discriminate X|].
    f_equal. apply (last_same _ _ _ H1). exact (last_tail [] _ _ _ _ L).
Qed.
Lemma tariff_from : forall xs, Forall short (map fst xs) -> map (sends PTEC) (map fst xs) = changes None (map (fun m => Some (period_of m)) (map fst xs)) ->
  forall before x after m, xs = before ++ x :: after -> got PTEC x = true -> Forall reached after -> last_frame xs m -> period_known xs = period_of m.
Proof.
  intros xs S E before x after m -> G R L. rewrite map_app in E, S. apply Forall_app in S. destruct S as [S1 S2].
  destruct (changes_after _ _ _ S1 E) as (b & E'). inversion S2 as [|? ? (p & P & _) S3]; subst. cbn [map changes] in E'. rewrite P in E'. cbn [changes] in E'. injection E' as A E'.
  change (period_known (before ++ x :: after)) with (fold_left pknow (before ++ x :: after) None). rewrite fold_left_app. cbn [fold_left].
  assert (K : forall k, pknow k x = Some p) by (intros k; unfold pknow; rewrite G, P; reflexivity). rewrite K.
  destruct (tariff_step after p (Some p) S3 E' R) as [[H1 H2]|(m' & H1 & H2)].
  - etransitivity; [exact H1|]. destruct after as [|y after].
    + destruct L as (r & l & Q). apply app_inj_tail in Q. destruct Q as [_ ->]. rewrite <- P. reflexivity.
    + apply last_tail in L. destruct L as (r & l & Q). symmetry. apply (H2 (m, r)). rewrite Q. apply in_or_app. right. left. reflexivity.
  - etransitivity; [exact H2|]. destruct after as [|y after]; [destruct H1 as (r & [|? ?] & X); discriminate X|]. f_equal. apply (last_same _ _ _ H1). exact (last_tail _ _ _ _ _ L).
Qed.
Lemma tariff_lost : forall xs, Forall short (map fst xs) -> map (sends PTEC) (map fst xs) = changes None (map (fun m => Some (period_of m)) (map fst xs)) ->
  forall before m after, xs = before ++ (m, false) :: after -> Forall (fun x => period_of (fst x) = period_of m) after -> period_known xs = period_known before.
Proof.
  intros xs S E before m after -> H. rewrite map_app in E, S. apply Forall_app in S. destruct S as [S1 S2].
  destruct (changes_after _ _ _ S1 E) as (b & E'). inversion S2 as [|? ? (p & P & _) S3]; subst. cbn [map changes fst] in E', P. rewrite P in E'. cbn [changes] in E'. injection E' as _ E'.
  change (period_known (before ++ (m, false) :: after)) with (fold_left pknow (before ++ (m, false) :: after) None). rewrite fold_left_app. cbn [fold_left].
  change (fold_left pknow before None) with (period_known before). generalize (period_known before). intros k. change (pknow k (m, false)) with k.
  rewrite P in H. clear - H E'. induction after as [|y after IH]; [reflexivity|]. inversion H as [|? ? H1 H2]; subst. cbn [map changes] in E'. rewrite H1 in E'. cbn [changes] in E'.
  injection E' as A E'. cbn [fold_left]. assert (Y : pknow k y = k) by (unfold pknow, got; rewrite A, beq_refl, andb_false_r; reflexivity). rewrite Y. apply IH; auto.
Qed.

(** ** Thresholds *)
Definition hknow (k : bool) (x : trial) : bool := if got HAUT x then true else if got BAS x then false else k.
Definition crossings (ms : list moment) : list reason := filter is_threshold (map fst (flat_map (fun m => requests (m_out m)) ms)).
Definition hauts (ms : list moment) : bool := match last_crossing ms with Some HAUT => true | _ => false end.
Lemma reason_eqb_iff : forall a b, reason_eqb a b = true <-> a = b.
Proof. intros a b. split; [destruct a, b; cbn; congruence|intros ->; destruct b; reflexivity]. Qed.
Lemma sends_in : forall w m, sends w m = true <-> In w (map fst (requests (m_out m))).
Proof.
  intros w m. unfold sends. rewrite existsb_exists, in_map_iff. split.
  - intros (x & I & E). apply reason_eqb_iff in E. exists x. auto.
  - intros (x & E & I). exists x. split; [exact I|]. apply reason_eqb_iff. auto.
Qed.
Lemma hauts_snoc : forall ms m, (sends HAUT m = true -> sends BAS m = true -> False) ->
  hauts (ms ++ [m]) = if sends HAUT m then true else if sends BAS m then false else hauts ms.
Proof.
  intros ms m X. unfold hauts, last_crossing. rewrite flat_map_app. cbn [flat_map]. rewrite app_nil_r, map_app, filter_app, rev_app_distr.
  set (l := filter is_threshold (map fst (requests (m_out m)))).
  assert (L : forall w, In w l <-> is_threshold w = true /\ sends w m = true) by (intros w; unfold l; rewrite filter_In, sends_in; tauto).
  destruct (rev l) as [|w r] eqn:E.
  - assert (l = []) by (rewrite <- (rev_involutive l), E; reflexivity). rewrite H in L.
    destruct (sends HAUT m) eqn:A; [destruct (proj2 (L HAUT)); auto|]. destruct (sends BAS m) eqn:B; [destruct (proj2 (L BAS)); auto|]. reflexivity.
  - assert (I : In w l) by (rewrite in_rev, E; left; reflexivity). apply L in I. destruct I as [T S]. cbn [app hd_error].
    destruct w; try discriminate T.
    + rewrite S. reflexivity.
    + rewrite S. destruct (sends HAUT m) eqn:A; [destruct (X eq_refl S)|]. reflexivity.
Qed.
Section Thresholds.
Variable ms : list moment.
Variables low high : Z.
Hypothesis OK : forall ms1 m ms2, ms = ms1 ++ m :: ms2 ->
  let on := s_http_host (m_set m) <> [] /\ s_seuils (m_set m) = true /\ power (m_groups m) <> 0 in
  (sends HAUT m = true <-> on /\ s_seuil_haut (m_set m) <= power (m_groups m) /\ last_crossing ms1 <> Some HAUT) /\
  (sends BAS m = true <-> on /\ power (m_groups m) <= s_seuil_bas (m_set m) /\ last_crossing ms1 = Some HAUT).
Hypothesis LH : low < high.
Hypothesis SET : Forall (fun m => on s_seuils m /\ power (m_groups m) <> 0 /\ s_seuil_bas (m_set m) = low /\ s_seuil_haut (m_set m) = high) ms.
Lemma hauts_iff : forall l, hauts l = true <-> last_crossing l = Some HAUT.
Proof. intros l. unfold hauts. destruct (last_crossing l) as [[]|]; split; congruence. Qed.
Lemma at_moment : forall ms1 m ms2, ms = ms1 ++ m :: ms2 ->
  (sends HAUT m = true <-> high <= power (m_groups m) /\ hauts ms1 = false) /\ (sends BAS m = true <-> power (m_groups m) <= low /\ hauts ms1 = true).
Proof.
  intros ms1 m ms2 E. destruct (OK _ _ _ E) as [A B]. assert (I : In m ms) by (rewrite E; apply in_or_app; right; left; reflexivity).
  rewrite Forall_forall in SET. destruct (SET m I) as ([H1 H2] & P & L & H). rewrite L, H in *. pose proof (hauts_iff ms1) as Q.
  assert (Q' : hauts ms1 = false <-> last_crossing ms1 <> Some HAUT) by (rewrite <- Q; destruct (hauts ms1); split; congruence).
  rewrite A, B, Q, Q'. tauto.
Qed.
Lemma hauts_after : forall ms1 m ms2, ms = ms1 ++ m :: ms2 ->
  hauts (ms1 ++ [m]) = (if sends HAUT m then true else if sends BAS m then false else hauts ms1) /\
  (hauts (ms1 ++ [m]) = true -> low < power (m_groups m)) /\ (hauts (ms1 ++ [m]) = false -> power (m_groups m) < high).
Proof.
  intros ms1 m ms2 E. destruct (at_moment _ _ _ E) as [A B]. assert (S := hauts_snoc ms1 m). split.
  - apply S. intros X Y. apply A in X. apply B in Y. destruct X, Y. congruence.
  - rewrite S by (intros X Y; apply A in X; apply B in Y; destruct X, Y; congruence).
    destruct (sends HAUT m) eqn:X; [assert (Y := proj1 A eq_refl); split; [lia|congruence]|].
    destruct (sends BAS m) eqn:Y; [assert (Z := proj1 B eq_refl); split; [congruence|lia]|].
    destruct (hauts ms1); split; try congruence; intros _.
    + destruct (Z.le_gt_cases (power (m_groups m)) low) as [N|N]; [|lia]. assert (false = true) by (apply B; auto). congruence.
    + destruct (Z.le_gt_cases high (power (m_groups m))) as [N|N]; [|lia]. assert (false = true) by (apply A; auto). congruence.
Qed.
Lemma high_step : forall xs pre, ms = pre ++ map fst xs -> Forall reached xs -> fold_left hknow xs (hauts pre) = hauts ms.
Proof.
  induction xs as [|x xs IH]; intros pre E R; [cbn [map] in E; rewrite app_nil_r in E; cbn [fold_left]; rewrite E; reflexivity|].
  pose proof (Forall_inv R) as R1. pose proof (Forall_inv_tail R) as R2. cbn [map] in E. destruct (hauts_after _ _ _ E) as [A _]. cbn [fold_left].
  assert (K : hknow (hauts pre) x = hauts (pre ++ [fst x])) by (rewrite A; unfold hknow, got; rewrite R1; reflexivity).
  rewrite K. apply IH; [|exact R2]. rewrite <- app_assoc. exact E.
Qed.
Lemma high_all : forall xs, map fst xs = ms -> Forall reached xs -> high_known xs = hauts ms.
Proof. intros xs E R. exact (high_step xs [] (eq_sym E) R). Qed.
Lemma high_from : forall xs before x after, map fst xs = ms -> xs = before ++ x :: after -> got HAUT x = true \/ got BAS x = true -> Forall reached after ->
  high_known xs = hauts ms.
Proof.
  intros xs before x after E -> G R. change (high_known (before ++ x :: after)) with (fold_left hknow (before ++ x :: after) false).
  rewrite fold_left_app. cbn [fold_left]. rewrite map_app in E. cbn [map] in E. destruct (hauts_after _ _ _ (eq_sym E)) as [A _].
  assert (K : forall k, hknow k x = hauts (map fst before ++ [fst x])).
  { intros k. rewrite A. destruct (at_moment _ _ _ (eq_sym E)) as [X Y]. unfold hknow, got in *. destruct (snd x); cbn [andb] in *; [|destruct G; congruence].
    destruct (sends HAUT (fst x)); [reflexivity|]. destruct (sends BAS (fst x)); [reflexivity|]. destruct G; congruence. }
  rewrite K. apply high_step; [|exact R]. rewrite <- app_assoc. symmetry. exact E.
Qed.
Lemma high_says : forall xs m, map fst xs = ms -> last_frame xs m -> high_known xs = hauts ms ->
  (high_known xs = true -> low < power (m_groups m)) /\ (high_known xs = false -> power (m_groups m) < high).
Proof.
  intros xs m E (r & l & ->) K. rewrite K. rewrite map_app in E. cbn [map fst] in E. destruct (hauts_after (map fst l) m [] (eq_sym E)) as [_ A]. rewrite E in A. exact A.
Qed.
Lemma high_lost : forall xs before m after, map fst xs = ms -> xs = before ++ (m, false) :: after ->
  (sends HAUT m = true /\ Forall (fun x => low < power (m_groups (fst x))) after) \/ (sends BAS m = true /\ Forall (fun x => power (m_groups (fst x)) < high) after) ->
  high_known xs = high_known before.
Proof.
  intros xs before m after E -> H. change (high_known (before ++ (m, false) :: after)) with (fold_left hknow (before ++ (m, false) :: after) false).
  rewrite fold_left_app. cbn [fold_left]. change (fold_left hknow before false) with (high_known before). generalize (high_known before). intros k. change (hknow k (m, false)) with k.
  rewrite map_app in E. cbn [map fst] in E. symmetry in E. destruct (hauts_after _ _ _ E) as [A _].
  replace (map fst before ++ m :: map fst after) with ((map fst before ++ [m]) ++ map fst after) in E by (rewrite <- app_assoc; reflexivity).
  assert (H' : (hauts (map fst before ++ [m]) = true /\ Forall (fun x => low < power (m_groups (fst x))) after) \/
               (hauts (map fst before ++ [m]) = false /\ Forall (fun x => power (m_groups (fst x)) < high) after)).
  { replace (map fst before ++ [m] ++ map fst after) with (map fst before ++ m :: map fst after) in E by reflexivity.
    rewrite <- app_assoc in E. cbn [app] in E. destruct (at_moment _ _ _ E) as [X Y]. rewrite A. destruct H as [[S F]|[S F]]; rewrite S.
    - left. auto.
    - right. split; [|exact F]. destruct (sends HAUT m) eqn:Z; [|reflexivity]. destruct (proj1 X eq_refl), (proj1 Y S). congruence. }
  clear H A. revert E H'. generalize (map fst before ++ [m]). induction after as [|y after IH]; intros pre E H; [reflexivity|].
  cbn [map] in E. destruct (at_moment _ _ _ E) as [X Y]. destruct (hauts_after _ _ _ E) as [A _]. cbn [fold_left].
  assert (N : sends HAUT (fst y) = false /\ sends BAS (fst y) = false).
  { destruct H as [[S F]|[S F]]; pose proof (Forall_inv F) as F0; cbv beta in F0; (split; [destruct (sends HAUT (fst y)) eqn:Z; [|reflexivity]; pose proof (proj1 X eq_refl) as [? ?]; try lia; congruence|
      destruct (sends BAS (fst y)) eqn:Z; [|reflexivity]; pose proof (proj1 Y eq_refl) as [? ?]; try lia; congruence]). }
  destruct N as [N1 N2]. assert (K : hknow k y = k) by (unfold hknow, got; rewrite N1, N2, !andb_false_r; reflexivity). rewrite K.
  apply (IH (pre ++ [fst y])); [rewrite <- app_assoc; exact E|]. rewrite A, N1, N2. destruct H as [[S F]|[S F]]; apply Forall_inv_tail in F; auto.
Qed.
End Thresholds.
