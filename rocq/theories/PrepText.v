(** Proofs about the pages for restricted clients (C75). *)
From Coq Require Import ZArith List Bool Lia.
From Verif Require Import Base BaseFacts Erfs Prep PrepSpec.
Import ListNotations.
Open Scope Z_scope.

Lemma starts_spec : forall w l, starts w l = true <-> exists r, l = w ++ r.
Proof.
  intros w l. unfold starts. rewrite beq_eq. split.
  - intro H. exists (skipn (length w) l). rewrite <- H at 1. symmetry. apply firstn_skipn.
  - intros [r ->]. apply firstn_app_exact.
Qed.
Lemma find_some : forall w l n, find_in w l = Some n ->
  exists a r, l = a ++ w ++ r /\ length a = n /\ forall a' r', l = a' ++ w ++ r' -> (n <= length a')%nat.
Proof.
  intros w l. induction l as [|c l IH]; intros n H; cbn [find_in] in H.
  - destruct (starts w []) eqn:S; [|discriminate]. inversion H. apply starts_spec in S. destruct S as [r S].
    exists [], r. split; [exact S|]. split; [reflexivity|]. intros. lia.
  - destruct (starts w (c :: l)) eqn:S.
    + inversion H. apply starts_spec in S. destruct S as [r S]. exists [], r. split; [exact S|]. split; [reflexivity|]. intros. lia.
    + destruct (find_in w l) as [k|]; [|discriminate]. cbn in H. inversion H. subst n.
      destruct (IH _ eq_refl) as (a & r & E & L & M). exists (c :: a), r. split; [cbn; congruence|].
      split; [cbn; congruence|]. intros a' r' E'. destruct a' as [|c' a'].
      * exfalso. assert (starts w (c :: l) = true) by (apply starts_spec; exists r'; exact E'). congruence.
      * cbn in E'. injection E' as _ E'. apply M in E'. cbn. lia.
Qed.
Lemma find_none : forall w l, find_in w l = None <-> ~ occurs w l.
Proof.
  intros w l. induction l as [|c l IH]; cbn [find_in].
  - destruct (starts w []) eqn:S.
    + apply starts_spec in S. split; [discriminate|]. intro N. exfalso. apply N. destruct S as [r S]. exists [], r. exact S.
    + split; [|reflexivity]. intros _ (a & b & E). destruct a; [|discriminate]. assert (starts w [] = true) by (apply starts_spec; exists b; exact E). congruence.
  - destruct (starts w (c :: l)) eqn:S.
    + apply starts_spec in S. split; [discriminate|]. intro N. exfalso. apply N. destruct S as [r S]. exists [], r. exact S.
    + split.
      * intros H (a & b & E). destruct IH as [IH _]. assert (F : find_in w l = None) by (destruct (find_in w l); [discriminate|reflexivity]). destruct a as [|c' a].
        -- assert (starts w (c :: l) = true) by (apply starts_spec; exists b; exact E). congruence.
        -- cbn in E. injection E as _ E. apply (IH F). exists a, b. exact E.
      * intro N. destruct IH as [_ IH]. rewrite IH; [reflexivity|]. intros (a & b & E). apply N. exists (c :: a), b. cbn. congruence.
Qed.
(** The marks have only one '<', their first character: two occurrences cannot overlap. *)
Lemma straddle : forall t s l a r, ~ In 60 t -> s ++ (60 :: t) ++ l = a ++ (60 :: t) ++ r -> (length a < length s)%nat -> occurs (60 :: t) s.
Proof.
  intros t s l a r N E L. destruct (le_lt_dec (length a + length (60%Z :: t)) (length s)) as [H|H].
  - exists a, (skipn (length (a ++ 60 :: t)) s).
    assert (F : firstn (length (a ++ 60 :: t)) (s ++ (60 :: t) ++ l) = a ++ 60 :: t).
    { rewrite E. rewrite app_assoc. apply firstn_app_exact. }
    rewrite firstn_app in F. replace (length (a ++ 60%Z :: t) - length s)%nat with 0%nat in F by (rewrite app_length; lia).
    cbn [firstn] in F. rewrite app_nil_r in F. rewrite app_assoc. rewrite <- F at 1. symmetry. apply firstn_skipn.
  - exfalso. apply N.
    assert (I : nth_error (s ++ (60 :: t) ++ l) (length s) = Some 60).
    { rewrite nth_error_app2 by lia. rewrite Nat.sub_diag. reflexivity. }
    rewrite E in I. rewrite nth_error_app2 in I by lia. rewrite nth_error_app1 in I by lia.
    destruct (length s - length a)%nat as [|k] eqn:K; [lia|]. cbn [nth_error] in I. apply nth_error_In in I. exact I.
Qed.
Lemma on_shape : exists t, mark_on = 60 :: t /\ ~ In 60 t.
Proof. eexists. split; [reflexivity|]. cbn. intuition discriminate. Qed.
Lemma off_shape : exists t, mark_off = 60 :: t /\ ~ In 60 t.
Proof. eexists. split; [reflexivity|]. cbn. intuition discriminate. Qed.
Lemma on_straddle : forall s l a r, s ++ mark_on ++ l = a ++ mark_on ++ r -> (length a < length s)%nat -> occurs mark_on s.
Proof. destruct on_shape as (t & -> & N). intros. eapply straddle; eauto. Qed.
Lemma off_straddle : forall s l a r, s ++ mark_off ++ l = a ++ mark_off ++ r -> (length a < length s)%nat -> occurs mark_off s.
Proof. destruct off_shape as (t & -> & N). intros. eapply straddle; eauto. Qed.

Lemma cut_skip : forall k l, cut k l = cut 0 (skipn k l).
Proof.
  induction k as [|k IH]; intros l; [reflexivity|]. destruct l as [|c l]; [reflexivity|]. cbn [cut skipn]. apply IH.
Qed.
Lemma cut_step : forall c l, starts mark_on (c :: l) = false \/ find_in mark_off (skipn (length mark_on) (c :: l)) = None ->
  cut 0 (c :: l) = c :: cut 0 l.
Proof. intros c l [H|H]; cbn [cut]; rewrite H; [reflexivity|]. destruct (starts mark_on (c :: l)); reflexivity. Qed.
Lemma cut_part : forall s l, ~ occurs mark_off s -> cut 0 (mark_on ++ s ++ mark_off ++ l) = cut 0 l.
Proof.
  intros s l N.
  assert (F : find_in mark_off (s ++ mark_off ++ l) = Some (length s)).
  { destruct (find_in mark_off (s ++ mark_off ++ l)) as [n|] eqn:F.
    - destruct (find_some _ _ _ F) as (a & r & E & L & MM). specialize (MM _ _ eq_refl). f_equal.
      destruct (le_lt_dec (length s) (length a)); [lia|]. exfalso. apply N. eapply off_straddle; eauto.
    - apply find_none in F. exfalso. apply F. exists s, l. reflexivity. }
  assert (ST : starts mark_on (mark_on ++ s ++ mark_off ++ l) = true) by (apply starts_spec; exists (s ++ mark_off ++ l); reflexivity).
  assert (SK : skipn (length mark_on) (mark_on ++ s ++ mark_off ++ l) = s ++ mark_off ++ l) by apply skipn_app_exact.
  assert (SL : skipn (length (mark_on ++ s ++ mark_off)) (mark_on ++ s ++ mark_off ++ l) = l).
  { replace (mark_on ++ s ++ mark_off ++ l) with ((mark_on ++ s ++ mark_off) ++ l) by (rewrite <- !app_assoc; reflexivity). apply skipn_app_exact. }
  rewrite !app_length in SL. remember (mark_on ++ s ++ mark_off ++ l) as m eqn:E.
  destruct m as [|c m']; [discriminate|]. cbn [cut]. rewrite ST, SK, F. rewrite cut_skip. f_equal.
  replace (length mark_on + (length s + length mark_off))%nat with (S (length mark_on + length s + length mark_off - 1)) in SL by (cbn; lia).
  exact SL.
Qed.
Lemma cut_public : forall a l, ~ occurs mark_on a -> cut 0 (a ++ mark_on ++ l) = a ++ cut 0 (mark_on ++ l).
Proof.
  induction a as [|c a IH]; intros l N; [rewrite !app_nil_l; reflexivity|]. rewrite <- !app_comm_cons. rewrite cut_step.
  - f_equal. apply IH. intros (x & y & E). apply N. exists (c :: x), y. rewrite E. reflexivity.
  - left. destruct (starts mark_on (c :: a ++ mark_on ++ l)) eqn:S; [|reflexivity]. apply starts_spec in S. destruct S as [r S].
    exfalso. apply N. apply (on_straddle (c :: a) l [] r S). cbn. lia.
Qed.
Lemma cut_all : forall l, ~ (exists a b c, l = a ++ mark_on ++ b ++ mark_off ++ c) -> cut 0 l = l.
Proof.
  induction l as [|c l IH]; intro N; [reflexivity|]. rewrite cut_step.
  - f_equal. apply IH. intros (x & y & z & E). apply N. exists (c :: x), y, z. rewrite E. reflexivity.
  - destruct (starts mark_on (c :: l)) eqn:S; [right|left; reflexivity]. apply find_none. intros (x & y & E). apply N.
    apply starts_spec in S. destruct S as [r S]. rewrite S in E. rewrite skipn_app_exact in E. exists [], x, y. rewrite S, E. reflexivity.
Qed.
Lemma cut_seen : forall l r, seen l r -> cut 0 l = r.
Proof.
  intros l r H. induction H as [l N|a s l r NA NS H IH].
  - apply cut_all. exact N.
  - fold mark_on mark_off in *. rewrite cut_public by exact NA. rewrite cut_part by exact NS. rewrite IH. reflexivity.
Qed.
(** Every page can be read so. *)
Lemma seen_total : forall n l, (length l <= n)%nat -> exists r, seen l r.
Proof.
  induction n as [|n IH]; intros l L.
  - destruct l; [|cbn in L; lia]. exists []. apply seen_all. intros (a & b & c & E). destruct a; discriminate.
  - destruct (find_in mark_on l) as [k|] eqn:F.
    + destruct (find_some _ _ _ F) as (a & r & E & LA & M).
      assert (NA : ~ occurs mark_on a).
      { intros (x & y & EA). subst a. rewrite E in M. specialize (M x (y ++ mark_on ++ r)). rewrite <- !app_assoc in M. specialize (M eq_refl).
        rewrite !app_length in LA. cbn in LA. lia. }
      destruct (find_in mark_off r) as [j|] eqn:G.
      * destruct (find_some _ _ _ G) as (s & t & E2 & LS & M2).
        assert (NS : ~ occurs mark_off s).
        { intros (x & y & EA). subst s. rewrite E2 in M2. specialize (M2 x (y ++ mark_off ++ t)). rewrite <- !app_assoc in M2. specialize (M2 eq_refl).
          rewrite !app_length in LS. cbn in LS. lia. }
        destruct (IH t) as [u U].
        { subst l. rewrite E2 in L. rewrite !app_length in L. cbn in L. lia. }
        exists (a ++ u). rewrite E, E2. apply seen_part; assumption.
      * apply find_none in G. exists l. apply seen_all. intros (x & y & z & EX). fold mark_on mark_off in EX.
        assert (LX : (k <= length x)%nat) by (eapply M; exact EX).
        apply G. rewrite E in EX.
        exists (skipn (length a + length mark_on) (x ++ mark_on ++ y)), z.
        assert (K : skipn (length a + length mark_on) (a ++ mark_on ++ r) = r).
        { replace (a ++ mark_on ++ r) with ((a ++ mark_on) ++ r) by (rewrite <- app_assoc; reflexivity). rewrite <- app_length. apply skipn_app_exact. }
        rewrite <- K at 1. rewrite EX. replace (x ++ mark_on ++ y ++ mark_off ++ z) with ((x ++ mark_on ++ y) ++ mark_off ++ z) by (rewrite <- !app_assoc; reflexivity).
        rewrite skipn_app. f_equal. replace (length a + length mark_on - length (x ++ mark_on ++ y))%nat with 0%nat by (rewrite !app_length; lia). reflexivity.
    + apply find_none in F. exists l. apply seen_all. intros (x & y & z & EX). apply F. exists x, (y ++ mark_off ++ z). exact EX.
Qed.
Lemma c75_exact : forall l r, cut 0 l = r <-> seen l r.
Proof.
  intros l r. split; [|apply cut_seen]. intro E. destruct (seen_total (length l) l (le_n _)) as [u U].
  rewrite <- E. rewrite (cut_seen _ _ U). exact U.
Qed.
Lemma marked_seen : forall first parts, well_marked first parts -> seen (page_of first parts) (public_of first parts).
Proof.
  intros first parts. revert first. induction parts as [|[s p] parts IH]; intros first [NF NP].
  - unfold page_of, public_of. cbn. rewrite app_nil_r. apply seen_all. intros (x & y & z & E). apply NF. exists x, (y ++ mark_off ++ z). exact E.
  - apply Forall_cons_iff in NP. destruct NP as [[NS NX] NP]. unfold page_of, public_of. cbn [flat_map fst snd]. rewrite <- !app_assoc.
    apply seen_part; [exact NF|exact NS|]. apply (IH p). split; [exact NX|exact NP].
Qed.
Lemma c75_marked : forall first parts, well_marked first parts -> cut 0 (page_of first parts) = public_of first parts.
Proof. intros. apply c75_exact. apply marked_seen. assumption. Qed.
Lemma c75_private : forall first parts parts', well_marked first parts -> well_marked first parts' -> map snd parts = map snd parts' ->
  cut 0 (page_of first parts) = cut 0 (page_of first parts').
Proof.
  intros first parts parts' W W' E. rewrite !c75_marked by assumption. unfold public_of. f_equal. rewrite !flat_map_concat_map. congruence.
Qed.
