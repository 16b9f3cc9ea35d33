(** The order of the texts of any two instants. *)
From Coq Require Import ZArith List Bool Lia ZifyBool.
From Verif Require Import Base Clock ClockSpec ClockProofs ClockMain.
Import ListNotations.
Open Scope Z_scope.

(** as [c79_order], with two distances to Greenwich *)
Lemma says_before : forall a b o o' t t', says a o t -> says b o' t' -> t + o * 3600 < t' + o' * 3600 -> before a b.
Proof.
  intros a b o o' t t' [n [y [m [d [h [mi [s [-> [D [Y [H1 [H2 [H3 [H4 ->]]]]]]]]]]]]]] [n' [y' [m' [d' [h' [mi' [s' [-> [D' [Y' [K1 [K2 [K3 [K4 ->]]]]]]]]]]]]]] L.
  pose proof (date_number _ _ _ _ D) as [_ [M1 M2]]. pose proof (month_length_31 y m). pose proof (year_from_1970 _ _ _ _ D).
  pose proof (date_number _ _ _ _ D') as [_ [M1' M2']]. pose proof (month_length_31 y' m'). pose proof (year_from_1970 _ _ _ _ D').
  assert (C : (n < n')%nat \/ n = n') by (assert ((n <= n')%nat \/ (n' < n)%nat) by lia; lia).
  destruct C as [C | <-].
  - pose proof (date_earlier n (n' - S n)) as X. replace (S (n' - S n) + n)%nat with n' in X by lia. rewrite D, D' in X.
    cbv beta iota delta [earlier] in X.
    destruct X as [X | [<- [X | [<- X]]]].
    + apply before_app. apply digits_before; [lia | change (10 ^ Z.of_nat 4) with 10000; lia].
    + do 2 apply before_prefix. apply before_app. apply digits_before; [lia | change (10 ^ Z.of_nat 2) with 100; lia].
    + do 4 apply before_prefix. apply before_app. apply digits_before; [lia | change (10 ^ Z.of_nat 2) with 100; lia].
  - rewrite D in D'. injection D' as <- <- <-. do 6 apply before_prefix.
    assert (X : h < h' \/ h = h' /\ (mi < mi' \/ mi = mi' /\ s < s')) by lia.
    destruct X as [X | [<- [X | [<- X]]]].
    + apply before_app. apply digits_before; [lia | change (10 ^ Z.of_nat 2) with 100; lia].
    + do 2 apply before_prefix. apply before_app. apply digits_before; [lia | change (10 ^ Z.of_nat 2) with 100; lia].
    + do 4 apply before_prefix. apply before_app. apply digits_before; [lia | change (10 ^ Z.of_nat 2) with 100; lia].
Qed.
Lemma says_tie : forall a b o o' t t', says a o t -> says b o' t' -> t + o * 3600 = t' + o' * 3600 -> o < o' -> before a b.
Proof.
  intros a b o o' t t' [n [y [m [d [h [mi [s [-> [D [Y [H1 [H2 [H3 [H4 ->]]]]]]]]]]]]]] [n' [y' [m' [d' [h' [mi' [s' [-> [D' [Y' [K1 [K2 [K3 [K4 ->]]]]]]]]]]]]]] L O.
  assert (E : n = n' /\ h = h' /\ mi = mi' /\ s = s').
  { assert (Z.of_nat n = Z.of_nat n') by lia. assert (n = n') by lia. lia. }
  destruct E as (<- & <- & <- & <-). rewrite D in D'. injection D' as <- <- <-. do 12 apply before_prefix. apply before_app.
  apply digits_before; [lia | change (10 ^ Z.of_nat 2) with 100; lia].
Qed.
Lemma before_once : forall a b, before a b -> before b a -> False.
Proof.
  intros a b [p [x [y [a' [b' [-> [-> L]]]]]]] [q [u [v [c' [d' [E1 [E2 L2]]]]]]].
  revert q E1 E2. induction p as [|z p IH]; intros [|w q] E1 E2; cbn [app] in E1, E2.
  - assert (y = u) by congruence. assert (x = v) by congruence. lia.
  - assert (y = w) by congruence. assert (x = w) by congruence. lia.
  - assert (z = u) by congruence. assert (z = v) by congruence. lia.
  - apply (IH q); congruence.
Qed.
Lemma c80_exactly : forall t t' a b, 0 <= t < t' -> t' < 253402300800 - 7200 -> iso8601 t = Some a -> iso8601 t' = Some b ->
  (before a b <-> ~ (summer t /\ ~ summer t' /\ t' - t <= 3600)) /\ (before a b \/ before b a).
Proof.
  intros t t' a b H H' A B.
  destruct (c79 t) as (a1 & o & A1 & _ & SA & O2 & O1); [unfold last_instant; lia|].
  destruct (c79 t') as (b1 & o' & B1 & _ & SB & P2 & P1); [unfold last_instant; lia|].
  assert (a1 = a) by congruence. assert (b1 = b) by congruence. subst a1 b1.
  assert (C : summer t \/ ~ summer t) by (destruct (offset_spec t ltac:(lia)) as [[_ X] | [_ X]]; auto).
  assert (C' : summer t' \/ ~ summer t') by (destruct (offset_spec t' ltac:(lia)) as [[_ X] | [_ X]]; auto).
  assert (FW : t + o * 3600 < t' + o' * 3600 -> (before a b <-> ~ (summer t /\ ~ summer t' /\ t' - t <= 3600)) /\ (before a b \/ before b a)).
  { intros L. pose proof (says_before a b o o' t t' SA SB L) as X. split; [|auto]. split; [|auto]. intros _ [S [S' G]]. rewrite (O2 S), (P1 S') in L. lia. }
  destruct C as [S | S], C' as [S' | S'].
  - apply FW. rewrite (O2 S), (P2 S'). lia.
  - destruct (Z_le_dec (t' - t) 3600) as [G | G]; [|apply FW; rewrite (O2 S), (P1 S'); lia].
    assert (X : before b a).
    { destruct (Z.eq_dec (t' - t) 3600) as [Q | Q].
      - apply (says_tie b a o' o t' t SB SA); rewrite (O2 S), (P1 S'); lia.
      - apply (says_before b a o' o t' t SB SA). rewrite (O2 S), (P1 S'). lia. }
    split; [|auto]. split; [intros Y; exfalso; exact (before_once a b Y X) | intros N; exfalso; tauto].
  - apply FW. rewrite (O1 S), (P2 S'). lia.
  - apply FW. rewrite (O1 S), (P1 S'). lia.
Qed.
