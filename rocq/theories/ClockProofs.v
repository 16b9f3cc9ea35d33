(** Proofs about the local time. *)
From Coq Require Import ZArith List Bool Lia ZifyBool.
From Verif Require Import Base JsonBuildFacts Clock ClockSpec.
Import ListNotations.
Open Scope Z_scope.

(** ** Years from March to February *)
(** days from 0000-03-01 to March 1st of the year Y *)
Definition A (Y : Z) : Z := 365 * Y + Y / 4 - Y / 100 + Y / 400.

Lemma era_year : forall e, 0 <= e < 146097 ->
  let y := (e - e / 1460 + e / 36524 - e / 146096) / 365 in
  0 <= y < 400 /\ 365 * y + y / 4 - y / 100 <= e < 365 * (y + 1) + (y + 1) / 4 - (y + 1) / 100 + (y + 1) / 400.
Proof.
  intros e H y. subst y. repeat split; Z.div_mod_to_equations; lia.
Qed.
Lemma A_len : forall Y, A (Y + 1) - A Y = 365 + (if leapb (Y + 1) then 1 else 0).
Proof.
  intros Y. unfold A, leapb.
  destruct ((Y + 1) mod 4 =? 0) eqn:E4, ((Y + 1) mod 100 =? 0) eqn:E1, ((Y + 1) mod 400 =? 0) eqn:E0; cbn [andb orb negb];
    Z.div_mod_to_equations; lia.
Qed.
Lemma A_len_bounds : forall Y, 365 <= A (Y + 1) - A Y <= 366.
Proof. intros Y. rewrite A_len. destruct (leapb (Y + 1)); lia. Qed.
Lemma A_mono : forall Y Y', Y <= Y' -> A Y + 365 * (Y' - Y) <= A Y'.
Proof. intros Y Y' H. unfold A. Z.div_mod_to_equations. lia. Qed.
Lemma A_unique : forall Y Y' D, A Y <= D < A (Y + 1) -> A Y' <= D < A (Y' + 1) -> Y = Y'.
Proof.
  intros Y Y' D H H'. destruct (Z.lt_trichotomy Y Y') as [L | [E | L]]; [|exact E|].
  - pose proof (A_mono (Y + 1) Y'). lia.
  - pose proof (A_mono (Y' + 1) Y). lia.
Qed.

(** The date of a day of such a year: (0 or 1 more year, month from 1, day) *)
Definition fields (yd : Z) : Z * Z * Z :=
  let month := (5 * yd + 2) / 153 in
  let day := yd - (153 * month + 2) / 5 + 1 in
  if month <? 10 then (0, month + 3, day) else (1, month - 9, day).
Definition in_year (Y : Z) (f : Z * Z * Z) : date := let '(b, m, d) := f in (Y + b, m, d).
Definition civil1 (days : Z) : date := let '(y, m, d) := civil days in (y, m + 1, d).

Lemma civil_fields : forall days, exists Y, A Y <= days + 719468 < A (Y + 1) /\
  civil1 days = in_year Y (fields (days + 719468 - A Y)).
Proof.
  intros days. unfold civil1, civil. cbv zeta. set (D := days + 719468). set (era := D / 146097).
  assert (R : 0 <= D - era * 146097 < 146097) by (subst era; Z.div_mod_to_equations; lia).
  set (e := D - era * 146097) in *. pose proof (era_year e R) as [Y1 Y2]. cbv zeta in *.
  set (y := (e - e / 1460 + e / 36524 - e / 146096) / 365) in *.
  assert (EA : A (y + era * 400) = era * 146097 + (365 * y + y / 4 - y / 100)).
  { unfold A. assert (y / 400 = 0) by (apply Z.div_small; lia). Z.div_mod_to_equations. lia. }
  assert (EB : A (y + era * 400 + 1) = era * 146097 + (365 * (y + 1) + (y + 1) / 4 - (y + 1) / 100 + (y + 1) / 400)).
  { unfold A. Z.div_mod_to_equations. lia. }
  exists (y + era * 400). split; [subst e; lia|].
  replace (D - A (y + era * 400)) with (e - (365 * y + y / 4 - y / 100)) by (subst e; lia).
  set (yd := e - (365 * y + y / 4 - y / 100)) in *.
  assert (0 <= yd <= 365).
  { pose proof (A_len_bounds (y + era * 400)). subst yd. lia. }
  unfold fields, in_year. set (month := (5 * yd + 2) / 153).
  assert (0 <= month <= 11) by (subst month; Z.div_mod_to_equations; lia).
  destruct (Z.ltb_spec month 10).
  - replace (month + 2 <=? 1) with false by lia. do 2 f_equal; lia.
  - replace (month - 10 <=? 1) with true by lia. do 2 f_equal; lia.
Qed.
Lemma civil_at : forall Y yd, 0 <= yd -> A Y + yd < A (Y + 1) -> civil1 (A Y + yd - 719468) = in_year Y (fields yd).
Proof.
  intros Y yd H1 H2. destruct (civil_fields (A Y + yd - 719468)) as [Y' [B E]].
  assert (Y' = Y) by (apply (A_unique Y' Y (A Y + yd)); lia). subst Y'.
  rewrite E. do 2 f_equal. lia.
Qed.

(** ** One day after another *)
Definition all_days (P : Z -> bool) : bool := forallb P (map Z.of_nat (seq 0 366)).
Lemma all_days_spec : forall P, all_days P = true -> forall yd, 0 <= yd <= 365 -> P yd = true.
Proof.
  intros P H yd R. unfold all_days in H. rewrite forallb_forall in H. apply H.
  apply in_map_iff. exists (Z.to_nat yd). split; [lia|]. apply in_seq. lia.
Qed.
Definition mlen (lf : bool) (m : Z) : Z := nth (Z.to_nat (m - 1)) [31; if lf then 29 else 28; 31; 30; 31; 30; 31; 31; 30; 31; 30; 31] 0.
Definition next (lf : bool) (f : Z * Z * Z) : Z * Z * Z :=
  let '(b, m, d) := f in
  if d <? mlen lf m then (b, m, d + 1) else if m <? 12 then (b, m + 1, 1) else (b + 1, 1, 1).
Definition same3 (f g : Z * Z * Z) : bool :=
  let '(b, m, d) := f in let '(b', m', d') := g in (b =? b') && (m =? m') && (d =? d').
Lemma same3_spec : forall f g, same3 f g = true -> f = g.
Proof. intros [[b m] d] [[b' m'] d'] H. cbn in H. repeat f_equal; lia. Qed.
Lemma fields_next : forall (lf : bool) yd, 0 <= yd -> yd + 1 < 365 + (if lf then 1 else 0) -> fields (yd + 1) = next lf (fields yd).
Proof.
  assert (C : forall lf : bool, all_days (fun yd => implb (yd + 1 <? 365 + (if lf then 1 else 0)) (same3 (fields (yd + 1)) (next lf (fields yd)))) = true)
    by (intros [|]; vm_compute; reflexivity).
  intros lf yd H1 H2. pose proof (all_days_spec _ (C lf) yd ltac:(destruct lf; lia)) as E. cbv beta in E.
  replace (yd + 1 <? _) with true in E by lia. apply same3_spec. exact E.
Qed.
Lemma fields_ok : forall yd, 0 <= yd <= 365 -> let '(b, m, d) := fields yd in
  (b = 0 /\ 3 <= m <= 12 \/ b = 1 /\ 1 <= m <= 2) /\ 1 <= d <= mlen true m.
Proof.
  intros yd H.
  assert (C : all_days (fun yd => let '(b, m, d) := fields yd in
     ((b =? 0) && (3 <=? m) && (m <=? 12) || (b =? 1) && (1 <=? m) && (m <=? 2)) && (1 <=? d) && (d <=? mlen true m)) = true)
    by (vm_compute; reflexivity).
  pose proof (all_days_spec _ C yd H) as E. cbv beta in E. destruct (fields yd) as [[b m] d]. lia.
Qed.
Lemma mlen_leap : forall y m lf, (m = 2 -> lf = leapb y) -> mlen lf m = month_length y m.
Proof.
  intros y m lf H. unfold mlen, month_length. destruct (Z.eq_dec m 2) as [->|N]; [rewrite H; reflexivity|].
  destruct (Z.to_nat (m - 1)) as [|[|n]] eqn:E; [reflexivity|lia|reflexivity].
Qed.
Lemma in_year_next : forall Y f, (let '(b, m, d) := f in b = 0 /\ 3 <= m <= 12 \/ b = 1 /\ 1 <= m <= 2) ->
  in_year Y (next (leapb (Y + 1)) f) = tomorrow (in_year Y f).
Proof.
  intros Y [[b m] d] H. unfold next, in_year, tomorrow.
  rewrite (mlen_leap (Y + b)) by (intros ->; f_equal; lia).
  destruct (d <? month_length (Y + b) m); [reflexivity|]. destruct (m <? 12); [reflexivity|]. do 2 f_equal. lia.
Qed.
Lemma civil_next : forall n, civil1 (n + 1) = tomorrow (civil1 n).
Proof.
  intros n. destruct (civil_fields n) as [Y [B E]]. rewrite E. set (yd := n + 719468 - A Y) in *.
  pose proof (A_len Y) as L.
  assert (R : 0 <= yd <= 365) by (subst yd; destruct (leapb (Y + 1)); lia).
  pose proof (fields_ok yd R) as F.
  destruct (Z_lt_dec (n + 1 + 719468) (A (Y + 1))) as [I | O].
  - replace (n + 1) with (A Y + (yd + 1) - 719468) by (subst yd; lia).
    rewrite civil_at by (subst yd; lia). rewrite (fields_next (leapb (Y + 1))) by (subst yd; lia).
    apply in_year_next. destruct (fields yd) as [[b m] d]. tauto.
  - replace (n + 1) with (A (Y + 1) + 0 - 719468) by lia.
    pose proof (A_len_bounds (Y + 1)). rewrite civil_at by lia. change (fields 0) with (0, 3, 1).
    destruct (leapb (Y + 1)) eqn:LF.
    + replace yd with 365 by (subst yd; lia). change (fields 365) with (1, 2, 29).
      unfold in_year, tomorrow, month_length. rewrite LF. cbn -[Z.add]. rewrite Z.add_0_r. reflexivity.
    + replace yd with 364 by (subst yd; lia). change (fields 364) with (1, 2, 28).
      unfold in_year, tomorrow, month_length. rewrite LF. cbn -[Z.add]. rewrite Z.add_0_r. reflexivity.
Qed.
Lemma civil_date : forall n, civil1 (Z.of_nat n) = date_of n.
Proof.
  induction n as [|n IH]; [reflexivity|].
  replace (Z.of_nat (S n)) with (Z.of_nat n + 1) by lia. rewrite civil_next, IH. reflexivity.
Qed.

(** A date tells its day number *)
Definition back (m d : Z) : Z := d - 1 + nth (Z.to_nat (m - 1)) [306; 337; 0; 31; 61; 92; 122; 153; 184; 214; 245; 275] 0.
Lemma fields_back : forall yd, 0 <= yd <= 365 -> let '(b, m, d) := fields yd in yd = back m d.
Proof.
  intros yd H.
  assert (C : all_days (fun yd => let '(b, m, d) := fields yd in yd =? back m d) = true) by (vm_compute; reflexivity).
  pose proof (all_days_spec _ C yd H) as E. cbv beta in E. destruct (fields yd) as [[b m] d]. lia.
Qed.
Definition march_year (y m : Z) : Z := if m <? 3 then y - 1 else y.
Lemma date_number : forall n y m d, date_of n = (y, m, d) ->
  Z.of_nat n = A (march_year y m) + back m d - 719468 /\ 1 <= m <= 12 /\ 1 <= d <= month_length y m.
Proof.
  intros n y m d H. rewrite <- civil_date in H. destruct (civil_fields (Z.of_nat n)) as [Y [B E]]. rewrite H in E.
  set (yd := Z.of_nat n + 719468 - A Y) in *. pose proof (A_len_bounds Y) as L.
  assert (R : 0 <= yd <= 365) by (subst yd; lia).
  pose proof (fields_ok yd R) as F. pose proof (fields_back yd R) as K.
  destruct (fields yd) as [[b m'] d'] eqn:EF. cbn in E. injection E as -> <- <-.
  assert (M : march_year (Y + b) m = Y) by (unfold march_year; destruct (m <? 3) eqn:?; lia).
  rewrite M. split; [subst yd; lia|]. split; [lia|].
  destruct (Z.eq_dec m 2) as [->|N].
  - split; [lia|]. unfold month_length. change (Z.to_nat (2 - 1)) with 1%nat. cbn [nth].
    assert (b = 1) by lia. subst b. pose proof (A_len Y) as LL.
    assert (yd = d + 336) by (rewrite K; unfold back; change (Z.to_nat (2 - 1)) with 1%nat; cbn [nth]; lia).
    destruct (leapb (Y + 1)); subst yd; lia.
  - rewrite <- (mlen_leap _ _ true) by lia. tauto.
Qed.
Lemma date_unique : forall n n', date_of n = date_of n' -> n = n'.
Proof.
  intros n n' H. destruct (date_of n') as [[y m] d] eqn:E.
  pose proof (date_number _ _ _ _ H) as [H1 _]. pose proof (date_number _ _ _ _ E) as [H2 _]. lia.
Qed.
