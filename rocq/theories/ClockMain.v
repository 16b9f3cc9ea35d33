(** Proofs about the local time, continued: summer time, the text. *)
From Coq Require Import ZArith List Bool Lia ZifyBool.
From Verif Require Import Base JsonBuildFacts Json Clock ClockSpec ClockProofs.
Import ListNotations.
Open Scope Z_scope.

Lemma gmtime_date : forall t, 0 <= t -> let g := gmtime t in
  date_of (Z.to_nat (t / 86400)) = (tm_year g, tm_mon g + 1, tm_mday g) /\
  0 <= tm_hour g < 24 /\ 0 <= tm_min g < 60 /\ 0 <= tm_sec g < 60 /\
  t = t / 86400 * 86400 + tm_hour g * 3600 + tm_min g * 60 + tm_sec g.
Proof.
  intros t H g. assert (P : 0 <= t / 86400) by (apply Z.div_pos; lia).
  rewrite <- civil_date, Z2Nat.id by exact P. unfold civil1. subst g. unfold gmtime.
  destruct (civil (t / 86400)) as [[y m] d]. cbn [tm_year tm_mon tm_mday tm_hour tm_min tm_sec].
  split; [reflexivity|]. repeat split; Z.div_mod_to_equations; lia.
Qed.

(** ** Summer time *)
Lemma isleap_leapb : forall y, isleap y = leapb y.
Proof. reflexivity. Qed.
Lemma march_first : forall y, year_days y + days_before y 2 = A y - 719468.
Proof.
  intros y. assert (B : days_before y 2 = 31 + (if leapb y then 29 else 28)) by reflexivity. rewrite B.
  pose proof (A_len (y - 1)) as L. replace (y - 1 + 1) with y in L by lia.
  assert (E : year_days y = A (y - 1) + 306 - 719468) by (unfold year_days, A; Z.div_mod_to_equations; lia).
  rewrite E. destruct (leapb y); lia.
Qed.
Lemma october_first : forall y, year_days y + days_before y 9 = A y + 214 - 719468.
Proof.
  intros y. pose proof (march_first y) as M.
  assert (E : days_before y 9 = days_before y 2 + 214).
  { unfold days_before. change (Z.of_nat 8) with 8. change (Z.of_nat 7) with 7. change (Z.of_nat 6) with 6.
    change (Z.of_nat 5) with 5. change (Z.of_nat 4) with 4. change (Z.of_nat 3) with 3. change (Z.of_nat 2) with 2.
    change (mon_lengths y 8) with 30. change (mon_lengths y 7) with 31. change (mon_lengths y 6) with 31.
    change (mon_lengths y 5) with 30. change (mon_lengths y 4) with 31. change (mon_lengths y 3) with 30.
    change (mon_lengths y 2) with 31. lia. }
  lia.
Qed.
(** the day of the change within a month of 31 days *)
Definition sunday_of (days : Z) : Z :=
  let wday_diff := 0 - (4 + days) mod 7 in
  let wday_diff := if wday_diff <? 0 then wday_diff + 7 else wday_diff in
  back_in_month 5 ((5 - 1) * 7 + wday_diff) 31.
Lemma sunday_of_spec : forall days, (4 + (days + sunday_of days)) mod 7 = 0 /\ 24 <= sunday_of days <= 30.
Proof.
  intros days. unfold sunday_of. cbv zeta.
  assert (R : 0 <= (4 + days) mod 7 < 7) by (apply Z.mod_pos_bound; lia).
  assert (D : exists k, 4 + days = 7 * k + (4 + days) mod 7) by (exists ((4 + days) / 7); apply Z.div_mod; lia).
  destruct D as [k D]. set (w := (4 + days) mod 7) in *.
  assert (W : w = 0 \/ w = 1 \/ w = 2 \/ w = 3 \/ w = 4 \/ w = 5 \/ w = 6) by lia. clearbody w.
  destruct W as [E | [E | [E | [E | [E | [E | E]]]]]]; rewrite E in D |- *;
    match goal with |- context [back_in_month 5 ?x 31] => let v := eval vm_compute in (back_in_month 5 x 31) in
      change (back_in_month 5 x 31) with v end;
    (split; [|lia]); Z.div_mod_to_equations; lia.
Qed.
Lemma date_at : forall y yd, 1970 <= y -> 0 <= yd <= 300 ->
  0 <= A y + yd - 719468 /\ date_of (Z.to_nat (A y + yd - 719468)) = in_year y (fields yd).
Proof.
  intros y yd H1 H2. pose proof (A_mono 1970 y H1) as M. change (A 1970) with 719527 in M.
  split; [lia|]. rewrite <- civil_date, Z2Nat.id by lia. apply civil_at; [lia|]. pose proof (A_len_bounds y). lia.
Qed.
Lemma change_summer : forall y, 1970 <= y -> exists a, last_sunday y 3 a /\ change y rule_summer = Z.of_nat a * 86400 + 3600.
Proof.
  intros y H. set (days := A y - 719468). pose proof (sunday_of_spec days) as [S1 S2].
  destruct (date_at y (sunday_of days) H ltac:(lia)) as [P D].
  exists (Z.to_nat (A y + sunday_of days - 719468)). split.
  - split.
    + unfold weekday. rewrite Z2Nat.id by exact P. rewrite <- S1. do 2 f_equal. subst days. lia.
    + exists (1 + sunday_of days). split; [|change (month_length y 3) with 31; lia]. rewrite D.
      assert (C : all_days (fun yd => implb (yd <=? 30) (same3 (fields yd) (0, 3, 1 + yd))) = true) by (vm_compute; reflexivity).
      pose proof (all_days_spec _ C (sunday_of days) ltac:(lia)) as E. cbv beta in E.
      replace (sunday_of days <=? 30) with true in E by lia. apply same3_spec in E. rewrite E. cbn. rewrite Z.add_0_r. reflexivity.
  - rewrite Z2Nat.id by exact P. unfold change. change (Z.to_nat (r_m rule_summer - 1)) with 2%nat. rewrite march_first.
    fold days. change (mon_lengths y (r_m rule_summer - 1)) with 31. change (r_d rule_summer) with 0.
    change (r_n rule_summer) with 5. change (r_s rule_summer) with 7200. change (r_offset rule_summer) with (-3600).
    fold (sunday_of days). unfold days. lia.
Qed.
Lemma change_winter : forall y, 1970 <= y -> exists a, last_sunday y 10 a /\ change y rule_winter = Z.of_nat a * 86400 + 3600.
Proof.
  intros y H. set (days := A y + 214 - 719468). pose proof (sunday_of_spec days) as [S1 S2].
  destruct (date_at y (214 + sunday_of days) H ltac:(lia)) as [P D].
  exists (Z.to_nat (A y + (214 + sunday_of days) - 719468)). split.
  - split.
    + unfold weekday. rewrite Z2Nat.id by exact P. rewrite <- S1. do 2 f_equal. subst days. lia.
    + exists (1 + sunday_of days). split; [|change (month_length y 10) with 31; lia]. rewrite D.
      assert (C : all_days (fun yd => implb (yd <=? 30) (same3 (fields (214 + yd)) (0, 10, 1 + yd))) = true) by (vm_compute; reflexivity).
      pose proof (all_days_spec _ C (sunday_of days) ltac:(lia)) as E. cbv beta in E.
      replace (sunday_of days <=? 30) with true in E by lia. apply same3_spec in E. rewrite E. cbn. rewrite Z.add_0_r. reflexivity.
  - rewrite Z2Nat.id by exact P. unfold change. change (Z.to_nat (r_m rule_winter - 1)) with 9%nat. rewrite october_first.
    fold days. change (mon_lengths y (r_m rule_winter - 1)) with 31. change (r_d rule_winter) with 0.
    change (r_n rule_winter) with 5. change (r_s rule_winter) with 10800. change (r_offset rule_winter) with (-7200).
    fold (sunday_of days). unfold days. lia.
Qed.
Lemma last_sunday_unique : forall y m a b, last_sunday y m a -> last_sunday y m b -> a = b.
Proof.
  intros y m a b [W1 [d1 [E1 L1]]] [W2 [d2 [E2 L2]]].
  pose proof (date_number _ _ _ _ E1) as [N1 [_ R1]]. pose proof (date_number _ _ _ _ E2) as [N2 [_ R2]].
  unfold back in *. unfold weekday in *. Z.div_mod_to_equations. lia.
Qed.
(** a day between two days of the same year is of that year *)
Lemma year_between : forall a n b y m m' d d' y1 m1 d1, date_of a = (y, m, d) -> date_of b = (y, m', d') -> (a <= n <= b)%nat ->
  date_of n = (y1, m1, d1) -> y1 = y.
Proof.
  intros a n b y m m' d d' y1 m1 d1 E1 E2 H E.
  assert (J : forall k y m d, date_of k = (y, m, d) -> A (y - 1) + 306 <= Z.of_nat k + 719468 < A y + 306).
  { intros k y0 m0 d0 E0. pose proof (date_number _ _ _ _ E0) as [N0 [M0 D0]].
    pose proof (A_len_bounds (y0 - 1)) as L0. replace (y0 - 1 + 1) with y0 in L0 by lia.
    destruct (civil_fields (Z.of_nat k)) as [Y [B C]]. rewrite civil_date, E0 in C.
    pose proof (A_len_bounds Y) as L.
    assert (R : 0 <= Z.of_nat k + 719468 - A Y <= 365) by lia.
    pose proof (fields_ok _ R) as F. pose proof (fields_back _ R) as K.
    set (yd := Z.of_nat k + 719468 - A Y) in *.
    assert (C1 : all_days (fun yd => let '(b, m, d) := fields yd in if b =? 0 then yd <? 306 else 306 <=? yd) = true) by (vm_compute; reflexivity).
    pose proof (all_days_spec _ C1 yd R) as Q. cbv beta in Q.
    destruct (fields yd) as [[bb mm] dd]. cbn in C. injection C as -> -> ->.
    destruct F as [[[-> F] | [-> F]] G].
    - replace (0 =? 0) with true in Q by reflexivity. rewrite Z.add_0_r in *. subst yd. lia.
    - replace (1 =? 0) with false in Q by reflexivity. replace (Y + 1 - 1) with Y by lia. subst yd. lia. }
  pose proof (J _ _ _ _ E1). pose proof (J _ _ _ _ E2). pose proof (J _ _ _ _ E).
  destruct (Z.lt_trichotomy y1 y) as [L | [Q | L]]; [|exact Q|].
  - pose proof (A_mono y1 (y - 1) ltac:(lia)). lia.
  - pose proof (A_mono y (y1 - 1) ltac:(lia)). lia.
Qed.
Lemma year_from_1970 : forall n y m d, date_of n = (y, m, d) -> 1970 <= y.
Proof.
  induction n as [|n IH]; intros y m d H.
  - injection H as <- _ _. lia.
  - change (date_of (S n)) with (tomorrow (date_of n)) in H. destruct (date_of n) as [[y0 m0] d0].
    pose proof (IH _ _ _ eq_refl). unfold tomorrow in H. destruct (d0 <? _); [injection H; lia|].
    destruct (m0 <? 12); injection H; lia.
Qed.
Lemma offset_spec : forall t, 0 <= t -> offset_of t = -7200 /\ summer t \/ offset_of t = -3600 /\ ~ summer t.
Proof.
  intros t H. destruct (gmtime_date t H) as [D _]. unfold offset_of. set (g := gmtime t) in *.
  assert (Y : 1970 <= tm_year g) by (eapply year_from_1970; exact D).
  destruct (change_summer _ Y) as [a [La Ea]]. destruct (change_winter _ Y) as [b [Lb Eb]]. rewrite Ea, Eb.
  destruct ((Z.of_nat a * 86400 + 3600 <=? t) && (t <? Z.of_nat b * 86400 + 3600)) eqn:Q.
  - left. split; [reflexivity|]. exists (tm_year g), a, b. split; [exact La|]. split; [exact Lb|]. lia.
  - right. split; [reflexivity|]. intros [y [a' [b' [La' [Lb' R]]]]].
    assert (tm_year g = y).
    { destruct La' as [_ [d1 [E1 _]]]. destruct Lb' as [_ [d2 [E2 _]]].
      apply (year_between a' (Z.to_nat (t / 86400)) b' y 3 10 d1 d2 (tm_year g) (tm_mon g + 1) (tm_mday g)); try assumption.
      Z.div_mod_to_equations. lia. }
    subst y. rewrite (last_sunday_unique _ _ _ _ La' La) in R. rewrite (last_sunday_unique _ _ _ _ Lb' Lb) in R. lia.
Qed.

(** ** The fields of the local time *)
Lemma mon_length_ok : forall y m, 1 <= m <= 12 -> mon_lengths y (m - 1) = month_length y m.
Proof.
  intros y m H. assert (M : m = 1 \/ m = 2 \/ m = 3 \/ m = 4 \/ m = 5 \/ m = 6 \/ m = 7 \/ m = 8 \/ m = 9 \/ m = 10 \/ m = 11 \/ m = 12) by lia.
  destruct M as [-> | [-> | [-> | [-> | [-> | [-> | [-> | [-> | [-> | [-> | [-> | ->]]]]]]]]]]]; reflexivity.
Qed.
Lemma localtime_date : forall t, 0 <= t -> let o := - offset_of t / 3600 in let l := localtime t in
  exists n, date_of n = (tm_year l, tm_mon l + 1, tm_mday l) /\ o = - (offset_of t / 3600) /\ (o = 1 \/ o = 2) /\
  0 <= tm_hour l < 24 /\ 0 <= tm_min l < 60 /\ 0 <= tm_sec l < 60 /\
  t + o * 3600 = Z.of_nat n * 86400 + tm_hour l * 3600 + tm_min l * 60 + tm_sec l.
Proof.
  intros t H o l. destruct (gmtime_date t H) as [D [G1 [G2 [G3 G4]]]].
  assert (O : o = - (offset_of t / 3600) /\ (o = 1 \/ o = 2)).
  { subst o. destruct (offset_spec t H) as [[-> _] | [-> _]]; split; try reflexivity; [right | left]; reflexivity. }
  destruct O as [O1 O2]. assert (P : 0 <= t / 86400) by (apply Z.div_pos; lia).
  subst l. unfold localtime. set (g := gmtime t) in *.
  replace (tm_hour g - offset_of t / 3600) with (tm_hour g + o) by lia. clearbody o.
  pose proof (date_number _ _ _ _ D) as [_ [M1 M2]].
  replace (mon_lengths (tm_year g) (tm_mon g)) with (month_length (tm_year g) (tm_mon g + 1)).
  2:{ rewrite <- mon_length_ok by exact M1. f_equal. lia. }
  destruct (Z.leb_spec 24 (tm_hour g + o)) as [L | L].
  - exists (Z.to_nat (t / 86400 + 1)). rewrite !Z2Nat.id by lia.
    replace (Z.to_nat (t / 86400 + 1)) with (S (Z.to_nat (t / 86400))) by lia.
    change (date_of (S (Z.to_nat (t / 86400)))) with (tomorrow (date_of (Z.to_nat (t / 86400)))). rewrite D. unfold tomorrow.
    destruct (Z.ltb_spec (tm_mday g) (month_length (tm_year g) (tm_mon g + 1))) as [I | I].
    + replace (month_length _ _ <? tm_mday g + 1) with false by lia.
      cbn [tm_year tm_mon tm_mday tm_hour tm_min tm_sec]. split; [reflexivity|]. repeat split; lia.
    + replace (month_length _ _ <? tm_mday g + 1) with true by lia.
      destruct (Z.ltb_spec (tm_mon g + 1) 12) as [J | J].
      * replace (tm_mon g + 1 =? 12) with false by lia.
        cbn [tm_year tm_mon tm_mday tm_hour tm_min tm_sec]. split; [do 2 f_equal; lia|]. repeat split; lia.
      * replace (tm_mon g + 1 =? 12) with true by lia.
        cbn [tm_year tm_mon tm_mday tm_hour tm_min tm_sec]. split; [do 2 f_equal; lia|]. repeat split; lia.
  - exists (Z.to_nat (t / 86400)). rewrite !Z2Nat.id by lia. cbn [tm_year tm_mon tm_mday tm_hour tm_min tm_sec].
    split; [exact D|]. repeat split; lia.
Qed.

(** ** The text *)
Lemma digits_length : forall n v, length (digits n v) = n.
Proof. induction n; intros; cbn [digits]; [reflexivity|]. rewrite app_length, IHn. cbn. lia. Qed.
Lemma digits_zero : forall n, digits n 0 = repeat 48 n.
Proof.
  induction n; [reflexivity|]. cbn [digits]. change (0 / 10) with 0. change (48 + 0 mod 10) with 48. rewrite IHn.
  change [48] with (repeat 48 1). rewrite <- repeat_app. f_equal. lia.
Qed.
Lemma padded_aux : forall k f v, 0 <= v < 10 ^ Z.of_nat k -> v < 2 ^ Z.of_nat f -> (1 <= k)%nat -> (1 <= f)%nat ->
  pad0 k (dec_aux f v []) = digits k v.
Proof.
  induction k as [|k IH]; intros f v Hv Hf Hk F1; [lia|].
  destruct f as [|f]; [lia|]. cbn [dec_aux digits]. destruct (Z.ltb_spec v 10) as [L | L].
  - replace (v / 10) with 0 by (symmetry; apply Z.div_small; lia). rewrite digits_zero.
    unfold pad0. cbn [length]. replace (S k - 1)%nat with k by lia. reflexivity.
  - rewrite dec_aux_acc. destruct k as [|k]; [change (10 ^ Z.of_nat 1) with 10 in Hv; lia|].
    assert (F : (1 <= f)%nat). { destruct f; [change (2 ^ Z.of_nat 1) with 2 in Hf; lia | lia]. }
    rewrite <- (IH f (v / 10)).
    + unfold pad0. rewrite app_length. cbn [length]. rewrite app_assoc. do 3 f_equal. lia.
    + replace (Z.of_nat (S (S k))) with (Z.of_nat (S k) + 1) in Hv by lia. rewrite Z.pow_add_r in Hv by lia.
      change (10 ^ 1) with 10 in Hv. split; [apply Z.div_pos; lia|]. apply Z.div_lt_upper_bound; lia.
    + replace (Z.of_nat (S f)) with (Z.of_nat f + 1) in Hf by lia. rewrite Z.pow_add_r in Hf by lia.
      change (2 ^ 1) with 2 in Hf. apply Z.div_lt_upper_bound; lia.
    + lia.
    + exact F.
Qed.
Lemma padded_digits : forall k v, (1 <= k)%nat -> 0 <= v < 10 ^ Z.of_nat k -> padded k v = digits k v.
Proof.
  intros k v K H. unfold padded, dec. pose proof (Z.log2_nonneg v). apply padded_aux; [exact H | | exact K | lia].
  rewrite Z2Nat.id by lia. destruct (Z.eq_dec v 0) as [->|N]; [reflexivity|].
  pose proof (Z.log2_spec v ltac:(lia)) as [_ L]. replace (Z.log2 v + 2) with (Z.succ (Z.log2 v) + 1) by lia.
  rewrite Z.pow_add_r by lia. change (2 ^ 1) with 2. lia.
Qed.

(** 10000-01-01T00:00:00 UTC *)
Lemma year_bound : forall n y m d, date_of n = (y, m, d) -> Z.of_nat n < 2932897 -> y <= 9999.
Proof.
  intros n y m d E L. pose proof (date_number _ _ _ _ E) as [N [M D]].
  destruct (Z_le_dec y 9999) as [|G]; [assumption|]. exfalso.
  assert (B : 0 <= back m d /\ (m < 3 -> 306 <= back m d)).
  { unfold back. assert (X : m = 1 \/ m = 2 \/ 3 <= m) by lia. destruct X as [-> | [-> | X]].
    - change (Z.to_nat (1 - 1)) with 0%nat. cbn [nth]. lia.
    - change (Z.to_nat (2 - 1)) with 1%nat. cbn [nth]. lia.
    - split; [|lia]. assert (P : forall k, 0 <= nth k [306; 337; 0; 31; 61; 92; 122; 153; 184; 214; 245; 275] 0).
      { do 12 (destruct k as [|k]; [cbn; lia|]). destruct k; cbn; lia. }
      specialize (P (Z.to_nat (m - 1))). lia. }
  unfold march_year in N. destruct (Z.ltb_spec m 3).
  - pose proof (A_mono 9999 (y - 1) ltac:(lia)) as K. change (A 9999) with 3652059 in K. lia.
  - pose proof (A_mono 10000 y ltac:(lia)) as K. change (A 10000) with 3652425 in K. lia.
Qed.

Definition last_instant : Z := 253402300800 - 7200.
Lemma c79 : forall t, 0 <= t < last_instant -> exists text o, iso8601 t = Some text /\ length text = 24%nat /\ says text o t /\
  (summer t -> o = 2) /\ (~ summer t -> o = 1).
Proof.
  intros t [H1 H2]. unfold last_instant in H2.
  destruct (localtime_date t H1) as [n [D [O1 [O2 [Hh [Hm [Hs E]]]]]]]. set (o := - offset_of t / 3600) in *.
  assert (Y9 : tm_year (localtime t) <= 9999). { apply (year_bound n _ _ _ D). lia. }
  pose proof (year_from_1970 _ _ _ _ D) as Y0. pose proof (date_number _ _ _ _ D) as [_ [M1 M2]].
  assert (ML : month_length (tm_year (localtime t)) (tm_mon (localtime t) + 1) <= 31).
  { unfold month_length. set (k := Z.to_nat _). do 12 (destruct k as [|k]; [cbn [nth]; try destruct (leapb _); lia|]). destruct k; cbn; lia. }
  assert (OT : (if offset_of t <=? 0 then [43] else [45]) ++ padded 2 (Z.abs (offset_of t) / 3600) ++ padded 2 (Z.abs (offset_of t) / 60 mod 60)
             = str "+" ++ digits 2 o ++ str "00").
  { subst o. destruct (offset_spec t H1) as [[-> _] | [-> _]]; reflexivity. }
  assert (T : iso_text (localtime t) (offset_of t) =
     digits 4 (tm_year (localtime t)) ++ str "-" ++ digits 2 (tm_mon (localtime t) + 1) ++ str "-" ++ digits 2 (tm_mday (localtime t)) ++ str "T" ++
     digits 2 (tm_hour (localtime t)) ++ str ":" ++ digits 2 (tm_min (localtime t)) ++ str ":" ++ digits 2 (tm_sec (localtime t)) ++
     str "+" ++ digits 2 o ++ str "00").
  { unfold iso_text. rewrite OT.
    rewrite (padded_digits 4) by (change (10 ^ Z.of_nat 4) with 10000; lia).
    rewrite !(padded_digits 2) by (change (10 ^ Z.of_nat 2) with 100; lia). reflexivity. }
  unfold iso8601. rewrite T. rewrite !app_length, !digits_length. cbn [length str Nat.add Nat.ltb Nat.leb].
  eexists. exists o. split; [reflexivity|]. split; [rewrite !app_length, !digits_length; reflexivity|].
  split; [|subst o; destruct (offset_spec t H1) as [[-> ?] | [-> ?]]; (split; intros); first [contradiction | reflexivity]].
  exists n, (tm_year (localtime t)), (tm_mon (localtime t) + 1), (tm_mday (localtime t)), (tm_hour (localtime t)),
    (tm_min (localtime t)), (tm_sec (localtime t)).
  split; [reflexivity|]. split; [exact D|]. repeat split; lia.
Qed.

(** ** Reading the text *)
Lemma app_same_length : forall (a b x y : list Z), length a = length b -> a ++ x = b ++ y -> a = b /\ x = y.
Proof.
  induction a as [|c a IH]; intros [|c' b] x y L E; cbn in *; try discriminate; [auto|].
  injection E as -> E. destruct (IH b x y) as [-> ->]; [lia | exact E | auto].
Qed.
Lemma digits_inj : forall n v v', 0 <= v < 10 ^ Z.of_nat n -> 0 <= v' < 10 ^ Z.of_nat n -> digits n v = digits n v' -> v = v'.
Proof.
  induction n as [|n IH]; intros v v' H H' E.
  - change (10 ^ Z.of_nat 0) with 1 in *. lia.
  - cbn [digits] in E. apply app_same_length in E; [|rewrite !digits_length; reflexivity]. destruct E as [E1 E2].
    assert (E3 : v mod 10 = v' mod 10) by (assert (X : 48 + v mod 10 = 48 + v' mod 10) by congruence; lia).
    replace (Z.of_nat (S n)) with (Z.of_nat n + 1) in * by lia. rewrite Z.pow_add_r in * by lia. change (10 ^ 1) with 10 in *.
    assert (E4 : v / 10 = v' / 10).
    { apply IH; [| | exact E1]; (split; [apply Z.div_pos; lia | apply Z.div_lt_upper_bound; lia]). }
    rewrite (Z.div_mod v 10), (Z.div_mod v' 10) by lia. lia.
Qed.
Lemma month_length_31 : forall y m, month_length y m <= 31.
Proof.
  intros. unfold month_length. set (k := Z.to_nat _).
  do 12 (destruct k as [|k]; [cbn [nth]; try destruct (leapb _); lia|]). destruct k; cbn; lia.
Qed.
Lemma c79_reads : forall text o o' t t', says text o t -> says text o' t' -> o = o' /\ t = t'.
Proof.
  intros text o o' t t' [n [y [m [d [h [mi [s [E [D [Y [H1 [H2 [H3 [H4 ->]]]]]]]]]]]]]] [n' [y' [m' [d' [h' [mi' [s' [E' [D' [Y' [K1 [K2 [K3 [K4 ->]]]]]]]]]]]]]].
  rewrite E in E'. clear E.
  pose proof (date_number _ _ _ _ D) as [_ [M1 M2]]. pose proof (month_length_31 y m). pose proof (year_from_1970 _ _ _ _ D).
  pose proof (date_number _ _ _ _ D') as [_ [M1' M2']]. pose proof (month_length_31 y' m'). pose proof (year_from_1970 _ _ _ _ D').
  Ltac peel E := let F := fresh "F" in apply app_same_length in E; [destruct E as [F E]|rewrite ?digits_length; reflexivity].
  do 13 (peel E').
  repeat match goal with H : str _ = str _ |- _ => clear H end.
  change (10 ^ Z.of_nat 4) with 10000 in *.
  repeat match goal with H : digits 2 _ = digits 2 _ |- _ => apply digits_inj in H; [|change (10 ^ Z.of_nat 2) with 100; lia | change (10 ^ Z.of_nat 2) with 100; lia] end.
  match goal with H : digits 4 _ = digits 4 _ |- _ => apply digits_inj in H; [|change (10 ^ Z.of_nat 4) with 10000; lia | change (10 ^ Z.of_nat 4) with 10000; lia] end.
  subst. assert (n = n') by (apply date_unique; congruence). subst. auto.
Qed.

(** ** The order of the texts *)
Lemma before_app : forall a b x y, before a b -> before (a ++ x) (b ++ y).
Proof.
  intros a b x y [p [u [v [a' [b' [-> [-> L]]]]]]]. exists p, u, v, (a' ++ x), (b' ++ y).
  split; [rewrite <- app_assoc; reflexivity|]. split; [rewrite <- app_assoc; reflexivity | exact L].
Qed.
Lemma before_prefix : forall p a b, before a b -> before (p ++ a) (p ++ b).
Proof.
  intros p a b [q [u [v [a' [b' [-> [-> L]]]]]]]. exists (p ++ q), u, v, a', b'. rewrite <- !app_assoc. auto.
Qed.
Lemma digits_before : forall n v v', 0 <= v < v' -> v' < 10 ^ Z.of_nat n -> before (digits n v) (digits n v').
Proof.
  induction n as [|n IH]; intros v v' H H'.
  - change (10 ^ Z.of_nat 0) with 1 in *. lia.
  - cbn [digits]. replace (Z.of_nat (S n)) with (Z.of_nat n + 1) in * by lia. rewrite Z.pow_add_r in * by lia. change (10 ^ 1) with 10 in *.
    destruct (Z.eq_dec (v / 10) (v' / 10)) as [E|N].
    + rewrite E. exists (digits n (v' / 10)), (48 + v mod 10), (48 + v' mod 10), [], []. split; [reflexivity|]. split; [reflexivity|].
      Z.div_mod_to_equations. lia.
    + apply before_app. apply IH.
      * split; [apply Z.div_pos; lia|]. pose proof (Z.div_le_mono v v' 10). lia.
      * apply Z.div_lt_upper_bound; lia.
Qed.
Definition earlier (a b : date) : Prop :=
  let '(y, m, d) := a in let '(y', m', d') := b in y < y' \/ y = y' /\ (m < m' \/ m = m' /\ d < d').
Lemma earlier_next : forall a b, earlier a b \/ a = b -> earlier a (tomorrow b).
Proof.
  intros [[y m] d] [[y' m'] d'] H. unfold tomorrow.
  assert (G : y < y' \/ y = y' /\ (m < m' \/ m = m' /\ d <= d')).
  { destruct H as [H | H]; [unfold earlier in H; lia | injection H as -> -> ->; lia]. }
  destruct (d' <? month_length y' m'); [unfold earlier; lia|]. destruct (m' <? 12) eqn:M; unfold earlier; lia.
Qed.
Lemma date_earlier : forall n k, earlier (date_of n) (date_of (S k + n)).
Proof.
  intros n k. induction k as [|k IH].
  - change (date_of (1 + n)) with (tomorrow (date_of n)). apply earlier_next. auto.
  - change (date_of (S (S k) + n)) with (tomorrow (date_of (S k + n))). apply earlier_next. auto.
Qed.
Lemma c79_order : forall a b o t t', says a o t -> says b o t' -> t < t' -> before a b.
Proof.
  intros a b o t t' [n [y [m [d [h [mi [s [-> [D [Y [H1 [H2 [H3 [H4 ->]]]]]]]]]]]]]] [n' [y' [m' [d' [h' [mi' [s' [-> [D' [Y' [K1 [K2 [K3 [K4 ->]]]]]]]]]]]]]] L.
  pose proof (date_number _ _ _ _ D) as [_ [M1 M2]]. pose proof (month_length_31 y m). pose proof (year_from_1970 _ _ _ _ D).
  pose proof (date_number _ _ _ _ D') as [_ [M1' M2']]. pose proof (month_length_31 y' m'). pose proof (year_from_1970 _ _ _ _ D').
  assert (C : (n < n')%nat \/ n = n') by (assert ((n <= n')%nat \/ (n' < n)%nat) by lia; lia).
  destruct C as [C | <-].
  - pose proof (date_earlier n (n' - S n)) as X. replace (S (n' - S n) + n)%nat with n' in X by lia. rewrite D, D' in X.
    cbv beta iota delta [earlier] in X.
    destruct X as [X | [<- [X | [<- X]]]].
    + apply before_app. apply digits_before; [lia | change (10 ^ Z.of_nat 4) with 10000; lia].
    + do 2 apply before_prefix. apply before_app. apply digits_before; [lia | change (10 ^ Z.of_nat 2) with 100; lia].
    + do 4 apply before_prefix. apply before_app. apply digits_before; [lia | change (10 ^ Z.of_nat 2) with 100; lia].
  - rewrite D in D'. injection D' as <- <- <-. do 6 apply before_prefix.
    assert (X : h < h' \/ h = h' /\ (mi < mi' \/ mi = mi' /\ s < s')) by lia.
    destruct X as [X | [<- [X | [<- X]]]].
    + apply before_app. apply digits_before; [lia | change (10 ^ Z.of_nat 2) with 100; lia].
    + do 2 apply before_prefix. apply before_app. apply digits_before; [lia | change (10 ^ Z.of_nat 2) with 100; lia].
    + do 4 apply before_prefix. apply before_app. apply digits_before; [lia | change (10 ^ Z.of_nat 2) with 100; lia].
Qed.

(** ** The text in JSON *)
Definition plain (c : Z) : bool := (48 <=? c) && (c <=? 57) || (c =? 45) || (c =? 84) || (c =? 58) || (c =? 43).
Lemma digits_plain : forall n v, forallb plain (digits n v) = true.
Proof.
  induction n; intros; [reflexivity|]. cbn [digits]. rewrite forallb_app, IHn. cbn [forallb andb]. unfold plain.
  pose proof (Z.mod_pos_bound v 10). lia.
Qed.
Lemma says_plain : forall text o t, says text o t -> forallb plain text = true.
Proof.
  intros text o t [n [y [m [d [h [mi [s [-> _]]]]]]]]. rewrite !forallb_app, !digits_plain. reflexivity.
Qed.
Lemma plain_quotable : forall s, forallb plain s = true -> quotable s = true.
Proof.
  intros s H. apply ascii_quotable. apply Forall_forall. intros c I. rewrite forallb_forall in H. specialize (H c I).
  unfold plain in H. lia.
Qed.
Lemma plain_one_line : forall s, forallb plain s = true -> Forall (fun c => c <> 10 /\ c <> 13) s.
Proof.
  intros s H. apply Forall_forall. intros c I. rewrite forallb_forall in H. specialize (H c I). unfold plain in H. lia.
Qed.
