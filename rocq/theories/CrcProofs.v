(** The CRC of the configuration: linearity, residue, detected errors. *)
From Coq Require Import ZArith List Bool Lia ZifyBool ZifyNat.
From Verif Require Import Base BaseFacts Config ConfigSpec.
Import ListNotations.
Open Scope Z_scope.

(** ** Numbers below a power of two *)
Lemma bits_small : forall n z, 0 <= n -> 0 <= z ->
  (forall q, n <= q -> Z.testbit z q = false) -> z < 2 ^ n.
Proof.
  intros n z Hn Hz H. destruct (Z.eq_dec z 0) as [->|Hz0]; [apply Z.pow_pos_nonneg; lia|].
  apply Z.log2_lt_pow2; [lia|]. destruct (Z_lt_le_dec (Z.log2 z) n) as [|Hle]; [lia|exfalso].
  specialize (H _ Hle). rewrite Z.bit_log2 in H by lia. discriminate.
Qed.
Lemma small_bits : forall n z q, 0 <= n -> 0 <= z < 2 ^ n -> n <= q -> Z.testbit z q = false.
Proof.
  intros. destruct (Z.eq_dec z 0) as [->|Hz0]; [apply Z.bits_0|].
  apply Z.bits_above_log2; [lia|]. assert (Z.log2 z < n) by (apply Z.log2_lt_pow2; lia). lia.
Qed.
Lemma lxor_small : forall n a b, 0 <= n -> 0 <= a < 2 ^ n -> 0 <= b < 2 ^ n -> 0 <= Z.lxor a b < 2 ^ n.
Proof.
  intros. assert (0 <= Z.lxor a b) by (apply Z.lxor_nonneg; lia). split; auto.
  apply bits_small; auto. intros. rewrite Z.lxor_spec.
  rewrite (small_bits n a), (small_bits n b) by auto. auto.
Qed.

(** ** One step *)
Lemma odd_lxor : forall a b, Z.odd (Z.lxor a b) = xorb (Z.odd a) (Z.odd b).
Proof. intros. rewrite <- !Z.bit0_odd. apply Z.lxor_spec. Qed.

Lemma crc_step_lin : forall a b, crc_step (Z.lxor a b) = Z.lxor (crc_step a) (crc_step b).
Proof.
  intros. unfold crc_step. rewrite odd_lxor, Z.shiftr_lxor.
  destruct (Z.odd a), (Z.odd b); cbn [xorb]; apply Z.bits_inj'; intros; rewrite !Z.lxor_spec;
    destruct (Z.testbit (Z.shiftr a 1) n), (Z.testbit (Z.shiftr b 1) n), (Z.testbit 40961 n); auto.
Qed.

Lemma crc_step_double : forall y, crc_step (2 * y) = y.
Proof.
  intros. unfold crc_step. rewrite Z.odd_mul. cbn [Z.odd andb].
  rewrite Z.shiftr_div_pow2 by lia. change (2 ^ 1) with 2. rewrite Z.mul_comm. apply Z.div_mul. lia.
Qed.

Lemma crc_step_range : forall c, 0 <= c < 65536 -> 0 <= crc_step c < 65536.
Proof.
  intros c H. unfold crc_step. rewrite Z.shiftr_div_pow2 by lia. change (2 ^ 1) with 2.
  assert (0 <= c / 2 < 65536) by (split; [apply Z.div_pos; lia|apply Z.div_lt_upper_bound; lia]).
  destruct (Z.odd c); auto. apply (lxor_small 16); lia.
Qed.

Lemma crc_step_nonzero : forall c, 0 < c < 65536 -> 0 < crc_step c < 65536.
Proof.
  intros c H. assert (Hr := crc_step_range c ltac:(lia)).
  enough (crc_step c <> 0) by lia. intro E. unfold crc_step in E.
  destruct (Z.odd c) eqn:O.
  - assert (T : Z.testbit (Z.lxor (Z.shiftr c 1) 40961) 15 = true).
    { rewrite Z.lxor_spec, Z.shiftr_spec by lia. rewrite (small_bits 16 c) by lia. reflexivity. }
    rewrite E in T. rewrite Z.bits_0 in T. discriminate.
  - rewrite Z.shiftr_div_pow2 in E by lia. change (2 ^ 1) with 2 in E.
    assert (c = 2 * (c / 2) + c mod 2) by (apply Z.div_mod; lia).
    rewrite Zmod_odd, O in H0. lia.
Qed.

(** ** Many steps *)
Lemma crc_steps_lin : forall n a b, crc_steps n (Z.lxor a b) = Z.lxor (crc_steps n a) (crc_steps n b).
Proof. induction n; intros; cbn [crc_steps]; auto. rewrite crc_step_lin. apply IHn. Qed.

Lemma crc_steps_app : forall n m c, crc_steps (n + m) c = crc_steps m (crc_steps n c).
Proof. induction n; intros; cbn [crc_steps Nat.add]; auto. Qed.

Lemma crc_steps_range : forall n c, 0 <= c < 65536 -> 0 <= crc_steps n c < 65536.
Proof. induction n; intros; cbn [crc_steps]; auto. apply IHn, crc_step_range; auto. Qed.

Lemma crc_steps_nonzero : forall n c, 0 < c < 65536 -> 0 < crc_steps n c < 65536.
Proof. induction n; intros; cbn [crc_steps]; auto. apply IHn, crc_step_nonzero; auto. Qed.

Lemma crc_steps_shift : forall k w, crc_steps k (2 ^ Z.of_nat k * w) = w.
Proof.
  induction k; intros; cbn [crc_steps].
  - change (2 ^ Z.of_nat 0) with 1. lia.
  - rewrite Nat2Z.inj_succ, Z.pow_succ_r by lia.
    rewrite <- Z.mul_assoc, crc_step_double. apply IHk.
Qed.

Lemma crc_steps_xor_shift : forall k x w, crc_steps k (Z.lxor x (2 ^ Z.of_nat k * w)) = Z.lxor (crc_steps k x) w.
Proof. intros. rewrite crc_steps_lin, crc_steps_shift. auto. Qed.

(** ** The CRC of a byte string is that of one big number *)
Lemma lxor_byte : forall a v, is_byte a -> Z.lxor a (256 * v) = a + 256 * v.
Proof.
  intros a v H. unfold is_byte in H.
  symmetry. apply Z.add_nocarry_lxor. apply Z.bits_inj'. intros n Hn.
  rewrite Z.land_spec, Z.bits_0. change 256 with (2 ^ 8).
  destruct (Z_lt_le_dec n 8).
  - rewrite (Z.mul_comm (2 ^ 8)), Z.mul_pow2_bits_low by lia. apply andb_false_r.
  - rewrite (small_bits 8 a) by lia. auto.
Qed.

Definition crc_from (c : Z) (b : list Z) : Z := fold_left crc_update b c.

Lemma crc_from_number : forall b c, bytes b ->
  crc_from c b = crc_steps (8 * length b) (Z.lxor c (le_value b)).
Proof.
  induction b as [|a b IH]; intros c H.
  - cbn. rewrite Z.lxor_0_r. auto.
  - inv H. change (crc_from c (a :: b)) with (crc_from (crc_update c a) b). rewrite IH by auto.
    cbn [length le_value]. replace (8 * S (length b))%nat with (8 + 8 * length b)%nat by lia.
    rewrite crc_steps_app. f_equal. rewrite <- lxor_byte by auto. rewrite <- Z.lxor_assoc.
    change 256 with (2 ^ Z.of_nat 8). rewrite crc_steps_xor_shift. reflexivity.
Qed.

Lemma le_value_nonneg : forall b, bytes b -> 0 <= le_value b.
Proof. induction 1; cbn [le_value]; try lia. unfold is_byte in H. lia. Qed.

Lemma le_value_bound : forall b, bytes b -> le_value b < 2 ^ Z.of_nat (8 * length b).
Proof.
  induction 1; cbn [le_value length]; [reflexivity|].
  replace (Z.of_nat (8 * S (length l))) with (8 + Z.of_nat (8 * length l)) by lia.
  rewrite Z.pow_add_r by lia. change (2 ^ 8) with 256. unfold is_byte in H. lia.
Qed.

Lemma le_value_inj : forall b b', bytes b -> bytes b' -> length b = length b' ->
  le_value b = le_value b' -> b = b'.
Proof.
  induction b; destruct b'; cbn [length le_value]; intros H H' L E; try discriminate; auto.
  inv H. inv H'. unfold is_byte in *.
  assert (a = z) by (apply (f_equal (fun x => x mod 256)) in E;
    rewrite !(Z.mul_comm 256), !Z_mod_plus_full, !Z.mod_small in E by lia; auto).
  subst. f_equal. apply IHb; auto. lia.
Qed.

Lemma bit_at_number : forall b p, bytes b -> bit_at b p = Z.testbit (le_value b) (Z.of_nat p).
Proof.
  unfold bit_at. induction b as [|a b IH]; intros p H.
  - cbn [le_value]. rewrite Z.bits_0. destruct (p / 8)%nat; cbn [nth]; apply Z.bits_0.
  - inv H. cbn [le_value]. rewrite <- lxor_byte by auto. rewrite Z.lxor_spec.
    destruct (Nat.lt_ge_cases p 8).
    + rewrite Nat.div_small, Nat.mod_small by auto. cbn [nth]. change 256 with (2 ^ 8).
      rewrite (Z.mul_comm (2 ^ 8)), Z.mul_pow2_bits_low by lia. rewrite xorb_false_r. auto.
    + rewrite (small_bits 8 a) by (unfold is_byte in *; lia). rewrite xorb_false_l.
      change 256 with (2 ^ 8). rewrite (Z.mul_comm (2 ^ 8)), Z.mul_pow2_bits by lia.
      replace p with ((p - 8) + 1 * 8)%nat at 1 by lia. rewrite Nat.div_add by lia.
      replace ((p - 8) / 8 + 1)%nat with (S ((p - 8) / 8)) by lia. cbn [nth].
      replace p with ((p - 8) + 1 * 8)%nat at 2 by lia. rewrite Nat.mod_add by lia.
      rewrite IH by auto. f_equal. lia.
Qed.

(** ** Ranges and residue *)
Lemma crc_update_range : forall c a, 0 <= c < 65536 -> is_byte a -> 0 <= crc_update c a < 65536.
Proof.
  intros. unfold crc_update. apply crc_steps_range. apply (lxor_small 16); unfold is_byte in *; lia.
Qed.
Lemma crc_from_range : forall b c, bytes b -> 0 <= c < 65536 -> 0 <= crc_from c b < 65536.
Proof.
  induction b; intros; auto. inv H. change (crc_from c (a :: b)) with (crc_from (crc_update c a) b).
  apply IHb; auto. apply crc_update_range; auto.
Qed.
Lemma crc_of_from : forall b, crc_of b = crc_from 65535 b.
Proof. intros. unfold crc_of, crc_from. reflexivity. Qed.
Lemma crc_of_range : forall b, bytes b -> 0 <= crc_of b < 65536.
Proof. intros. rewrite crc_of_from. apply crc_from_range; auto; lia. Qed.

Lemma le16_value : forall v, 0 <= v < 65536 -> le_value (le16 v) = v.
Proof.
  intros. unfold le16. cbn [le_value]. rewrite (Z.mod_small (v / 256)).
  - rewrite Z.mul_0_r, Z.add_0_r. rewrite Z.add_comm. symmetry. apply Z.div_mod. lia.
  - split; [apply Z.div_pos|apply Z.div_lt_upper_bound]; lia.
Qed.
Lemma le16_bytes : forall v, bytes (le16 v).
Proof. intros. unfold le16. repeat constructor; unfold is_byte; apply Z.mod_pos_bound; lia. Qed.

Lemma crc_from_app : forall a b c, crc_from c (a ++ b) = crc_from (crc_from c a) b.
Proof. intros. unfold crc_from. apply fold_left_app. Qed.
Lemma crc_of_app : forall a b, crc_of (a ++ b) = crc_from (crc_of a) b.
Proof. intros. rewrite !crc_of_from. apply crc_from_app. Qed.

Lemma crc_residue : forall b, bytes b -> crc_of (b ++ le16 (crc_of b)) = 0.
Proof.
  intros b H. rewrite crc_of_app. rewrite crc_from_number by apply le16_bytes.
  rewrite le16_value by (apply crc_of_range; auto). rewrite Z.lxor_nilpotent. reflexivity.
Qed.

(** ** Error detection *)
Lemma crc_difference : forall b b', bytes b -> bytes b' -> length b = length b' ->
  Z.lxor (crc_of b) (crc_of b') = crc_steps (8 * length b) (Z.lxor (le_value b) (le_value b')).
Proof.
  intros. rewrite (crc_of_from b), (crc_of_from b').
  rewrite (crc_from_number b), (crc_from_number b') by auto. rewrite <- H1. rewrite <- crc_steps_lin. f_equal.
  apply Z.bits_inj'. intros. rewrite !Z.lxor_spec.
  destruct (Z.testbit 65535 n), (Z.testbit (le_value b) n), (Z.testbit (le_value b') n); auto.
Qed.

Lemma bit_diff : forall b b' p, bytes b -> bytes b' ->
  Z.testbit (Z.lxor (le_value b) (le_value b')) (Z.of_nat p) = xorb (bit_at b p) (bit_at b' p).
Proof. intros. rewrite Z.lxor_spec, !bit_at_number by auto. auto. Qed.

Lemma burst_detected : forall b b' p k, bytes b -> (k <= 16)%nat ->
  damaged_within p k b b' -> crc_of b = 0 -> crc_of b' <> 0.
Proof.
  intros b b' p k Hb Hk (HL & Hb' & Hne & Hq) Hc Hc'.
  assert (Hd := crc_difference b b' Hb Hb' (eq_sym HL)).
  rewrite Hc, Hc' in Hd. rewrite Z.lxor_nilpotent in Hd. symmetry in Hd.
  set (D := Z.lxor (le_value b) (le_value b')) in *.
  assert (HD0 : 0 <= D) by (apply Z.lxor_nonneg; split; intros; apply le_value_nonneg; auto).
  assert (HD : D <> 0).
  { intro E. apply Z.lxor_eq in E. apply Hne. symmetry. apply le_value_inj; auto. }
  assert (HDb : forall q, Z.testbit D (Z.of_nat q) = true -> (p <= q < p + k)%nat).
  { intros q Ht. apply Hq. unfold D in Ht. rewrite bit_diff in Ht by auto. intro E. rewrite E in Ht.
    rewrite xorb_nilpotent in Ht. discriminate. }
  set (w := Z.shiftr D (Z.of_nat p)).
  assert (HDw : D = 2 ^ Z.of_nat p * w).
  { unfold w. rewrite Z.mul_comm, <- Z.shiftl_mul_pow2 by lia. apply Z.bits_inj'. intros n Hn.
    rewrite Z.shiftl_spec by auto. destruct (Z_lt_le_dec n (Z.of_nat p)).
    - rewrite (Z.testbit_neg_r _ (n - Z.of_nat p)) by lia.
      destruct (Z.testbit D n) eqn:T; auto. rewrite <- (Z2Nat.id n) in T by auto. apply HDb in T. lia.
    - rewrite Z.shiftr_spec by lia. f_equal. lia. }
  assert (Hw0 : 0 <= w) by (apply Z.shiftr_nonneg; auto).
  assert (Hw : w <> 0) by (intro E; rewrite E in HDw; lia).
  assert (Hw16 : w < 2 ^ 16).
  { apply bits_small; try lia. intros q Hq16. unfold w. rewrite Z.shiftr_spec by lia.
    destruct (Z.testbit D (q + Z.of_nat p)) eqn:T; auto.
    rewrite <- (Z2Nat.id (q + Z.of_nat p)) in T by lia. apply HDb in T. lia. }
  assert (Hp : (p <= 8 * length b)%nat).
  { assert (D < 2 ^ Z.of_nat (8 * length b)).
    { apply lxor_small; try lia; split; try apply le_value_nonneg; auto.
      - apply le_value_bound; auto.
      - rewrite <- HL. apply le_value_bound; auto. }
    destruct (Nat.le_gt_cases p (8 * length b)); auto. exfalso.
    assert (2 ^ Z.of_nat (8 * length b) <= 2 ^ Z.of_nat p) by (apply Z.pow_le_mono_r; lia). nia. }
  replace (8 * length b)%nat with (p + (8 * length b - p))%nat in Hd by lia.
  rewrite crc_steps_app, HDw, crc_steps_shift in Hd.
  assert (0 < crc_steps (8 * length b - p) w < 65536) by (apply crc_steps_nonzero; lia). lia.
Qed.

(** *** Two flipped bits, anywhere in at most 4095 bytes *)
Fixpoint no_return (n : nat) (c : Z) : bool :=
  match n with
  | O => true
  | S n' => let c' := crc_step c in negb (c' =? 1) && no_return n' c'
  end.
Lemma no_return_spec : forall n c d, no_return n c = true -> (0 < d <= n)%nat -> crc_steps d c <> 1.
Proof.
  induction n; intros c d H Hd; [lia|]. cbn [no_return] in H.
  apply andb_true_iff in H. destruct H as [H1 H2]. destruct d; [lia|]. cbn [crc_steps].
  destruct d; [cbn [crc_steps]; lia|]. apply IHn; auto. lia.
Qed.
Lemma order_large : no_return (Z.to_nat 32766) 1 = true.
Proof. vm_compute. reflexivity. Qed.

Lemma two_bits_nonzero : forall N p q, (p < q < N)%nat -> Z.of_nat N <= 32766 ->
  crc_steps N (Z.lxor (2 ^ Z.of_nat p) (2 ^ Z.of_nat q)) <> 0.
Proof.
  intros N p q H HN.
  replace N with (p + ((q - p) + (N - q)))%nat by lia. rewrite !crc_steps_app.
  rewrite <- (Z.mul_1_r (2 ^ Z.of_nat p)).
  replace (2 ^ Z.of_nat q) with (2 ^ Z.of_nat p * (2 ^ Z.of_nat (q - p) * 1)).
  2:{ rewrite Z.mul_1_r, <- Z.pow_add_r by lia. f_equal. lia. }
  rewrite crc_steps_lin, !crc_steps_shift, crc_steps_xor_shift.
  assert (Hr : 0 < crc_steps (q - p) 1 < 65536) by (apply crc_steps_nonzero; lia).
  assert (Hne : crc_steps (q - p) 1 <> 1).
  { apply (no_return_spec (Z.to_nat 32766)); [apply order_large|lia]. }
  assert (0 < Z.lxor (crc_steps (q - p) 1) 1 < 65536).
  { assert (0 <= Z.lxor (crc_steps (q - p) 1) 1 < 2 ^ 16) by (apply lxor_small; lia).
    assert (Z.lxor (crc_steps (q - p) 1) 1 <> 0) by (intro E; apply Z.lxor_eq in E; auto).
    lia. }
  assert (0 < crc_steps (N - q) (Z.lxor (crc_steps (q - p) 1) 1) < 65536) by (apply crc_steps_nonzero; auto).
  lia.
Qed.

Lemma two_bits_detected : forall b b' p q, bytes b -> bytes b' -> length b' = length b ->
  Z.of_nat (length b) <= 4095 -> (p < q < 8 * length b)%nat ->
  (forall i, bit_at b i <> bit_at b' i <-> i = p \/ i = q) ->
  crc_of b = 0 -> crc_of b' <> 0.
Proof.
  intros b b' p q Hb Hb' HL Hlen Hpq Hbits Hc Hc'.
  assert (Hd := crc_difference b b' Hb Hb' (eq_sym HL)).
  rewrite Hc, Hc' in Hd. rewrite Z.lxor_nilpotent in Hd. symmetry in Hd.
  replace (Z.lxor (le_value b) (le_value b')) with (Z.lxor (2 ^ Z.of_nat p) (2 ^ Z.of_nat q)) in Hd.
  - revert Hd. apply two_bits_nonzero; lia.
  - apply Z.bits_inj'. intros n Hn. rewrite <- (Z2Nat.id n) by auto. rewrite bit_diff by auto.
    rewrite Z.lxor_spec, !Z.pow2_bits_eqb by lia.
    specialize (Hbits (Z.to_nat n)).
    destruct (Nat.eq_dec (Z.to_nat n) p) as [e1|n1].
    + assert (Hx : bit_at b (Z.to_nat n) <> bit_at b' (Z.to_nat n)) by (apply Hbits; auto).
      replace (Z.of_nat p =? Z.of_nat (Z.to_nat n)) with true by lia.
      replace (Z.of_nat q =? Z.of_nat (Z.to_nat n)) with false by lia.
      destruct (bit_at b (Z.to_nat n)), (bit_at b' (Z.to_nat n)); auto; congruence.
    + destruct (Nat.eq_dec (Z.to_nat n) q) as [e2|n2].
      * assert (Hx : bit_at b (Z.to_nat n) <> bit_at b' (Z.to_nat n)) by (apply Hbits; auto).
        replace (Z.of_nat p =? Z.of_nat (Z.to_nat n)) with false by lia.
        replace (Z.of_nat q =? Z.of_nat (Z.to_nat n)) with true by lia.
        destruct (bit_at b (Z.to_nat n)), (bit_at b' (Z.to_nat n)); auto; congruence.
      * replace (Z.of_nat p =? Z.of_nat (Z.to_nat n)) with false by lia.
        replace (Z.of_nat q =? Z.of_nat (Z.to_nat n)) with false by lia.
        destruct (bit_at b (Z.to_nat n)), (bit_at b' (Z.to_nat n)); auto; exfalso;
          destruct Hbits as [Hx _]; destruct Hx; try congruence; contradiction.
Qed.

(** *** An odd number of flipped bits *)
(** parity of the m low bits *)
Fixpoint par (m : nat) (z : Z) : bool :=
  match m with
  | O => false
  | S m' => xorb (par m' z) (Z.testbit z (Z.of_nat m'))
  end.
Lemma par_lxor : forall m a b, par m (Z.lxor a b) = xorb (par m a) (par m b).
Proof.
  induction m; intros; cbn [par]; auto. rewrite IHm, Z.lxor_spec.
  destruct (par m a), (par m b), (Z.testbit a (Z.of_nat m)), (Z.testbit b (Z.of_nat m)); auto.
Qed.
Lemma par_shiftr : forall m z,
  par m (Z.shiftr z 1) = xorb (par m z) (xorb (Z.odd z) (Z.testbit z (Z.of_nat m))).
Proof.
  induction m; intros; cbn [par].
  - change (Z.of_nat 0) with 0. rewrite Z.bit0_odd. rewrite xorb_nilpotent. auto.
  - rewrite IHm, Z.shiftr_spec by lia. replace (Z.of_nat m + 1) with (Z.of_nat (S m)) by lia.
    destruct (par m z), (Z.odd z), (Z.testbit z (Z.of_nat m)), (Z.testbit z (Z.of_nat (S m))); auto.
Qed.
Lemma par_poly : forall m, par (16 + m) 40961 = true.
Proof.
  induction m; [reflexivity|]. rewrite Nat.add_succ_r. cbn [par]. rewrite IHm.
  rewrite (small_bits 16) by lia. auto.
Qed.
Lemma par_step : forall m z, (16 <= m)%nat -> 0 <= z < 2 ^ Z.of_nat m -> par m (crc_step z) = par m z.
Proof.
  intros m z Hm Hz. assert (Ht : Z.testbit z (Z.of_nat m) = false) by (apply (small_bits (Z.of_nat m)); lia).
  unfold crc_step. destruct (Z.odd z) eqn:O.
  - rewrite par_lxor, par_shiftr, O, Ht.
    replace m with (16 + (m - 16))%nat at 2 by lia. rewrite par_poly.
    destruct (par m z); auto.
  - rewrite par_shiftr, O, Ht. destruct (par m z); auto.
Qed.
Lemma step_wide : forall m z, (16 <= m)%nat -> 0 <= z < 2 ^ Z.of_nat m -> 0 <= crc_step z < 2 ^ Z.of_nat m.
Proof.
  intros. assert (2 ^ 16 <= 2 ^ Z.of_nat m) by (apply Z.pow_le_mono_r; lia).
  assert (0 <= z / 2 < 2 ^ Z.of_nat m).
  { split; [apply Z.div_pos; lia|]. apply Z.div_lt_upper_bound; lia. }
  unfold crc_step. rewrite Z.shiftr_div_pow2 by lia. change (2 ^ 1) with 2.
  destruct (Z.odd z); auto. apply lxor_small; lia.
Qed.
Lemma par_steps : forall n m z, (16 <= m)%nat -> 0 <= z < 2 ^ Z.of_nat m -> par m (crc_steps n z) = par m z.
Proof.
  induction n; intros; cbn [crc_steps]; auto. rewrite IHn by (auto; apply step_wide; auto).
  apply par_step; auto.
Qed.
Lemma par_0 : forall m, par m 0 = false.
Proof. induction m; cbn [par]; auto. rewrite IHm, Z.bits_0. auto. Qed.

(** Number of bits that differ, over the bits below [n]. *)
Lemma par_count : forall n b b', bytes b -> bytes b' ->
  par n (Z.lxor (le_value b) (le_value b')) =
  Nat.odd (length (filter (fun i => xorb (bit_at b i) (bit_at b' i)) (seq 0 n))).
Proof.
  induction n; intros; auto. rewrite seq_S, filter_app, app_length. cbn [par Nat.add filter].
  rewrite IHn, bit_diff by auto.
  destruct (xorb (bit_at b n) (bit_at b' n)); cbn [length].
  - rewrite Nat.add_1_r, Nat.odd_succ, <- Nat.negb_odd.
    destruct (Nat.odd (length (filter (fun i => xorb (bit_at b i) (bit_at b' i)) (seq 0 n)))); auto.
  - rewrite Nat.add_0_r, xorb_false_r. auto.
Qed.

Lemma odd_bits_detected : forall b b', bytes b -> bytes b' -> length b' = length b -> (2 <= length b)%nat ->
  Nat.odd (length (filter (fun i => xorb (bit_at b i) (bit_at b' i)) (seq 0 (8 * length b)))) = true ->
  crc_of b = 0 -> crc_of b' <> 0.
Proof.
  intros b b' Hb Hb' HL H2 Ho Hc Hc'.
  assert (Hd := crc_difference b b' Hb Hb' (eq_sym HL)).
  rewrite Hc, Hc' in Hd. rewrite Z.lxor_nilpotent in Hd.
  rewrite <- par_count in Ho by auto.
  rewrite <- (par_steps (8 * length b)) in Ho; try lia.
  - rewrite <- Hd in Ho. rewrite par_0 in Ho. discriminate.
  - apply lxor_small; try lia; split; try apply le_value_nonneg; auto.
    + apply le_value_bound; auto.
    + rewrite <- HL. apply le_value_bound; auto.
Qed.
