(** The EEPROM filled with zeros, completely or up to a power cut, is never taken for a configuration. *)
From Coq Require Import ZArith List Bool Lia ZifyBool ZifyNat.
From Verif Require Import Base BaseFacts Config ConfigSpec CrcProofs ConfigProofs ConfigMain ConfigHist.
Import ListNotations.
Open Scope Z_scope.

(** ** The inverse of a step of the CRC *)
Definition back_step (v : Z) : Z := if v <? 32768 then 2 * v else 2 * Z.lxor v 40961 + 1.
Fixpoint back_steps (n : nat) (v : Z) : Z := match n with O => v | S n' => back_steps n' (back_step v) end.

Lemma lxor_cancel : forall a b, Z.lxor (Z.lxor a b) b = a.
Proof. intros. rewrite Z.lxor_assoc, Z.lxor_nilpotent, Z.lxor_0_r. reflexivity. Qed.
Lemma back_step_spec : forall c, 0 <= c < 65536 -> back_step (crc_step c) = c.
Proof.
  intros c H. unfold crc_step. assert (D : Z.shiftr c 1 = c / 2) by (rewrite Z.shiftr_div_pow2 by lia; reflexivity).
  rewrite D. assert (M := Z.div_mod c 2 ltac:(lia)). assert (M2 := Z.mod_pos_bound c 2 ltac:(lia)).
  assert (Hs : 0 <= c / 2 < 32768) by lia.
  assert (O := Zmod_odd c).
  destruct (Z.odd c) eqn:E.
  - unfold back_step. assert (T : Z.testbit (Z.lxor (c / 2) 40961) 15 = true).
    { rewrite Z.lxor_spec, (small_bits 15 (c / 2)) by lia. reflexivity. }
    destruct (Z.ltb_spec (Z.lxor (c / 2) 40961) 32768) as [L|L].
    + assert (0 <= Z.lxor (c / 2) 40961) by (apply Z.lxor_nonneg; lia).
      rewrite (small_bits 15) in T by (cbn; lia). discriminate T.
    + rewrite lxor_cancel. lia.
  - unfold back_step. replace (c / 2 <? 32768) with true by lia. lia.
Qed.
Lemma crc_steps_S : forall n c, crc_steps (S n) c = crc_step (crc_steps n c).
Proof. induction n; intros; [reflexivity|]. change (crc_steps (S (S n)) c) with (crc_steps (S n) (crc_step c)). rewrite IHn. reflexivity. Qed.
Lemma back_steps_S : forall n v, back_steps (S n) v = back_steps n (back_step v).
Proof. reflexivity. Qed.
Lemma back_steps_spec : forall n c, 0 <= c < 65536 -> back_steps n (crc_steps n c) = c.
Proof.
  induction n; intros c H; [reflexivity|]. rewrite crc_steps_S, back_steps_S.
  rewrite back_step_spec by (apply crc_steps_range; auto). auto.
Qed.

(** ** A byte 255 *)
Definition back_ff (v : Z) : Z := Z.lxor (back_steps 8 v) 255.
Lemma back_ff_spec : forall c, 0 <= c < 65536 -> back_ff (crc_update c 255) = c.
Proof.
  intros c H. unfold back_ff, crc_update. rewrite back_steps_spec by (apply (lxor_small 16); lia). apply lxor_cancel.
Qed.
Fixpoint backs (n : nat) (v : Z) : Z := match n with O => v | S n' => backs n' (back_ff v) end.
Lemma crc_from_repeat_S : forall n c b, crc_from c (repeat b (S n)) = crc_update (crc_from c (repeat b n)) b.
Proof.
  intros. replace (repeat b (S n)) with (repeat b n ++ [b]) by (symmetry; apply repeat_cons). rewrite crc_from_app. reflexivity.
Qed.
Lemma repeat_bytes : forall n b, is_byte b -> bytes (repeat b n).
Proof. intros. apply Forall_forall. intros x Hx. apply repeat_spec in Hx. subst. auto. Qed.
Lemma backs_S : forall n v, backs (S n) v = backs n (back_ff v).
Proof. reflexivity. Qed.
Lemma backs_spec : forall n c, 0 <= c < 65536 -> backs n (crc_from c (repeat 255 n)) = c.
Proof.
  induction n; intros c H; [reflexivity|]. rewrite crc_from_repeat_S, backs_S.
  rewrite back_ff_spec by (apply crc_from_range; [apply repeat_bytes; unfold is_byte; lia|auto]). auto.
Qed.

(** ** Zeros then 255 *)

(** the values reached after 0, 1, … bytes 0; those from which n, n-1, … bytes 255 lead to 0 *)
Fixpoint forward (n : nat) (c : Z) : list Z := c :: match n with O => [] | S n' => forward n' (crc_update c 0) end.
Fixpoint backward (n : nat) (v : Z) (acc : list Z) : list Z :=
  match n with O => v :: acc | S n' => backward n' (back_ff v) (v :: acc) end.
Fixpoint all_differ (a b : list Z) : bool :=
  match a, b with
  | [], [] => true
  | x :: a', y :: b' => negb (x =? y) && all_differ a' b'
  | _, _ => false
  end.
Lemma forward_nth : forall n c k, (k <= n)%nat -> nth_error (forward n c) k = Some (crc_from c (repeat 0 k)).
Proof.
  induction n; intros c k H; destruct k; try reflexivity; [lia|]. cbn [forward nth_error]. rewrite IHn by lia. reflexivity.
Qed.
Lemma backward_nth : forall n v acc k, (k <= n)%nat -> nth_error (backward n v acc) k = Some (backs (n - k) v).
Proof.
  induction n; intros v acc k H.
  - assert (k = 0)%nat by lia. subst. reflexivity.
  - cbn [backward]. destruct (Nat.eq_dec k (S n)) as [->|Hk].
    + rewrite Nat.sub_diag. cbn [backs]. clear. revert v acc. assert (G : forall m v acc j, nth_error (backward m v acc) (S m + j) = nth_error acc j).
      { induction m; intros; cbn [backward Nat.add]; [reflexivity|]. change (S (S (m + j))) with (S (S (m + j))).
        replace (S (S (m + j))) with (S m + S j)%nat by lia. rewrite IHm. reflexivity. }
      intros. replace (S n) with (S n + 0)%nat by lia. rewrite G. reflexivity.
    + rewrite IHn by lia. replace (S n - k)%nat with (S (n - k)) by lia. reflexivity.
Qed.
Lemma all_differ_nth : forall a b k x y, all_differ a b = true -> nth_error a k = Some x -> nth_error b k = Some y -> x <> y.
Proof.
  induction a; intros b k x y H Hx Hy; destruct b; try discriminate H; [destruct k; discriminate Hx|].
  cbn [all_differ] in H. apply andb_true_iff in H. destruct H as (H1 & H2). destruct k; cbn [nth_error] in *.
  - injection Hx as <-. injection Hy as <-. lia.
  - eauto.
Qed.
Lemma never : all_differ (forward 1024 65535) (backward 1024 0 []) = true.
Proof. vm_compute. reflexivity. Qed.

Lemma zeros_then_ff : forall m k, (m + k = CFG_SIZE)%nat -> crc_of (repeat 0 m ++ repeat 255 k) <> 0.
Proof.
  intros m k H E. rewrite crc_of_from, crc_from_app in E.
  set (c := crc_from 65535 (repeat 0 m)) in *.
  assert (R : 0 <= c < 65536) by (apply crc_from_range; [apply repeat_bytes; unfold is_byte; lia|lia]).
  assert (B := backs_spec k c R). rewrite E in B.
  assert (H' : (m + k = 1024)%nat) by exact H.
  apply (all_differ_nth _ _ m c (backs k 0) never).
  - rewrite forward_nth by lia. reflexivity.
  - rewrite backward_nth by lia. do 2 f_equal. lia.
  - auto.
Qed.

Lemma torn_zeros : forall n, crc_of (torn n (repeat 0 CFG_SIZE)) <> 0.
Proof.
  intros n. unfold torn. rewrite repeat_length.
  assert (F : forall m j, firstn j (repeat 0 m) = repeat 0 (Nat.min j m)).
  { induction m; destruct j; cbn [repeat firstn Nat.min]; try reflexivity. rewrite IHm. reflexivity. }
  rewrite F. apply zeros_then_ff. lia.
Qed.

(** ** The command "esp reset" *)
Lemma c61 : forall o s, reachable s -> exists s', cli_erase o s = Some s' /\
  ((forall chip, settings_at_start chip (e_flash (c_ee s')) (factory chip)) \/
   (o = NotErased /\ e_flash (c_ee s') = e_flash (c_ee s))).
Proof.
  intros o s R. destruct (erase_spec o s (reachable_inv s R)) as (s' & E & I & _ & C). exists s'. split; [exact E|].
  assert (Fl : flash_ok (e_flash (c_ee s'))) by (destruct I as (_ & _ & _ & F & _); exact F).
  destruct C as [C|[(-> & C)|(n & -> & C)]]; [left|right; auto|left].
  - apply bad_flash; [exact Fl|]. rewrite C. exact (proj2 blank_bad).
  - apply bad_flash; [exact Fl|]. rewrite C. apply torn_zeros.
Qed.
