(** Facts about the primitives of [Base]. *)
From Coq Require Import ZArith List Bool Lia ZifyBool ZifyNat.
From Verif Require Import Base.
Import ListNotations.
Open Scope Z_scope.

Ltac inv H := inversion H; subst; clear H.

Lemma rd_app : forall A x B, rd (A ++ x :: B) (length A) = Some x.
Proof. unfold rd. induction A; simpl; auto. Qed.

Lemma rd_lt : forall m i, (i < length m)%nat -> exists b, rd m i = Some b.
Proof.
  unfold rd. intros. destruct (nth_error m i) eqn:E; eauto.
  apply nth_error_None in E. lia.
Qed.

Lemma rd_some_lt : forall m i b, rd m i = Some b -> (i < length m)%nat.
Proof. unfold rd. intros. apply nth_error_Some. congruence. Qed.

Lemma upd_app : forall A x B v, upd (A ++ x :: B) (length A) v = Some (A ++ v :: B).
Proof. induction A; simpl; intros; auto. rewrite IHA. auto. Qed.

Lemma upd_lt : forall m i v, (i < length m)%nat ->
  upd m i v = Some (firstn i m ++ v :: skipn (S i) m).
Proof.
  induction m; simpl; intros; [lia|]. destruct i; simpl; auto.
  rewrite IHm by lia. auto.
Qed.

Lemma upd_length : forall m i v m', upd m i v = Some m' -> length m' = length m.
Proof.
  induction m; simpl; intros; [discriminate|]. destruct i.
  - inv H. auto.
  - destruct (upd m i v) eqn:E; inv H. simpl. erewrite IHm; eauto.
Qed.

Lemma upd_none : forall m i v, (length m <= i)%nat -> upd m i v = None.
Proof. induction m; simpl; intros; auto. destruct i; [lia|]. rewrite IHm by lia. auto. Qed.

Lemma beq_eq : forall a b, beq a b = true <-> a = b.
Proof.
  induction a; destruct b; simpl; split; intros; try discriminate; auto.
  - apply andb_true_iff in H. destruct H. apply Z.eqb_eq in H. apply IHa in H0. subst; auto.
  - inv H. rewrite Z.eqb_refl. simpl. apply IHa. auto.
Qed.
Lemma beq_refl : forall a, beq a a = true.
Proof. intros. apply beq_eq. auto. Qed.
Lemma beq_neq : forall a b, beq a b = false <-> a <> b.
Proof.
  intros. split; intros.
  - intro. subst. rewrite beq_refl in H. discriminate.
  - destruct (beq a b) eqn:E; auto. apply beq_eq in E. contradiction.
Qed.

Lemma skipn_app_exact : forall (A B : list Z), skipn (length A) (A ++ B) = B.
Proof. intros. rewrite skipn_app, skipn_all, Nat.sub_diag. auto. Qed.
Lemma firstn_app_exact : forall (A B : list Z), firstn (length A) (A ++ B) = A.
Proof. intros. rewrite firstn_app, firstn_all, Nat.sub_diag. simpl. apply app_nil_r. Qed.

Lemma firstn_split : forall (m : list Z) n A, firstn n m = A -> m = A ++ skipn n m.
Proof. intros. subst. symmetry. apply firstn_skipn. Qed.

Lemma cstr_from_app : forall s rest, Forall (fun c => c <> 0) s -> cstr_from (s ++ 0 :: rest) = Some s.
Proof.
  induction s; simpl; intros; auto. inv H.
  destruct (Z.eqb_spec a 0); [contradiction|]. rewrite IHs; auto.
Qed.

Lemma cstr_at_app : forall A s rest, Forall (fun c => c <> 0) s ->
  cstr_at (A ++ s ++ 0 :: rest) (length A) = Some s.
Proof. intros. unfold cstr_at. rewrite skipn_app_exact. apply cstr_from_app; auto. Qed.

Lemma u8_id : forall x, is_byte x -> u8 x = x.
Proof. unfold is_byte, u8. intros. apply Z.mod_small. lia. Qed.

Lemma mod_add_l64 : forall a b, (a mod 64 + b) mod 64 = (a + b) mod 64.
Proof. intros. rewrite Zplus_mod_idemp_l. auto. Qed.
