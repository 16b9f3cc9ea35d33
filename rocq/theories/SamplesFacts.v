(** Decision procedures for the well-formedness predicates, so that examples are checked by computation. *)
From Coq Require Import ZArith List Bool Lia ZifyBool ZifyNat.
From Verif Require Import Base BaseFacts Teleinfo TeleinfoSpec Publish Samples GroupProofs.
Import ListNotations.
Open Scope Z_scope.

Lemma good_tb_spec : forall x, good_tb x = true -> good_t x.
Proof.
  intros [s [l v]] H. unfold good_tb in H. cbn [fst snd] in H.
  repeat (apply andb_prop in H; destruct H as [H ?]).
  unfold good_t, good_group, char7. cbn [fst snd].
  assert (HF : forall w, forallb (fun c => (0 <? c) && (c <? 128) && negb (is_ctrl c)) w = true -> Forall (fun c => 0 < c < 128 /\ is_ctrl c = false) w).
  { intros w Hw. rewrite forallb_forall in Hw. apply Forall_forall. intros c Hc. apply Hw in Hc. destruct (is_ctrl c); cbn in Hc; split; auto; lia. }
  split. { destruct (is_ctrl s); cbn in *; split; auto; lia. }
  split; [auto|]. split; [auto|]. split.
  - intro Hin. apply negb_true_iff in H1. assert (existsb (Z.eqb s) l = true).
    { apply existsb_exists. exists s. split; auto. apply Z.eqb_refl. } congruence.
  - apply Nat.leb_le; auto.
Qed.
Lemma goods_spec : forall gs, forallb good_tb gs = true -> Forall good_t gs.
Proof. intros. rewrite forallb_forall in H. apply Forall_forall. intros. apply good_tb_spec. auto. Qed.

Lemma fitsb_aux : forall bs u b, snd (fold_left (fun acc b => (fst acc + length (kept b), snd acc && Nat.ltb (fst acc + length b) 348))%nat bs (u, b)) = true ->
  b = true /\ fits u bs.
Proof.
  induction bs; intros u b H; cbn [fold_left fst snd] in H.
  - cbn. auto.
  - apply IHbs in H. destruct H as [H1 H2]. apply andb_prop in H1. destruct H1 as [-> H1]. apply Nat.ltb_lt in H1. cbn [fits]. auto.
Qed.
Lemma fitsb_spec : forall bs, fitsb bs = true -> fits 0 bs.
Proof. intros. apply fitsb_aux in H. apply H. Qed.

Definition bytesb (l : list Z) : bool := forallb (fun c => (0 <=? c) && (c <? 256)) l.
Lemma bytesb_spec : forall l, bytesb l = true -> Forall is_byte l.
Proof. intros. unfold bytesb in H. rewrite forallb_forall in H. apply Forall_forall. intros x Hx. apply H in Hx. unfold is_byte. lia. Qed.

Definition good_bodyb (b : list Z) : bool :=
  forallb (fun c => (0 <=? c) && (c <? 256) && negb (is_ctrl c)) b && Nat.leb 4 (length b) && (checksum_char b =? checksum (payload b)).
Lemma good_bodyb_spec : forall b, good_bodyb b = true -> good_body b.
Proof.
  intros b H. unfold good_bodyb in H. repeat (apply andb_prop in H; destruct H as [H ?]).
  split; [|split; [apply Nat.leb_le; auto|lia]].
  rewrite forallb_forall in H. apply Forall_forall. intros x Hx. apply H in Hx. unfold is_byte. destruct (is_ctrl x); cbn in Hx; split; auto; lia.
Qed.
Definition valid_frameb (bs : list (list Z)) : bool := match bs with [] => false | _ => forallb good_bodyb bs && fitsb bs end.
Lemma valid_frameb_spec : forall bs, valid_frameb bs = true -> valid_frame bs.
Proof.
  intros bs H. destruct bs; [discriminate|]. unfold valid_frameb in H. apply andb_prop in H. destruct H as [H1 H2].
  split; [discriminate|]. split; [|apply fitsb_spec; auto]. rewrite forallb_forall in H1. apply Forall_forall. intros. apply good_bodyb_spec. auto.
Qed.
