(** From raw groups to labelled groups: encoding and round trip. *)
From Coq Require Import ZArith List Bool Lia ZifyBool ZifyNat.
From Verif Require Import Base BaseFacts Teleinfo TeleinfoSpec DecoderProofs AccessProofs.
Import ListNotations.
Open Scope Z_scope.

Lemma enc_group_split : forall s g,
  payload (enc_group s g) = fst g ++ [s] ++ snd g /\ second_sep (enc_group s g) = s /\
  checksum_char (enc_group s g) = checksum (fst g ++ [s] ++ snd g).
Proof.
  intros. unfold enc_group. rewrite payload_app, second_sep_app, checksum_char_app. auto.
Qed.

Lemma checksum_range : forall l, 32 <= checksum l < 96.
Proof. intros. unfold checksum. pose proof (Z.mod_pos_bound (total l) 64 ltac:(lia)). lia. Qed.

Lemma range_not_ctrl : forall c, 32 <= c -> is_ctrl c = false.
Proof. unfold is_ctrl. intros. lia. Qed.

Lemma char7_plain : forall l, Forall char7 l -> plain l.
Proof. unfold plain. intros. eapply Forall_impl; eauto. unfold char7, is_byte. intros. intuition lia. Qed.

Lemma enc_group_good : forall s g, good_group s g -> good_body (enc_group s g).
Proof.
  intros s [l v] (H1 & H2 & H3 & H4 & H5). simpl in *.
  destruct (enc_group_split s (l, v)) as (E1 & E2 & E3). unfold good_body. rewrite E3, E1. cbn [fst snd].
  split; [|split; auto].
  - unfold enc_group. cbn [fst snd]. unfold plain. rewrite !Forall_app. repeat split.
    + apply char7_plain; auto.
    + apply char7_plain. constructor; auto.
    + apply char7_plain; auto.
    + constructor; [|constructor; [|constructor]].
      * destruct H1. unfold is_byte. split; [lia|auto].
      * pose proof (checksum_range (l ++ [s] ++ v)). split; [unfold is_byte; lia|]. apply range_not_ctrl. lia.
  - unfold enc_group. cbn [fst snd]. rewrite !app_length. simpl. lia.
Qed.

Lemma cut_first : forall l s v, ~ In s l -> Forall char7 v -> cut s (l ++ [s] ++ v) = l ++ [0] ++ v.
Proof.
  induction l; simpl; intros.
  - rewrite Z.eqb_refl. f_equal. rewrite <- (map_id v) at 2. apply map_ext_in.
    intros. rewrite Forall_forall in H0. apply H0 in H1. destruct H1.
    destruct (Z.eqb_spec a 255); auto. lia.
  - destruct (Z.eqb_spec a s). { exfalso; apply H; auto. } f_equal. apply IHl; auto.
Qed.

Lemma rstrip_after_nul : forall l v, rstrip (l ++ [0] ++ v) = l ++ [0] ++ rstrip v.
Proof.
  intros. induction v using rev_ind.
  - rewrite app_nil_r. change (rstrip []) with (@nil Z). rewrite app_nil_r. apply rstrip_snoc_other. lia.
  - destruct (Z.eq_dec x 46).
    + subst. rewrite rstrip_snoc_dot, <- IHv.
      replace (l ++ [0] ++ v ++ [46]) with ((l ++ [0] ++ v) ++ [46]) by (rewrite <- !app_assoc; auto).
      apply rstrip_snoc_dot.
    + rewrite (rstrip_snoc_other v) by auto.
      replace (l ++ [0] ++ v ++ [x]) with ((l ++ [0] ++ v) ++ [x]) by (rewrite <- !app_assoc; auto).
      rewrite rstrip_snoc_other by auto. auto.
Qed.

Lemma kept_enc_group : forall s g, good_group s g ->
  kept (enc_group s g) = fst g ++ [0] ++ rstrip (snd g) ++ [0].
Proof.
  intros s [l v] (H1 & H2 & H3 & H4 & H5). simpl in *.
  destruct (enc_group_split s (l, v)) as (E1 & E2 & E3). unfold kept. rewrite E1, E2. cbn [fst snd].
  rewrite cut_first by auto. rewrite rstrip_after_nul. rewrite <- !app_assoc. auto.
Qed.

Lemma char7_nz : forall l, Forall char7 l -> nz l.
Proof. intros. eapply Forall_impl; eauto. unfold char7. intros. lia. Qed.
Lemma rstrip_prefix : forall l, exists r, l = rstrip l ++ r.
Proof.
  induction l using rev_ind. { exists []. auto. }
  destruct (Z.eq_dec x 46).
  - subst. destruct IHl as [r E]. exists (r ++ [46]). rewrite rstrip_snoc_dot, app_assoc, <- E. auto.
  - exists []. rewrite rstrip_snoc_other, app_nil_r; auto.
Qed.
Lemma rstrip_Forall : forall (P : Z -> Prop) l, Forall P l -> Forall P (rstrip l).
Proof. intros. destruct (rstrip_prefix l) as [r E]. rewrite E in H. apply Forall_app in H. apply H. Qed.


Lemma content_groups : forall gs, Forall good_t gs ->
  content (map enc_t gs) = join0 (concat (map (fun x => [fst (snd x); rstrip (snd (snd x))]) gs)).
Proof.
  induction gs as [|x gs]; intros; auto. inv H. unfold content in *. cbn [map concat].
  rewrite IHgs by auto. unfold enc_t at 1. rewrite kept_enc_group by auto. rewrite <- !app_assoc. cbn [app].
  rewrite !join0_cons. auto.
Qed.

Lemma pair_up_concat : forall gs : list tgroup,
  pair_up (concat (map (fun x => [fst (snd x); rstrip (snd (snd x))]) gs)) = map (fun x => shown (snd x)) gs.
Proof. induction gs; simpl; auto. rewrite IHgs. auto. Qed.

Lemma pairs_of_groups : forall gs, Forall good_t gs ->
  pairs_of (content (map enc_t gs)) = map (fun x => shown (snd x)) gs.
Proof.
  intros. unfold pairs_of. rewrite content_groups by auto. rewrite pieces_join0.
  - apply pair_up_concat.
  - induction H; simpl; constructor.
    + destruct H as (_ & H & _). apply char7_nz; auto.
    + constructor; auto. destruct H as (_ & _ & H & _). apply rstrip_Forall. apply char7_nz; auto.
Qed.

Lemma good_bodies_t : forall gs, Forall good_t gs -> Forall good_body (map enc_t gs).
Proof. induction 1; simpl; constructor; auto. apply enc_group_good; auto. Qed.

(** A frame of at most 349 bytes on the line always fits. *)
Lemma fits_short : forall bs used, Forall good_body bs -> (used + length (groups bs) <= 349)%nat -> fits used bs.
Proof.
  induction bs; simpl; intros; auto. inv H. unfold groups in *. cbn [map concat] in H0.
  unfold enc_body in H0 at 1. rewrite app_length in H0. cbn [length] in H0. rewrite app_length in H0. simpl in H0.
  split; [lia|]. apply IHbs; auto. destruct H3 as (_ & H & _). pose proof (kept_length a H).
  unfold enc_body in *. lia.
Qed.
