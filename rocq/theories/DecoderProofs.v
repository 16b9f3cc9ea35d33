(** Proofs about TeleinfoDecoder::put: the automaton recognises exactly the frames of [TeleinfoSpec]. *)
From Coq Require Import ZArith List Bool Lia ZifyBool ZifyNat.
From Verif Require Import Base BaseFacts Teleinfo TeleinfoSpec.
Import ListNotations.
Open Scope Z_scope.

Fixpoint mark (sep : Z) (l : list Z) : list Z :=
  match l with
  | [] => []
  | b :: r => if b =? sep then 0 :: mark 255 r else b :: mark sep r
  end.

Lemma mark_255 : forall l, mark 255 l = map (fun c => if c =? 255 then 0 else c) l.
Proof. induction l; simpl; auto. destruct (a =? 255); simpl; rewrite IHl; auto. Qed.
Lemma mark_cut : forall l sep, mark sep l = cut sep l.
Proof. induction l; simpl; intros; auto. destruct (a =? sep); [rewrite mark_255|rewrite IHl]; auto. Qed.
Lemma cut_length : forall l sep, length (cut sep l) = length l.
Proof. induction l; simpl; intros; auto. destruct (a =? sep); simpl; [rewrite map_length|rewrite IHl]; auto. Qed.

Definition csum (sgn : bool) (l : list Z) : Z := fold_right (fun b s => char_val sgn b + s) 0 l.

Lemma ck_loop_spec : forall sgn X A B sep sum,
  ck_loop sgn (length X) (length A) sep sum (A ++ X ++ B) =
  Some (sum + csum sgn X, A ++ cut sep X ++ B).
Proof.
  intros sgn X A B sep sum. rewrite <- mark_cut. revert A B sep sum.
  induction X; intros; simpl.
  - f_equal. f_equal. lia.
  - rewrite rd_app. destruct (a =? sep).
    + rewrite upd_app. replace (A ++ 0 :: X ++ B) with ((A ++ [0]) ++ X ++ B) by (rewrite <- app_assoc; auto).
      replace (S (length A)) with (length (A ++ [0])) by (rewrite app_length; simpl; lia).
      rewrite IHX. f_equal. f_equal; [lia|]. rewrite <- app_assoc. auto.
    + replace (A ++ a :: X ++ B) with ((A ++ [a]) ++ X ++ B) by (rewrite <- app_assoc; auto).
      replace (S (length A)) with (length (A ++ [a])) by (rewrite app_length; simpl; lia).
      rewrite IHX. f_equal. f_equal; [lia|]. rewrite <- app_assoc. auto.
Qed.

Lemma char_val_mod64 : forall sgn b, char_val sgn b mod 64 = b mod 64.
Proof.
  intros. unfold char_val. destruct (sgn && (128 <=? b)); auto.
  replace (b - 256) with (b + (-4) * 64) by lia. apply Z_mod_plus_full.
Qed.
Lemma csum_mod64 : forall sgn l, csum sgn l mod 64 = total l mod 64.
Proof.
  induction l; simpl; auto. rewrite Zplus_mod, IHl, char_val_mod64, <- Zplus_mod. auto.
Qed.
Lemma land63 : forall x, Z.land x 63 = x mod 64.
Proof. intros. change 63 with (Z.ones 6). rewrite Z.land_ones by lia. auto. Qed.

Lemma char_val_eq : forall sgn s b, is_byte b -> (s mod 64 + 32 =? char_val sgn b) = (s mod 64 + 32 =? b).
Proof.
  intros. unfold is_byte in H. unfold char_val.
  pose proof (Z.mod_pos_bound s 64 ltac:(lia)).
  destruct (sgn && (128 <=? b)) eqn:E; auto. lia.
Qed.

(** trailing dots *)
Lemma rstrip_snoc_dot : forall l, rstrip (l ++ [46]) = rstrip l.
Proof. intros. unfold rstrip. rewrite rev_app_distr. simpl. auto. Qed.
Lemma rstrip_snoc_other : forall l c, c <> 46 -> rstrip (l ++ [c]) = l ++ [c].
Proof.
  intros. unfold rstrip. rewrite rev_app_distr. simpl. destruct (Z.eqb_spec c 46); [contradiction|].
  simpl. rewrite rev_involutive. auto.
Qed.
Lemma rstrip_length : forall l, (length (rstrip l) <= length l)%nat.
Proof.
  intros. unfold rstrip. rewrite rev_length.
  assert (forall k, (length (drop_dots k) <= length k)%nat).
  { induction k; simpl; auto. destruct (a =? 46); simpl; lia. }
  specialize (H (rev l)). rewrite rev_length in H. auto.
Qed.

Definition stops (A : list Z) : Prop := A = [] \/ exists A', A = A' ++ [0].

Lemma strip_loop_eq : forall k fr, strip_loop (S (S k)) fr =
  match rd fr k with Some b => if b =? 46 then strip_loop (S k) fr else Some (S (S k)) | None => None end.
Proof. reflexivity. Qed.

Lemma strip_loop_spec : forall Y A c B, stops A ->
  exists Z', strip_loop (length A + length Y + 1) (A ++ Y ++ c :: B) = Some (length A + length (rstrip Y) + 1)%nat
   /\ Y = rstrip Y ++ Z'.
Proof.
  induction Y using rev_ind; intros.
  - exists []. split; auto. simpl. destruct H as [->|[A' ->]]; simpl; auto.
    rewrite !app_length; simpl.
    replace (length A' + 1 + 0 + 1)%nat with (S (S (length A'))) by lia.
    rewrite strip_loop_eq. rewrite <- app_assoc. simpl. rewrite rd_app. auto.
  - rewrite !app_length; simpl.
    replace (length A + (length Y + 1) + 1)%nat with (S (S (length A + length Y))) by lia.
    rewrite strip_loop_eq.
    replace (A ++ (Y ++ [x]) ++ c :: B) with ((A ++ Y) ++ x :: c :: B) by (rewrite <- !app_assoc; auto).
    replace (length A + length Y)%nat with (length (A ++ Y)) by (rewrite app_length; auto).
    rewrite rd_app.
    destruct (Z.eqb_spec x 46).
    + subst. rewrite rstrip_snoc_dot.
      destruct (IHY A 46 (c :: B) H) as [Z' [HZ1 HZ2]]. exists (Z' ++ [46]). split.
      * rewrite <- HZ1. f_equal; [rewrite app_length; lia|]. rewrite <- !app_assoc. auto.
      * rewrite app_assoc, <- HZ2. auto.
    + exists []. rewrite rstrip_snoc_other by auto. split.
      * f_equal. rewrite !app_length; simpl; lia.
      * rewrite app_nil_r; auto.
Qed.

Lemma kept_ends : forall b, exists k, kept b = k ++ [0].
Proof. intros. unfold kept. eauto. Qed.
Lemma content_snoc : forall bs b, content (bs ++ [b]) = content bs ++ kept b.
Proof. intros. unfold content. rewrite map_app, concat_app. simpl. rewrite app_nil_r. auto. Qed.
Lemma content_stops : forall bs, stops (content bs).
Proof.
  intros. destruct bs using rev_ind; [left; auto|]. right. rewrite content_snoc.
  destruct (kept_ends x) as [k ->]. exists (content bs ++ k). rewrite app_assoc. auto.
Qed.
Lemma content_nil : forall bs, content bs = [] -> bs = [].
Proof.
  intros. destruct bs using rev_ind; auto. rewrite content_snoc in H.
  destruct (kept_ends x) as [k E]. rewrite E in H. destruct (content bs); destruct k; discriminate.
Qed.
Lemma kept_length : forall b, (4 <= length b)%nat -> (1 <= length (kept b) <= length b - 1)%nat.
Proof.
  intros. unfold kept. rewrite app_length. simpl.
  pose proof (rstrip_length (cut (second_sep b) (payload b))). rewrite cut_length in H0.
  unfold payload in H0. rewrite firstn_length in H0. unfold payload. lia.
Qed.

Lemma body_split : forall b, (2 <= length b)%nat -> b = payload b ++ [second_sep b; checksum_char b].
Proof.
  intros. unfold payload, second_sep, checksum_char.
  remember (length b - 2)%nat as n.
  replace (length b - 1)%nat with (S n) by lia.
  rewrite <- (firstn_skipn n b) at 1. f_equal.
  assert (length (skipn n b) = 2)%nat by (rewrite skipn_length; lia).
  destruct (skipn n b) as [|x [|y [|]]] eqn:E; simpl in H0; try lia.
  f_equal; [|f_equal].
  - rewrite <- (firstn_skipn n b). rewrite app_nth2; rewrite firstn_length_le by lia; [|lia].
    rewrite Nat.sub_diag, E. auto.
  - rewrite <- (firstn_skipn n b). rewrite app_nth2; rewrite firstn_length_le by lia; [|lia].
    replace (S n - n)%nat with 1%nat by lia. rewrite E. auto.
Qed.
Lemma payload_app : forall p s c, payload (p ++ [s; c]) = p.
Proof.
  intros. unfold payload. rewrite app_length. simpl.
  replace (length p + 2 - 2)%nat with (length p) by lia. apply firstn_app_exact.
Qed.
Lemma second_sep_app : forall p s c, second_sep (p ++ [s; c]) = s.
Proof.
  intros. unfold second_sep. rewrite app_length. simpl.
  replace (length p + 2 - 2)%nat with (length p) by lia. rewrite app_nth2; [|lia]. rewrite Nat.sub_diag. auto.
Qed.
Lemma checksum_char_app : forall p s c, checksum_char (p ++ [s; c]) = c.
Proof.
  intros. unfold checksum_char. rewrite app_length. simpl.
  replace (length p + 2 - 1)%nat with (S (length p)) by lia. rewrite app_nth2; [|lia].
  replace (S (length p) - length p)%nat with 1%nat by lia. auto.
Qed.

Definition okb (b : list Z) : bool := checksum_char b =? checksum (payload b).

(** What CR does in state wait_cr when the pending group is [part], after the kept text [A]. *)
Lemma put_cr_spec : forall sgn d A part R,
  d_frame d = A ++ part ++ R -> stops A -> plain part ->
  d_start d = length A -> d_off d = (length A + length part)%nat -> d_size d = 0%nat ->
  (d_off d <= length (d_frame d))%nat ->
  exists fr,
  length fr = length (d_frame d) /\
  if (Nat.leb 4 (length part) && Nat.ltb (length A + length part) 348 && okb part)%bool
  then exists R', fr = A ++ kept part ++ R' /\
     put_cr sgn d = Some (mk_dec fr 0 (d_ts d) (length A + length (kept part)) (d_start d) WaitLfOrEtx)
  else put_cr sgn d = Some (mk_dec fr 0 (d_ts d) (d_off d) (d_start d) WaitStx).
Proof.
  intros sgn d A part R Hfr Hst Hpl Hs Ho Hz Hle.
  unfold put_cr. unfold set_state. rewrite Hz, Ho, Hs.
  change (MAX_FRAME_SIZE - 2)%nat with 348%nat.
  destruct (Nat.leb_spec 4 (length part)).
  2:{ exists (d_frame d). split; auto. cbn [andb].
      destruct (Nat.leb 4 (length A + length part)); auto.
      destruct (Nat.ltb (length A + length part) 348); cbn [andb]; auto.
      destruct (Nat.ltb_spec (length A) (length A + length part - 3)); [lia|]. auto. }
  destruct (Nat.ltb_spec (length A + length part) 348).
  2:{ exists (d_frame d). split; auto. rewrite !andb_false_r. cbn [andb]. auto. }
  destruct (Nat.leb_spec 4 (length A + length part)); [|lia]. cbn [andb].
  destruct (Nat.ltb_spec (length A) (length A + length part - 3)); [|lia].
  assert (Hex : exists p s c, part = p ++ [s; c]) by (do 3 eexists; apply body_split; lia).
  destruct Hex as (p & s & c & ->).
  unfold okb, kept. rewrite payload_app, second_sep_app, checksum_char_app.
  assert (Hl2 : length (p ++ [s; c]) = (length p + 2)%nat) by (rewrite app_length; auto).
  rewrite Hl2 in *. rewrite Hfr in *. rewrite <- !app_assoc in *. cbn [app] in *.
  assert (E1 : rd (A ++ p ++ s :: c :: R) (length A + (length p + 2) - 2) = Some s).
  { replace (length A + (length p + 2) - 2)%nat with (length (A ++ p)) by (rewrite app_length; lia).
    rewrite app_assoc. apply rd_app. }
  assert (E2 : rd (A ++ p ++ s :: c :: R) (length A + (length p + 2) - 1) = Some c).
  { replace (length A + (length p + 2) - 1)%nat with (length ((A ++ p) ++ [s])) by (rewrite !app_length; simpl; lia).
    replace (A ++ p ++ s :: c :: R) with (((A ++ p) ++ [s]) ++ c :: R) by (rewrite <- !app_assoc; auto). apply rd_app. }
  rewrite E1, E2.
  replace (length A + (length p + 2) - 2 - length A)%nat with (length p) by lia.
  rewrite (ck_loop_spec sgn p A (s :: c :: R) s 0).
  rewrite land63, Z.add_0_l, csum_mod64.
  assert (Hbc : is_byte c).
  { apply Forall_app in Hpl. destruct Hpl as [_ Hpl]. inv Hpl. inv H6. apply H7. }
  rewrite char_val_eq by auto. unfold checksum. rewrite (Z.eqb_sym c).
  destruct (total p mod 64 + 32 =? c) eqn:Eck.
  - destruct (strip_loop_spec (cut s p) A s (c :: R) Hst) as [Z' [HZ1 HZ2]].
    rewrite cut_length in HZ1.
    replace (length A + (length p + 2) - 1)%nat with (length A + length p + 1)%nat by lia.
    rewrite HZ1.
    replace (length A + length (rstrip (cut s p)) + 1 - 1)%nat with (length (A ++ rstrip (cut s p))) by (rewrite app_length; lia).
    assert (Hlen : (length (rstrip (cut s p)) + length Z' = length p)%nat)
      by (rewrite <- app_length, <- HZ2; apply cut_length).
    replace (A ++ cut s p ++ s :: c :: R) with ((A ++ rstrip (cut s p)) ++ Z' ++ s :: c :: R)
      by (rewrite HZ2 at 2; rewrite <- !app_assoc; auto).
    destruct Z' as [|z Z']; cbn [app]; rewrite upd_app.
    + exists ((A ++ rstrip (cut s p)) ++ 0 :: c :: R). split.
      * rewrite !app_length. simpl in *. lia.
      * eexists. split; [rewrite <- !app_assoc; reflexivity|]. f_equal. f_equal. rewrite app_length. simpl. lia.
    + exists ((A ++ rstrip (cut s p)) ++ 0 :: Z' ++ s :: c :: R). split.
      * rewrite !app_length. simpl in *. rewrite !app_length. simpl. lia.
      * eexists. split; [rewrite <- !app_assoc; reflexivity|]. f_equal. f_equal. rewrite app_length. simpl. lia.
  - eexists. split; [|reflexivity]. rewrite !app_length, cut_length. auto.
Qed.

(** ** The invariant linking the received history and the state of the decoder *)

Definition since_stx (h : list event) (t0 : timeval) (l : list Z) : Prop :=
  exists pre rest, h = pre ++ (t0, 2) :: rest /\ map snd rest = l.

Lemma since_snoc : forall h t0 l now c, since_stx h t0 l -> since_stx (h ++ [(now, c)]) t0 (l ++ [c]).
Proof.
  intros. destruct H as (pre & rest & -> & <-). exists pre, (rest ++ [(now, c)]). split.
  - rewrite <- app_assoc. auto.
  - rewrite map_app. auto.
Qed.

Definition in_groups (h : list event) (d : decoder) (bodies : list (list Z)) : Prop :=
  Forall good_body bodies /\ fits 0 bodies /\
  exists R, d_frame d = content bodies ++ R /\ d_off d = length (content bodies) /\
  since_stx h (d_ts d) (groups bodies).

Definition in_body (h : list event) (d : decoder) (bodies : list (list Z)) (part : list Z) : Prop :=
  Forall good_body bodies /\ fits 0 bodies /\ plain part /\
  d_start d = length (content bodies) /\
  exists R, d_frame d = content bodies ++ part ++ R /\ d_off d = (length (content bodies) + length part)%nat /\
  since_stx h (d_ts d) (groups bodies ++ 10 :: part).

Definition complete (h : list event) (d : decoder) : Prop :=
  exists bodies R, valid_frame bodies /\ d_frame d = content bodies ++ R /\ d_size d = length (content bodies) /\
  since_stx h (d_ts d) (groups bodies ++ [3]).

Definition Inv (h : list event) (d : decoder) : Prop :=
  length (d_frame d) = 350%nat /\
  (d_size d <> 0%nat -> complete h d) /\
  match d_state d with
  | WaitStx => True
  | WaitLfOrEtx => exists bodies, in_groups h d bodies
  | WaitCr => exists bodies part, in_body h d bodies part
  end.

Lemma fits_snoc : forall bs used b, fits used bs -> (used + length (content bs) + length b < 348)%nat ->
  fits used (bs ++ [b]).
Proof.
  induction bs; simpl; intros.
  - split; auto. unfold content in H0; simpl in H0. lia.
  - destruct H. split; auto. apply IHbs; auto. unfold content in *. simpl in H0. rewrite app_length in H0. lia.
Qed.

Lemma groups_snoc : forall bs b, groups (bs ++ [b]) = groups bs ++ 10 :: b ++ [13].
Proof. intros. unfold groups. rewrite map_app, concat_app. simpl. rewrite app_nil_r. auto. Qed.

Lemma okb_good : forall b, plain b -> (4 <= length b)%nat -> okb b = true -> good_body b.
Proof. unfold good_body, okb. intros. rewrite Z.eqb_eq in H1. auto. Qed.

Lemma put_inv : forall sgn h d now c, is_byte c -> Inv h d ->
  exists d', put sgn now c d = Some d' /\ Inv (h ++ [(now, c)]) d'.
Proof.
  intros sgn h d now c Hc (Hlen & Hsz & Hst).
  unfold put. set (d1 := mk_dec (d_frame d) 0 (d_ts d) (d_off d) (d_start d) (d_state d)).
  assert (Hreset : forall dd, length (d_frame dd) = 350%nat -> d_size dd = 0%nat -> d_state dd = WaitStx ->
            Inv (h ++ [(now, c)]) dd).
  { intros. split; auto. split; [intros; congruence|]. rewrite H1. auto. }
  change STX with 2. change LF with 10. change CR with 13. change ETX with 3. change EOT with 4.
  destruct (Z.eqb_spec c 2); [|destruct (Z.eqb_spec c 10); [|destruct (Z.eqb_spec c 13);
    [|destruct (Z.eqb_spec c 3); [|destruct (Z.eqb_spec c 4)]]]].
  - subst c. eexists. split; [reflexivity|]. split; auto. split; [simpl; congruence|]. simpl.
    exists []. split; auto. split; [simpl; auto|]. exists (d_frame d). simpl. repeat split; auto.
    exists h, []. auto.
  - subst c. cbn [d_state d1]. destruct (d_state d) eqn:Es; try (eexists; split; [reflexivity|]; apply Hreset; auto; fail).
    eexists; split; [reflexivity|]. split; auto. split; [simpl; congruence|]. simpl.
    destruct Hst as (bodies & H1 & H2 & R & H3 & H4 & H5). exists bodies, [].
    unfold in_body. simpl. repeat split; auto. { constructor. }
    exists R. repeat split; auto. lia. apply since_snoc. auto.
  - subst c. cbn [d_state d1]. destruct (d_state d) eqn:Es; try (eexists; split; [reflexivity|]; apply Hreset; auto; fail).
    destruct Hst as (bodies & part & H1 & H2 & H3 & H4 & R & H5 & H6 & H7).
    destruct (put_cr_spec sgn d1 (content bodies) part R) as (fr & Hfl & Hres); auto; simpl.
    { apply content_stops. }
    { rewrite Hlen, H6. rewrite <- Hlen, H5, !app_length. lia. }
    destruct (Nat.leb_spec 4 (length part)).
    2:{ rewrite Hres. eexists; split; [reflexivity|]. apply Hreset; auto. simpl. rewrite Hfl. auto. }
    destruct (Nat.ltb_spec (length (content bodies) + length part) 348).
    2:{ cbn [andb] in Hres. rewrite Hres. eexists; split; [reflexivity|]. apply Hreset; auto. simpl. rewrite Hfl. auto. }
    destruct (okb part) eqn:Eok.
    2:{ cbn [andb] in Hres. rewrite Hres. eexists; split; [reflexivity|]. apply Hreset; auto. simpl. rewrite Hfl. auto. }
    cbn [andb] in Hres. destruct Hres as (R' & Hfr & Hput). rewrite Hput.
    eexists; split; [reflexivity|]. split; [simpl; rewrite Hfl; auto|]. split; [simpl; congruence|]. simpl.
    exists (bodies ++ [part]). split; [|split].
    + apply Forall_app. split; auto. constructor; auto. apply okb_good; auto.
    + apply fits_snoc; auto.
    + exists R'. simpl. rewrite content_snoc, app_length, groups_snoc, <- app_assoc. repeat split; auto.
      replace (groups bodies ++ 10 :: part ++ [13]) with ((groups bodies ++ 10 :: part) ++ [13])
        by (rewrite <- app_assoc; auto).
      apply since_snoc. auto.
  - subst c. cbn [d_state d1]. destruct (d_state d) eqn:Es; try (eexists; split; [reflexivity|]; apply Hreset; auto; fail).
    eexists; split; [reflexivity|]. split; auto. split; [|simpl; auto]. simpl. intros Hnz.
    destruct Hst as (bodies & H1 & H2 & R & H3 & H4 & H5). exists bodies, R. simpl. repeat split; auto.
    + intro. subst. simpl in H4. congruence.
    + apply since_snoc. auto.
  - eexists; split; [reflexivity|]. apply Hreset; auto.
  - cbn [d_state d1]. destruct (d_state d) eqn:Es; try (eexists; split; [reflexivity|]; apply Hreset; auto; fail).
    cbn [d_off d1 d_frame]. change MAX_FRAME_SIZE with 350%nat.
    destruct (Nat.ltb_spec (d_off d) 350).
    2:{ eexists; split; [reflexivity|]; apply Hreset; auto. }
    destruct Hst as (bodies & part & H1 & H2 & H3 & H4 & R & H5 & H6 & H7).
    destruct R as [|r R].
    { exfalso. rewrite app_nil_r in H5. rewrite H5, app_length in Hlen. lia. }
    rewrite u8_id by auto. rewrite H6, H5.
    replace (content bodies ++ part ++ r :: R) with ((content bodies ++ part) ++ r :: R) by (rewrite <- app_assoc; auto).
    rewrite <- app_length, upd_app.
    eexists; split; [reflexivity|]. split; [|split; [simpl; congruence|]].
    + cbn [d_frame]. rewrite <- Hlen, H5. rewrite !app_length. simpl. lia.
    + cbn [d_state]. exists bodies, (part ++ [c]). split; [|split; [|split; [|split]]]; auto.
      * apply Forall_app. split; auto. constructor; auto. split; auto. unfold is_ctrl.
        destruct (Z.eqb_spec c 2), (Z.eqb_spec c 3), (Z.eqb_spec c 4), (Z.eqb_spec c 10), (Z.eqb_spec c 13); simpl; congruence.
      * exists R. cbn [d_frame d_off d_ts]. split; [|split].
        -- rewrite <- !app_assoc. auto.
        -- rewrite !app_length. simpl. lia.
        -- replace (groups bodies ++ 10 :: part ++ [c]) with ((groups bodies ++ 10 :: part) ++ [c])
             by (rewrite <- app_assoc; auto).
           apply since_snoc. auto.
Qed.

Lemma run_inv : forall sgn h h0 d, Forall is_byte (map snd h) -> Inv h0 d ->
  exists d', run sgn h d = Some d' /\ Inv (h0 ++ h) d'.
Proof.
  induction h as [|[now c] h]; simpl; intros.
  - exists d. rewrite app_nil_r. auto.
  - inv H. destruct (put_inv sgn h0 d now c H3 H0) as (d1 & E & HI). rewrite E.
    destruct (IHh _ _ H4 HI) as (d2 & E2 & HI2). exists d2. split; auto.
    rewrite <- app_assoc in HI2. auto.
Qed.

Lemma init_inv : forall g, length g = 350%nat -> Inv [] (dec_init g).
Proof. intros. split; auto. split; simpl; auto. congruence. Qed.

(** ** Forward simulation: a valid frame is accepted from any state *)

Lemma run_app : forall sgn h1 h2 d d1, run sgn h1 d = Some d1 -> run sgn (h1 ++ h2) d = run sgn h2 d1.
Proof.
  induction h1 as [|[now c] h1]; simpl; intros.
  - inv H. auto.
  - destruct (put sgn now c d); [|discriminate]. auto.
Qed.
Lemma run_app_inv : forall sgn h1 h2 d d2, run sgn (h1 ++ h2) d = Some d2 ->
  exists d1, run sgn h1 d = Some d1 /\ run sgn h2 d1 = Some d2.
Proof.
  induction h1 as [|[now c] h1]; simpl; intros.
  - eauto.
  - destruct (put sgn now c d); [|discriminate]. auto.
Qed.

Lemma plain_char : forall c, is_ctrl c = false -> c <> 2 /\ c <> 3 /\ c <> 4 /\ c <> 10 /\ c <> 13.
Proof.
  unfold is_ctrl. intros.
  destruct (Z.eqb_spec c 2), (Z.eqb_spec c 3), (Z.eqb_spec c 4), (Z.eqb_spec c 10), (Z.eqb_spec c 13); simpl in H; auto; discriminate.
Qed.

Lemma put_plain : forall sgn now c d, is_byte c -> is_ctrl c = false -> d_state d = WaitCr ->
  forall A r R, d_frame d = A ++ r :: R -> length A = d_off d -> (length (d_frame d) = 350)%nat ->
  put sgn now c d = Some (mk_dec (A ++ c :: R) 0 (d_ts d) (S (d_off d)) (d_start d) WaitCr).
Proof.
  intros. apply plain_char in H0. destruct H0 as (N1 & N2 & N3 & N4 & N5).
  unfold put. change STX with 2. change LF with 10. change CR with 13. change ETX with 3. change EOT with 4.
  rewrite (proj2 (Z.eqb_neq c 2)), (proj2 (Z.eqb_neq c 3)), (proj2 (Z.eqb_neq c 4)), (proj2 (Z.eqb_neq c 10)),
    (proj2 (Z.eqb_neq c 13)) by auto.
  cbn [d_state]. rewrite H1. cbn [d_off]. change MAX_FRAME_SIZE with 350%nat.
  destruct (Nat.ltb_spec (d_off d) 350).
  - cbn [d_frame]. rewrite H2, u8_id by auto. rewrite <- H3, upd_app. auto.
  - exfalso. rewrite <- H4, H2, app_length in H0. simpl in H0. lia.
Qed.

Lemma run_plain : forall sgn part h d A R, map snd h = part -> plain part -> d_state d = WaitCr ->
  d_frame d = A ++ R -> length A = d_off d -> length (d_frame d) = 350%nat -> (length part <= length R)%nat ->
  exists R' sz, (part = [] -> sz = d_size d) /\ (part <> [] -> sz = 0%nat) /\
   length R = (length part + length R')%nat /\
   run sgn h d = Some (mk_dec (A ++ part ++ R') sz (d_ts d) (d_off d + length part) (d_start d) WaitCr).
Proof.
  induction part; intros h d A R Hm Hp Hs Hf Ho Hl Hle.
  - destruct h; [|discriminate]. exists R, (d_size d). simpl. repeat split; auto; try congruence.
    rewrite Nat.add_0_r, <- Hf, <- Hs. destruct d; auto.
  - destruct h as [|[now c] h]; [discriminate|]. simpl in Hm. inv Hm. inv Hp. destruct H1.
    destruct R as [|r R]; [simpl in Hle; lia|]. simpl.
    rewrite (put_plain sgn now a d H H0 Hs A r R) by auto.
    destruct (IHpart h (mk_dec (A ++ a :: R) 0 (d_ts d) (S (d_off d)) (d_start d) WaitCr) (A ++ [a]) R) as (R' & sz & E1 & E2 & E3 & E4); auto.
    { simpl. rewrite <- app_assoc. auto. }
    { rewrite app_length. simpl. lia. }
    { cbn [d_frame]. rewrite <- Hl, Hf, !app_length. auto. }
    { simpl in Hle. lia. }
    exists R', 0%nat. split; [congruence|]. split; [auto|]. split; [simpl in *; lia|].
    rewrite E4. cbn. f_equal. f_equal.
    + rewrite <- app_assoc. auto.
    + destruct (map snd h); auto. apply E2; congruence.
    + lia.
Qed.

(** one group *)
Lemma run_group : forall sgn b h d bs R, map snd h = enc_body b -> good_body b ->
  d_state d = WaitLfOrEtx -> d_frame d = content bs ++ R -> d_off d = length (content bs) ->
  length (d_frame d) = 350%nat -> (length (content bs) + length b < 348)%nat ->
  exists d' R', run sgn h d = Some d' /\ d_state d' = WaitLfOrEtx /\ d_ts d' = d_ts d /\ d_size d' = 0%nat /\
   d_frame d' = content (bs ++ [b]) ++ R' /\ d_off d' = length (content (bs ++ [b])) /\ length (d_frame d') = 350%nat.
Proof.
  intros sgn b h d bs R Hm (Hp & H4 & Hck) Hs Hf Ho Hl Hroom.
  destruct h as [|[n0 c0] h]; [discriminate|]. unfold enc_body in Hm. simpl in Hm. inv Hm.
  assert (exists hb n1 c1, h = hb ++ [(n1, c1)]) as (hb & n1 & c1 & ->).
  { destruct h using rev_ind. { destruct b; discriminate. } destruct x. eauto. }
  rewrite map_app in H1. simpl in H1. apply app_inj_tail in H1. destruct H1 as [Hb ->].
  simpl. unfold put at 1. simpl. rewrite Hs. cbn [d_frame d_ts d_off].
  destruct (run_plain sgn b hb (mk_dec (d_frame d) 0 (d_ts d) (d_off d) (d_off d) WaitCr) (content bs) R) as (R' & sz & E1 & E2 & E3 & E4); auto.
  { rewrite Hf, app_length in Hl. lia. }
  assert (sz = 0%nat) by (destruct b; [auto|apply E2; congruence]). subst sz.
  rewrite (run_app _ _ _ _ _ E4). simpl. unfold put. simpl.
  match goal with |- context[put_cr sgn ?D] => set (dd := D) end.
  destruct (put_cr_spec sgn dd (content bs) b R') as (fr & Hfl & Hres); auto; simpl.
  { apply content_stops. } { rewrite Ho; auto. }
  { rewrite Ho, !app_length. lia. }
  assert (HL : length (content bs ++ b ++ R') = 350%nat).
  { rewrite <- Hl, Hf, !app_length. lia. }
  assert (Hok : okb b = true) by (unfold okb; rewrite Hck; apply Z.eqb_refl).
  rewrite (proj2 (Nat.leb_le 4 (length b))), (proj2 (Nat.ltb_lt (length (content bs) + length b) 348)), Hok in Hres by auto.
  cbn [andb] in Hres. destruct Hres as (R'' & Hfr & Hput). rewrite Hput.
  exists (mk_dec fr 0 (d_ts dd) (length (content bs) + length (kept b)) (d_start dd) WaitLfOrEtx), R''.
  cbn. rewrite content_snoc. rewrite <- app_assoc, app_length. repeat split; auto.
  rewrite Hfl. cbn. auto.
Qed.

Lemma run_groups : forall sgn bodies h d bs R, map snd h = groups bodies -> Forall good_body bodies ->
  d_state d = WaitLfOrEtx -> d_frame d = content bs ++ R -> d_off d = length (content bs) ->
  length (d_frame d) = 350%nat -> fits (length (content bs)) bodies ->
  exists d' R', run sgn h d = Some d' /\ d_state d' = WaitLfOrEtx /\ d_ts d' = d_ts d /\
   d_frame d' = content (bs ++ bodies) ++ R' /\ d_off d' = length (content (bs ++ bodies)) /\ length (d_frame d') = 350%nat.
Proof.
  induction bodies as [|b bodies]; intros h d bs R Hm Hg Hs Hf Ho Hl Hfit.
  - destruct h; [|discriminate]. exists d, R. rewrite app_nil_r. simpl. repeat split; auto.
  - inv Hg. simpl in Hfit. destruct Hfit.
    unfold groups in Hm. cbn [map concat] in Hm. apply map_eq_app in Hm.
    destruct Hm as (h1 & h2 & -> & Hh1 & Hh2).
    destruct (run_group sgn b h1 d bs R) as (d1 & R1 & E1 & E2 & E3 & E4 & E5 & E6 & E7); auto.
    rewrite (run_app _ _ _ _ _ E1).
    destruct (IHbodies h2 d1 (bs ++ [b]) R1) as (d2 & R2 & F1 & F2 & F3 & F4 & F5 & F6); auto.
    { rewrite content_snoc, app_length. auto. }
    exists d2, R2. rewrite <- app_assoc in F4, F5. repeat split; auto. congruence.
Qed.

(** From any state with a 350-byte buffer, the bytes of a valid frame lead to publication. *)
Lemma run_frame : forall sgn t0 rest bodies d, map snd ((t0, 2) :: rest) = frame_bytes bodies ->
  valid_frame bodies -> length (d_frame d) = 350%nat ->
  exists d' R, run sgn ((t0, 2) :: rest) d = Some d' /\ d_frame d' = content bodies ++ R /\
   d_size d' = length (content bodies) /\ d_ts d' = t0 /\ d_state d' = WaitStx.
Proof.
  intros sgn t0 rest bodies d Hm (Hne & Hg & Hfit) Hl. unfold frame_bytes in Hm. simpl in Hm. inv Hm.
  apply map_eq_app in H0. destruct H0 as (h1 & h2 & -> & Hh1 & Hh2).
  destruct h2 as [|[n3 c3] [|]]; try discriminate. simpl in Hh2. inv Hh2.
  cbn [run app]. change (put sgn t0 2 d) with (Some (mk_dec (d_frame d) 0 t0 0 (d_start d) WaitLfOrEtx)). cbn iota beta.
  destruct (run_groups sgn bodies h1 (mk_dec (d_frame d) 0 t0 0 (d_start d) WaitLfOrEtx) [] (d_frame d)) as (d1 & R1 & E1 & E2 & E3 & E4 & E5 & E6); auto.
  rewrite (run_app _ _ _ _ _ E1). simpl. unfold put. simpl. rewrite E2. simpl.
  eexists. exists R1. split; [reflexivity|]. cbn. repeat split; auto.
Qed.

Lemma content_pos : forall bodies, bodies <> [] -> length (content bodies) <> 0%nat.
Proof. intros. intro. apply length_zero_iff_nil in H0. apply content_nil in H0. contradiction. Qed.
