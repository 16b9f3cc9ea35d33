(** Proofs for C96: frames shown when characters are lost. *)
From Coq Require Import ZArith List Bool Lia.
From Verif Require Import Base BaseFacts Teleinfo TeleinfoSpec Publish HistorySpec DecoderProofs PublishProofs Uart UartSpec.
Import ListNotations.
Open Scope Z_scope.

(** ** What is shown *)
Definition ends (r : list Z) (b : list (list Z)) : Prop := valid_frame b /\ exists x, r = x ++ frame_bytes b.
Lemma ends_iff : forall h b, valid_frame b -> (ends (map snd h) b <-> exists t, frame_ends h t b).
Proof.
  intros h b V. split.
  - intros (_ & x & E). change (frame_bytes b) with (2 :: concat (map enc_body b) ++ [3]) in E. apply map_eq_app in E.
    destruct E as (pre & rest & -> & A & B). destruct rest as [|[t c] rest]; [discriminate|]. exists t, pre, rest.
    assert (C : c = 2) by (cbn in B; congruence). subst c. split; [reflexivity|]. rewrite B. reflexivity.
  - intros (t & pre & rest & -> & E). split; [exact V|]. exists (map snd pre). rewrite map_app, E. reflexivity.
Qed.

Lemma display_step : forall sgn g1 h p now c, length g1 = 350%nat -> Forall is_byte (map snd h) -> is_byte c ->
  p_pause p = false -> PubInv sgn g1 h p ->
  exists p' new, tic_decode sgn now c p = Some (p', new) /\ p_pause p' = false /\ PubInv sgn g1 (h ++ [(now, c)]) p' /\
    (if (new : bool) then exists b, ends (map snd h ++ [c]) b /\ published p' = content b else forall b, ~ ends (map snd h ++ [c]) b).
Proof.
  intros sgn g1 h p now c Hg Hh Hc Hp HI.
  destruct (pub_step_inv sgn g1 h p now c Hg Hh Hc Hp HI) as (p' & E & Ep & HI').
  cbn [pub_step] in E. destruct (tic_decode sgn now c p) as [[p1 new]|] eqn:T; [|discriminate]. injection E as ->.
  exists p', new. split; [reflexivity|]. split; [exact Ep|]. split; [exact HI'|].
  assert (Hb : Forall is_byte (map snd (h ++ [(now, c)]))) by (rewrite map_app; apply Forall_app; split; [exact Hh|constructor; [exact Hc|constructor]]).
  destruct (decoder_exact sgn g1 (h ++ [(now, c)]) Hg Hb) as (d & Ed & _ & Hready & Hfw).
  assert (Hd : p_dec p' = d) by (destruct HI' as (A & _); congruence).
  assert (M : map snd (h ++ [(now, c)]) = map snd h ++ [c]) by (rewrite map_app; reflexivity).
  unfold tic_decode in T. rewrite Hp in T. destruct (put sgn now c (p_dec p)) as [d1|]; [|discriminate].
  destruct (ready d1) eqn:R.
  - destruct (copy_from (d_frame d1) (d_size d1) (d_ts d1) (p_ti p)) as [t|]; [|discriminate].
    assert (d1 = d) by (injection T as <- _; exact Hd). subst d1. assert (N : new = true) by congruence. subst new.
    destruct (proj1 Hready R) as (t0 & b & F & V). exists b. split; [rewrite <- M; apply ends_iff; [exact V|now exists t0]|].
    destruct HI' as (_ & _ & r & L & S). destruct r as [[t1 b1]|].
    + destruct L as (h1 & h2 & EH & F1 & V1 & L). destruct h2 as [|e h2].
      * rewrite app_nil_r in EH. subst h1. destruct S as (_ & S1 & X & S2). unfold published. rewrite S1, S2, firstn_app_exact.
        destruct (Hfw _ _ F V) as (_ & R1 & A1 & B1). destruct (Hfw _ _ F1 V1) as (_ & R2 & A2 & B2).
        assert (firstn (d_size d) (d_frame d) = content b) by (rewrite A1, B1; apply firstn_app_exact).
        assert (firstn (d_size d) (d_frame d) = content b1) by (rewrite A2, B2; apply firstn_app_exact). congruence.
      * exfalso. apply (L (e :: h2) [] t0 b); [now rewrite app_nil_r|discriminate|now rewrite <- EH|exact V].
    + exfalso. apply (L (h ++ [(now, c)]) [] t0 b); [now rewrite app_nil_r|exact F|exact V].
  - assert (d1 = d) by (injection T as <- _; exact Hd). subst d1. assert (N : new = false) by congruence. subst new.
    intros b X. rewrite <- M in X. assert (V : valid_frame b) by apply X. apply ends_iff in X; [|exact V]. destruct X as (t0 & F).
    assert (ready d = true) by (apply Hready; now exists t0, b). congruence.
Qed.

(** The list of the frames of a text, in the order of their ends. *)
Inductive shown_frames : list Z -> list (list Z) -> Prop :=
| sf_nil : shown_frames [] []
| sf_new : forall r c l b, shown_frames r l -> ends (r ++ [c]) b -> shown_frames (r ++ [c]) (l ++ [content b])
| sf_old : forall r c l, shown_frames r l -> (forall b, ~ ends (r ++ [c]) b) -> shown_frames (r ++ [c]) l.

(** ** Texts with marks *)
Definition without (c : Z) (l : list Z) : Prop := Forall (fun x => x <> c) l.
Lemma same_last : forall c a b a' b', a ++ c :: b = a' ++ c :: b' -> without c b -> without c b' -> a = a' /\ b = b'.
Proof.
  induction a as [|x a IH]; intros b a' b' E H H'; destruct a' as [|y a']; cbn [app] in E.
  - split; [reflexivity|congruence].
  - injection E as <- ->. exfalso. apply Forall_app in H. destruct H as [_ H]. inversion H; congruence.
  - injection E as -> E. exfalso. rewrite <- E in H'. apply Forall_app in H'. destruct H' as [_ H']. inversion H'; congruence.
  - injection E as <- E. destruct (IH b a' b' E H H') as [-> ->]. now split.
Qed.
Lemma same_first : forall c a b a' b', a ++ c :: b = a' ++ c :: b' -> without c a -> without c a' -> a = a' /\ b = b'.
Proof.
  induction a as [|x a IH]; intros b a' b' E H H'; destruct a' as [|y a']; cbn [app] in E.
  - split; [reflexivity|congruence].
  - injection E as <- ->. exfalso. inversion H'; congruence.
  - injection E as -> E. exfalso. inversion H; congruence.
  - injection E as <- E. inversion H; subst. inversion H'; subst. destruct (IH b a' b' E) as [-> ->]; [assumption|assumption|]. now split.
Qed.
Lemma last_mark : forall c l, In c l -> exists a b, l = a ++ c :: b /\ without c b.
Proof.
  induction l as [|x l IH]; intros H; [contradiction|]. destruct (in_dec Z.eq_dec c l) as [I|N].
  - destruct (IH I) as (a & b & -> & W). exists (x :: a), b. now split.
  - destruct H as [->|H]; [|contradiction]. exists [], l. split; [reflexivity|]. apply Forall_forall. intros y Y ->. contradiction.
Qed.

(** Characters of a frame. *)
Definition bodies_ok (b : list (list Z)) : Prop := Forall (fun g => Forall (fun c => is_ctrl c = false) g) b.
Lemma valid_ok : forall b, valid_frame b -> bodies_ok b.
Proof.
  intros b (_ & G & _). eapply Forall_impl; [|exact G]. intros g (P & _). eapply Forall_impl; [|exact P]. cbn. tauto.
Qed.
Lemma ctrl_free : forall c g, Forall (fun x => is_ctrl x = false) g -> is_ctrl c = true -> without c g.
Proof. intros c g H C. eapply Forall_impl; [|exact H]. cbn. intros x X ->. congruence. Qed.
Lemma groups_without : forall c b, bodies_ok b -> is_ctrl c = true -> c <> 10 -> c <> 13 -> without c (groups b).
Proof.
  intros c b H C N1 N2. unfold groups. induction b as [|g b IH]; [constructor|]. inversion H; subst. cbn [map concat]. apply Forall_app.
  split; [|now apply IH]. unfold enc_body. constructor; [congruence|]. apply Forall_app. split; [now apply ctrl_free|]. constructor; [congruence|constructor].
Qed.
Lemma frame_shape : forall b, frame_bytes b = 2 :: groups b ++ [3].
Proof. reflexivity. Qed.
Lemma groups_inj : forall b b' r r', bodies_ok b -> bodies_ok b' -> groups b ++ 3 :: r = groups b' ++ 3 :: r' -> b = b'.
Proof.
  induction b as [|g b IH]; intros b' r r' H H' E; destruct b' as [|g' b']; try reflexivity; try discriminate.
  unfold groups in E. cbn [map concat] in E. unfold enc_body at 1 3 in E. cbn [app] in E. injection E as E.
  rewrite <- !app_assoc in E. cbn [app] in E. inversion H; subst. inversion H'; subst.
  apply same_first in E; [|now apply ctrl_free|now apply ctrl_free]. destruct E as [-> E]. f_equal. eapply IH; eauto.
Qed.

(** A frame inside the characters sent is one of the frames sent. *)
Lemma frame_inside : forall fs b x y, Forall bodies_ok fs -> bodies_ok b -> concat (map frame_bytes fs) = x ++ frame_bytes b ++ y -> In b fs.
Proof.
  induction fs as [|f fs IH]; intros b x y H B E.
  - destruct x; discriminate.
  - inversion H as [|? ? F H']; subst. cbn [map concat] in E. rewrite !frame_shape in E. cbn [app] in E. destruct x as [|c x].
    + left. cbn [app] in E. injection E as E. rewrite <- !app_assoc in E. cbn [app] in E. eapply groups_inj; eauto.
    + cbn [app] in E. injection E as <- E. right. rewrite <- app_assoc in E. cbn [app] in E.
      assert (W : without 2 (groups f)) by (apply groups_without; [exact F|reflexivity|lia|lia]).
      (* the STX of b comes after the first frame *)
      assert (X : exists x', x = groups f ++ 3 :: x' /\ concat (map frame_bytes fs) = x' ++ 2 :: (groups b ++ [3]) ++ y).
      { clear IH H H' F B. revert x E. generalize (groups f) W. clear W f. induction l as [|d l IHl]; intros W x E.
        - destruct x as [|e x]; [discriminate|]. cbn [app] in *. injection E as <- E. exists x. now split.
        - inversion W; subst. destruct x as [|e x]; [cbn [app] in E; congruence|]. cbn [app] in E. injection E as <- E.
          destruct (IHl H2 x E) as (x' & -> & Q). exists x'. now split. }
      destruct X as (x' & _ & Q). apply (IH b x' y H' B). rewrite frame_shape. exact Q.
Qed.
(** A group inside the characters sent is one of the groups sent. *)
Lemma group_inside_frame : forall bs g u v rest, bodies_ok bs -> Forall (fun c => is_ctrl c = false) g ->
  groups bs ++ rest = u ++ 10 :: g ++ 13 :: v -> In g bs \/ exists u', u = groups bs ++ u' /\ rest = u' ++ 10 :: g ++ 13 :: v.
Proof.
  induction bs as [|b bs IH]; intros g u v rest H G E.
  - right. exists u. now split.
  - inversion H as [|? ? B H']; subst. unfold groups in E. cbn [map concat] in E. fold (groups bs) in E. unfold enc_body in E.
    cbn [app] in E. rewrite <- !app_assoc in E. cbn [app] in E. destruct u as [|c u]; cbn [app] in E.
    + injection E as E. apply same_first in E; [|now apply ctrl_free|now apply ctrl_free]. left. left. tauto.
    + injection E as <- E.
      assert (X : exists u', u = b ++ 13 :: u' /\ groups bs ++ rest = u' ++ 10 :: g ++ 13 :: v).
      { assert (W : without 10 b) by now apply ctrl_free. clear - E W. revert u E. induction b as [|d b IHb]; intros u E.
        - destruct u as [|e u]; [discriminate|]. cbn [app] in *. injection E as <- E. exists u. now split.
        - inversion W; subst. destruct u as [|e u]; [cbn [app] in E; congruence|]. cbn [app] in E. injection E as <- E.
          destruct (IHb H2 u E) as (u' & -> & Q). exists u'. now split. }
      destruct X as (u' & -> & Q). destruct (IH g u' v rest H' G Q) as [I|(u2 & -> & R)]; [left; now right|]. right. exists u2. split; [|exact R].
      unfold groups. cbn [map concat]. unfold enc_body at 2. cbn [app]. rewrite <- !app_assoc. reflexivity.
Qed.
Lemma group_inside : forall fs g u v, Forall bodies_ok fs -> Forall (fun c => is_ctrl c = false) g ->
  concat (map frame_bytes fs) = u ++ enc_body g ++ v -> In g (concat fs).
Proof.
  induction fs as [|f fs IH]; intros g u v H G E.
  - destruct u; discriminate.
  - inversion H as [|? ? F H']; subst. cbn [map concat] in *. rewrite frame_shape in E. unfold enc_body in E. cbn [app] in E.
    destruct u as [|c u]; [discriminate|]. cbn [app] in E. injection E as <- E. rewrite <- !app_assoc in E. cbn [app] in E.
    apply in_or_app. destruct (group_inside_frame f g u v _ F G E) as [I|(u' & -> & Q)]; [now left|]. right.
    destruct u' as [|d u']; [discriminate|]. cbn [app] in Q. injection Q as <- Q. apply (IH g u' v H' G). unfold enc_body. cbn [app].
    rewrite <- app_assoc. exact Q.
Qed.

(** ** Pieces *)
Lemma got_app : forall a b, got_of (a ++ b) = got_of a ++ got_of b.
Proof. intros. unfold got_of. now rewrite map_app, concat_app. Qed.
Lemma piece_inside : forall ks tail l k, In (l, k) ks -> exists a b, sent_of ks tail = a ++ k ++ b.
Proof.
  induction ks as [|[l0 k0] ks IH]; intros tail l k H; [contradiction|]. unfold sent_of. cbn [map concat fst snd]. destruct H as [E|H].
  - injection E as -> ->. exists l, (concat (map (fun k => fst k ++ snd k) ks) ++ tail). now rewrite <- !app_assoc.
  - destruct (IH tail l k H) as (a & b & E). unfold sent_of in E. exists ((l0 ++ k0) ++ a), b. rewrite <- app_assoc, E.
    now rewrite <- !app_assoc.
Qed.
(** A stretch of what was received lies in one piece, or the end of a piece is inside. *)
Lemma stretch : forall ks x m y, m <> [] -> got_of ks = x ++ m ++ y ->
  (exists l k u v, In (l, k) ks /\ k = u ++ m ++ v) \/
  (exists ks1 ks2, ks = ks1 ++ ks2 /\ (length x < length (got_of ks1) < length x + length m)%nat).
Proof.
  induction ks as [|[l k] ks IH]; intros x m y N E.
  - unfold got_of in E. cbn in E. destruct x; [destruct m; [congruence|discriminate]|discriminate].
  - change (got_of ((l, k) :: ks)) with (k ++ got_of ks) in E.
    destruct (le_lt_dec (length x + length m) (length k)) as [L|L].
    + left. exists l, k, x, (skipn (length (x ++ m)) k). split; [now left|].
      assert (Q : firstn (length (x ++ m)) (k ++ got_of ks) = x ++ m) by (rewrite E, app_assoc; apply firstn_app_exact).
      rewrite firstn_app in Q. rewrite app_length in Q. replace (length x + length m - length k)%nat with 0%nat in Q by lia.
      cbn [firstn] in Q. rewrite app_nil_r in Q. rewrite <- (firstn_skipn (length (x ++ m)) k) at 1. rewrite app_length. rewrite Q.
      now rewrite <- app_assoc.
    + destruct (le_lt_dec (length k) (length x)) as [L2|L2].
      * assert (Q : skipn (length k) (k ++ got_of ks) = got_of ks) by (rewrite skipn_app, skipn_all, Nat.sub_diag; reflexivity).
        rewrite E in Q. rewrite skipn_app in Q. replace (length k - length x)%nat with 0%nat in Q by lia. cbn [skipn] in Q.
        assert (QL : length (skipn (length k) x) = (length x - length k)%nat) by apply skipn_length.
        destruct (IH (skipn (length k) x) m y N (eq_sym Q)) as [(l' & k' & u & v & I & J)|(ks1 & ks2 & -> & J)].
        { left. exists l', k', u, v. split; [now right|exact J]. }
        right. exists ((l, k) :: ks1), ks2. split; [reflexivity|]. change (got_of ((l, k) :: ks1)) with (k ++ got_of ks1). rewrite app_length. lia.
      * right. exists [(l, k)], ks. split; [reflexivity|]. unfold got_of. cbn [map concat snd]. rewrite app_nil_r. lia.
Qed.

(** ** C96: each group shown was sent, or is cut *)
Lemma shown_in : forall r l, shown_frames r l -> forall t, In t l -> exists b x y, t = content b /\ valid_frame b /\ r = x ++ frame_bytes b ++ y.
Proof.
  induction 1 as [|r c l b S IH E|r c l S IH N]; intros t I; [contradiction| |].
  - apply in_app_or in I. destruct I as [I|[<-|[]]].
    + destruct (IH t I) as (b' & x & y & -> & V & ->). exists b', x, (y ++ [c]). split; [reflexivity|]. split; [exact V|]. now rewrite <- !app_assoc.
    + destruct E as (V & x & E). exists b, x, []. split; [reflexivity|]. split; [exact V|]. now rewrite app_nil_r.
  - destruct (IH t I) as (b' & x & y & -> & V & ->). exists b', x, (y ++ [c]). split; [reflexivity|]. split; [exact V|]. now rewrite <- !app_assoc.
Qed.
Lemma shown_groups : forall fs ks tail l, Forall valid_frame fs -> concat (map frame_bytes fs) = sent_of ks tail -> shown_frames (got_of ks) l ->
  forall t, In t l -> exists bodies, valid_frame bodies /\ t = content bodies /\ Forall (fun b => In b (concat fs) \/ cut_group ks b) bodies.
Proof.
  intros fs ks tail l V E S t I. destruct (shown_in _ _ S t I) as (b & x & y & -> & Vb & R). exists b. split; [exact Vb|]. split; [reflexivity|].
  assert (OK : Forall bodies_ok fs) by (eapply Forall_impl; [|exact V]; apply valid_ok).
  apply Forall_forall. intros g J. apply in_split in J. destruct J as (b1 & b2 & ->).
  assert (R' : got_of ks = (x ++ 2 :: groups b1) ++ enc_body g ++ (groups b2 ++ [3]) ++ y).
  { rewrite R, frame_shape. unfold groups. rewrite map_app, concat_app. cbn [map concat]. rewrite <- !app_assoc. cbn [app]. rewrite <- !app_assoc. reflexivity. }
  assert (NG : enc_body g <> []) by discriminate.
  destruct (stretch ks _ _ _ NG R') as [(l0 & k & u & v & I2 & ->)|(ks1 & ks2 & K & L)].
  - left. destruct (piece_inside ks tail _ _ I2) as (a & c & E2). rewrite E2 in E. apply (group_inside fs g (a ++ u) (v ++ c) OK).
    + pose proof (valid_ok _ Vb) as W. apply Forall_app in W. destruct W as [_ W]. inversion W; assumption.
    + rewrite E. now rewrite <- !app_assoc.
  - right. exists (x ++ 2 :: groups b1), ((groups b2 ++ [3]) ++ y), ks1, ks2. split; [exact K|]. split; [exact R'|exact L].
Qed.

(** ** C96: how many frames can be wrong *)
Lemma strangers_app : forall fs a b, strangers fs (a ++ b) = strangers fs a ++ strangers fs b.
Proof. intros. apply filter_app. Qed.
Lemma not_stranger : forall fs b, In b fs -> strangers fs [content b] = [].
Proof.
  intros fs b I. unfold strangers. cbn [filter]. assert (E : existsb (beq (content b)) (map content fs) = true).
  { apply existsb_exists. exists (content b). split; [now apply in_map|apply beq_refl]. }
  now rewrite E.
Qed.
Lemma strangers_one : forall fs t, (length (strangers fs [t]) <= 1)%nat.
Proof. intros fs t. unfold strangers. cbn [filter]. destruct (negb _); cbn; lia. Qed.


(** Nothing was read yet, or the last character read is ETX: a loss there harms no frame. *)
Definition clean (r : list Z) : bool := match rev r with [] => true | c :: _ => c =? 3 end.
Lemma frame_tail : forall r k b x, bodies_ok b -> r ++ k ++ [3] = x ++ frame_bytes b ->
  (exists k1, k ++ [3] = k1 ++ frame_bytes b) \/ (~ In 2 k /\ ~ In 3 k /\ clean r = false).
Proof.
  intros r k b x B E. rewrite frame_shape in E.
  assert (E' : (r ++ k) = x ++ 2 :: groups b).
  { assert (Q : (r ++ k) ++ [3] = (x ++ 2 :: groups b) ++ [3]) by (rewrite <- !app_assoc; exact E). apply app_inj_tail in Q. tauto. }
  assert (W2 : without 2 (groups b)) by (apply groups_without; [exact B|reflexivity|lia|lia]).
  assert (W3 : without 3 (groups b)) by (apply groups_without; [exact B|reflexivity|lia|lia]).
  destruct (in_dec Z.eq_dec 2 k) as [I|N].
  - left. destruct (last_mark 2 k I) as (k1 & k2 & -> & W). rewrite app_assoc in E'. apply same_last in E'; [|exact W|exact W2].
    destruct E' as [_ ->]. exists k1. rewrite <- app_assoc. reflexivity.
  - right. split; [exact N|]. 
    assert (S : exists g, groups b = g ++ k /\ r = x ++ 2 :: g).
    { clear E W3 B. revert r E' N W2. generalize (groups b) as m. clear b. induction k as [|d k IH] using rev_ind; intros m r E' N W2.
      - exists m. rewrite app_nil_r in *. now split.
      - destruct m as [|e m _] using rev_ind.
        + rewrite app_assoc in E'. apply app_inj_tail in E'. destruct E' as [_ ->]. exfalso. apply N. apply in_or_app. right. now left.
        + rewrite app_assoc in E'. change (x ++ 2 :: m ++ [e]) with (x ++ (2 :: m) ++ [e]) in E'. rewrite app_assoc in E'. apply app_inj_tail in E'.
          destruct E' as [E' ->]. destruct (IH m r E') as (g & -> & ->).
          * intros I. apply N. apply in_or_app. now left.
          * apply Forall_app in W2. tauto.
          * exists g. split; [now rewrite app_assoc|reflexivity]. }
    destruct S as (g & S & ->). split.
    + intros I. rewrite S in W3. apply Forall_app in W3. destruct W3 as [_ W3]. rewrite Forall_forall in W3. now apply (W3 3 I).
    + unfold clean. destruct g as [|e g _] using rev_ind.
      * rewrite rev_app_distr. reflexivity.
      * change (x ++ 2 :: g ++ [e]) with (x ++ (2 :: g) ++ [e]). rewrite app_assoc, rev_app_distr. cbn [rev app].
        apply Z.eqb_neq. rewrite S in W3. apply Forall_app in W3. destruct W3 as [W3 _]. apply Forall_app in W3. destruct W3 as [_ W3]. inversion W3; assumption.
Qed.
(** The piece [k] of what was received, after [r], adds one stranger at most, and none after ETX. *)
Definition one_more (r k : list Z) : nat := if clean r then 0 else if existsb (Z.eqb 3) k then 1 else 0.
Lemma three_in : forall k, existsb (Z.eqb 3) k = false -> ~ In 3 k.
Proof. intros k H I. assert (existsb (Z.eqb 3) k = true) by (apply existsb_exists; exists 3; now split). congruence. Qed.
Lemma three_not : forall k, ~ In 3 k -> existsb (Z.eqb 3) k = false.
Proof. intros k H. destruct (existsb (Z.eqb 3) k) eqn:E; [|reflexivity]. apply existsb_exists in E. destruct E as (y & I & Y). apply Z.eqb_eq in Y. subst y. contradiction. Qed.
Lemma one_more_le : forall r k c, (one_more r k <= one_more r (k ++ [c]))%nat.
Proof. intros r k c. unfold one_more. destruct (clean r); [lia|]. rewrite existsb_app. destruct (existsb (Z.eqb 3) k); cbn [orb]; [lia|lia]. Qed.
Lemma piece_count : forall fs r, Forall bodies_ok fs -> forall k a b l, concat (map frame_bytes fs) = a ++ k ++ b ->
  shown_frames (r ++ k) l ->
  exists l0 l', l = l0 ++ l' /\ shown_frames r l0 /\ (length (strangers fs l') <= one_more r k)%nat.
Proof.
  intros fs r OK. induction k as [|c k IH] using rev_ind; intros a b l E H.
  - rewrite app_nil_r in H. exists l, []. split; [now rewrite app_nil_r|]. split; [exact H|]. apply Nat.le_0_l.
  - rewrite app_assoc in H. rewrite <- app_assoc in E. remember (r ++ k) as rk eqn:RK. remember (rk ++ [c]) as w eqn:W.
    destruct H as [|r' c' l bs S EN|r' c' l S N].
    + destruct rk; discriminate.
    + apply app_inj_tail in W. destruct W as [-> ->]. subst rk. destruct (IH a ([c] ++ b) l E S) as (l0 & l' & -> & S0 & L).
      exists l0, (l' ++ [content bs]). split; [now rewrite app_assoc|]. split; [exact S0|]. rewrite strangers_app, app_length.
      destruct EN as (V & x & EN). pose proof (valid_ok _ V) as VO.
      assert (C3 : c = 3).
      { rewrite frame_shape in EN. change (x ++ 2 :: groups bs ++ [3]) with (x ++ (2 :: groups bs) ++ [3]) in EN. rewrite app_assoc in EN.
        apply app_inj_tail in EN. tauto. }
      subst c. rewrite <- app_assoc in EN. pose proof (one_more_le r k 3) as LE.
      destruct (frame_tail r k bs x VO EN) as [(k1 & K)|(_ & N3 & RN)].
      * assert (I : In bs fs).
        { apply (frame_inside fs bs (a ++ k1) b OK VO). rewrite E. rewrite (app_assoc k [3] b), K. now rewrite <- !app_assoc. }
        rewrite (not_stranger fs bs I). cbn [length]. lia.
      * pose proof (strangers_one fs (content bs)) as O1. unfold one_more in *. rewrite RN in *.
        rewrite (three_not k N3) in L. rewrite existsb_app. cbn [existsb]. change (3 =? 3) with true. cbn [orb]. rewrite !orb_true_r. cbv iota in *. lia.
    + apply app_inj_tail in W. destruct W as [-> ->]. subst rk. destruct (IH a ([c] ++ b) l E S) as (l0 & l' & -> & S0 & L).
      exists l0, l'. split; [reflexivity|]. split; [exact S0|]. pose proof (one_more_le r k c). lia.
Qed.
Lemma sent_app : forall a b tail, sent_of (a ++ b) tail = sent_of a (sent_of b tail).
Proof. intros. unfold sent_of. now rewrite map_app, concat_app, <- app_assoc. Qed.
(** The holes that can harm a frame. *)
Fixpoint bad_holes (r : list Z) (ks : list (list Z * list Z)) : nat :=
  match ks with [] => 0 | (_, k) :: ks' => (if clean r then 0 else 1) + bad_holes (r ++ k) ks' end.
Lemma bad_app : forall a b r, bad_holes r (a ++ b) = (bad_holes r a + bad_holes (r ++ got_of a) b)%nat.
Proof.
  induction a as [|[l k] a IH]; intros b r.
  - cbn [app bad_holes]. unfold got_of. cbn. now rewrite app_nil_r.
  - cbn [app bad_holes]. rewrite IH. change (got_of ((l, k) :: a)) with (k ++ got_of a). rewrite app_assoc. lia.
Qed.
Lemma pieces_count : forall fs, Forall bodies_ok fs -> forall ks tail l, concat (map frame_bytes fs) = sent_of ks tail -> shown_frames (got_of ks) l ->
  (length (strangers fs l) <= bad_holes [] ks)%nat.
Proof.
  intros fs OK. induction ks as [|[lo k] ks IH] using rev_ind; intros tail l E H.
  - inversion H as [Z|? ? ? ? ? ? Z|? ? ? ? ? Z]; [cbn; lia| |]; exfalso; destruct r; discriminate.
  - rewrite sent_app in E. rewrite got_app in H. unfold got_of in H at 2. cbn [map concat snd] in H. rewrite app_nil_r in H.
    assert (EE : concat (map frame_bytes fs) = (concat (map (fun k => fst k ++ snd k) ks) ++ lo) ++ k ++ tail).
    { rewrite E. unfold sent_of. cbn [map concat fst snd]. rewrite app_nil_r. now rewrite <- !app_assoc. }
    destruct (piece_count fs (got_of ks) OK k _ _ l EE H) as (l0 & l' & -> & S0 & L). specialize (IH _ _ E S0).
    rewrite strangers_app, app_length, bad_app. cbn [app bad_holes]. unfold one_more in L. destruct (clean (got_of ks)); [lia|].
    destruct (existsb (Z.eqb 3) k); lia.
Qed.

(** ** C96: a frame that lost nothing is shown *)
Lemma ends_unique : forall r b b', ends r b -> ends r b' -> b = b'.
Proof.
  intros r b b' (V & x & E) (V' & x' & E'). apply valid_ok in V. apply valid_ok in V'. rewrite E in E'. rewrite !frame_shape in E'.
  assert (W : forall c, bodies_ok c -> without 2 (groups c ++ [3])).
  { intros c C. apply Forall_app. split; [apply groups_without; [exact C|reflexivity|lia|lia]|]. constructor; [lia|constructor]. }
  apply same_last in E'; [|now apply W|now apply W]. destruct E' as [_ E']. now apply (groups_inj b b' [] [] V V').
Qed.
Lemma shown_all : forall r l, shown_frames r l -> forall x b y, valid_frame b -> r = x ++ frame_bytes b ++ y -> In (content b) l.
Proof.
  induction 1 as [|r c l b' S IH E|r c l S IH N]; intros x b y V Q.
  - exfalso. destruct x; discriminate.
  - destruct y as [|d y _] using rev_ind.
    + rewrite app_nil_r in Q. rewrite (ends_unique _ b b' (conj V (ex_intro _ x Q)) E). apply in_or_app. right. now left.
    + assert (r = x ++ frame_bytes b ++ y) by (rewrite !app_assoc in Q; apply app_inj_tail in Q; rewrite app_assoc; tauto).
      apply in_or_app. left. eapply IH; eauto.
  - destruct y as [|d y _] using rev_ind.
    + rewrite app_nil_r in Q. exfalso. apply (N b). split; [exact V|now exists x].
    + assert (r = x ++ frame_bytes b ++ y) by (rewrite !app_assoc in Q; apply app_inj_tail in Q; rewrite app_assoc; tauto).
      eapply IH; eauto.
Qed.

(** ** The buffer *)
Lemma arrive_spec : forall q lo c q' lo', arrive (q, lo) c = (q', lo') -> (length q <= capacity)%nat ->
  exists d, lo' = lo ++ d /\ q ++ [c] = d ++ q' /\ length q' = Nat.min capacity (length q + 1).
Proof.
  intros q lo c q' lo' E L. unfold arrive in E. destruct (Nat.ltb_spec (length q) capacity) as [B|B].
  - injection E as <- <-. exists []. rewrite app_nil_r. split; [reflexivity|]. split; [reflexivity|]. rewrite app_length. cbn [length]. lia.
  - injection E as <- <-. destruct q as [|e q]; [exfalso; change capacity with 255%nat in B; cbn [length] in B; lia|]. exists [e].
    split; [reflexivity|]. split; [reflexivity|]. cbn [tl length] in *. rewrite app_length. cbn [length]. lia.
Qed.
Lemma arrivals_from : forall burst q lo q' lo', fold_left arrive burst (q, lo) = (q', lo') -> (length q <= capacity)%nat ->
  exists d, lo' = lo ++ d /\ q ++ burst = d ++ q' /\ length q' = Nat.min capacity (length q + length burst).
Proof.
  induction burst as [|c burst IH]; intros q lo q' lo' E L.
  - cbn [fold_left] in E. injection E as <- <-. exists []. rewrite !app_nil_r. split; [reflexivity|]. split; [reflexivity|]. cbn [length]. lia.
  - cbn [fold_left] in E. destruct (arrive (q, lo) c) as [q1 lo1] eqn:A. apply arrive_spec in A; [|exact L]. destruct A as (d & -> & A & LA).
    apply IH in E; [|lia]. destruct E as (d2 & -> & B & LB). exists (d ++ d2). split; [now rewrite app_assoc|]. split.
    + rewrite <- app_assoc, <- B, app_assoc, <- A, <- app_assoc. reflexivity.
    + rewrite LB, LA. cbn [length]. lia.
Qed.
Lemma arrivals_spec : forall burst q q' lo, arrivals q burst = (q', lo) -> (length q <= capacity)%nat ->
  q ++ burst = lo ++ q' /\ length q' = Nat.min capacity (length q + length burst).
Proof. intros burst q q' lo E L. apply arrivals_from in E; [|exact L]. destruct E as (d & -> & A & B). now split. Qed.

(** ** The run of the loop *)
Record state := mk_state { s_sent : list Z; s_ks : list (list Z * list Z); s_pending : list Z; s_queue : list Z; s_texts : list (list Z); s_bad : nat }.
Definition Inv (sgn : bool) (g1 : list Z) (h : list event) (s : state) (p : pub) : Prop :=
  (length (s_queue s) <= capacity)%nat /\ p_pause p = false /\ PubInv sgn g1 h p /\ map snd h = got_of (s_ks s) /\
  shown_frames (map snd h) (s_texts s) /\ s_sent s = sent_of (s_ks s) (s_pending s ++ s_queue s) /\
  (bad_holes [] (s_ks s) + (match s_pending s with [] => 0 | _ => if clean (map snd h) then 0 else 1 end) <= s_bad s)%nat.

(** The pieces when a character is read. *)
Definition extend (ks : list (list Z * list Z)) (pending : list Z) (c : Z) : list (list Z * list Z) :=
  match pending, rev ks with
  | [], (l, k) :: r => rev r ++ [(l, k ++ [c])]
  | _, _ => ks ++ [(pending, [c])]
  end.
Lemma extend_spec : forall ks pending c q,
  got_of (extend ks pending c) = got_of ks ++ [c] /\ sent_of (extend ks pending c) q = sent_of ks (pending ++ c :: q) /\
  (bad_holes [] (extend ks pending c) <= bad_holes [] ks + (match pending with [] => 0 | _ => if clean (got_of ks) then 0 else 1 end))%nat.
Proof.
  intros ks pending c q.
  assert (X : got_of (ks ++ [(pending, [c])]) = got_of ks ++ [c] /\ sent_of (ks ++ [(pending, [c])]) q = sent_of ks (pending ++ c :: q) /\
    bad_holes [] (ks ++ [(pending, [c])]) = (bad_holes [] ks + (if clean (got_of ks) then 0 else 1))%nat).
  { split; [|split].
    - rewrite got_app. reflexivity.
    - rewrite sent_app. unfold sent_of. cbn [map concat fst snd]. rewrite app_nil_r. now rewrite <- !app_assoc.
    - rewrite bad_app. cbn [app bad_holes]. lia. }
  destruct X as (X1 & X2 & X3). unfold extend. destruct pending as [|d pending]; [|rewrite X1, X2, X3; repeat split; lia].
  destruct (rev ks) as [|[l k] r] eqn:R.
  - assert (ks = []) by (rewrite <- (rev_involutive ks), R; reflexivity). subst ks. rewrite X1, X2, X3. split; [reflexivity|]. split; [reflexivity|]. cbn. lia.
  - assert (K : ks = rev r ++ [(l, k)]) by (rewrite <- (rev_involutive ks), R; reflexivity). rewrite K. split; [|split].
    + rewrite !got_app. unfold got_of at 2 4. cbn [map concat snd]. rewrite !app_nil_r. now rewrite app_assoc.
    + rewrite !sent_app. unfold sent_of at 2 4. cbn [map concat fst snd]. rewrite !app_nil_r. now rewrite <- !app_assoc.
    + rewrite !bad_app. cbn [app bad_holes]. lia.
Qed.

Definition drop (b : list Z) (lo : list Z) (q' : list Z) (bad : nat) (s : state) : state :=
  mk_state (s_sent s ++ b) (s_ks s) (s_pending s ++ lo) q' (s_texts s) (s_bad s + bad).
Lemma drop_inv : forall sgn g1 h s p b q' lo bad, Inv sgn g1 h s p -> arrivals (s_queue s) b = (q', lo) ->
  (lo <> [] -> bad = 0%nat -> clean (map snd h) = true) -> Inv sgn g1 h (drop b lo q' bad s) p.
Proof.
  intros sgn g1 h s p b q' lo bad (L & P & HI & G & SF & S & B) A C. apply arrivals_spec in A; [|exact L]. destruct A as [A LA].
  unfold Inv, drop. cbn [s_sent s_ks s_pending s_queue s_texts s_bad]. split; [lia|]. split; [exact P|]. split; [exact HI|]. split; [exact G|].
  split; [exact SF|]. split.
  - rewrite S. unfold sent_of. rewrite <- !app_assoc. now rewrite A.
  - destruct lo as [|e lo]; [rewrite app_nil_r; lia|].
    destruct (clean (map snd h)) eqn:K.
    + assert (M : forall l : list Z, match l with [] => 0%nat | _ => 0%nat end = 0%nat) by (intros []; reflexivity). rewrite M in *. lia.
    + assert (bad <> 0%nat) by (intros ->; specialize (C ltac:(discriminate) eq_refl); congruence).
      assert (M : forall l : list Z, (match l with [] => 0 | _ => 1 end <= 1)%nat) by (intros []; lia).
      specialize (M (s_pending s ++ e :: lo)). destruct (s_pending s); lia.
Qed.
Lemma read_inv : forall sgn g1 h s p now c q, length g1 = 350%nat -> Forall is_byte (map snd h) -> is_byte c -> Inv sgn g1 h s p -> s_queue s = c :: q ->
  exists p' new, tic_decode sgn now c p = Some (p', new) /\
    Inv sgn g1 (h ++ [(now, c)]) (mk_state (s_sent s) (extend (s_ks s) (s_pending s) c) [] q (s_texts s ++ (if (new : bool) then [published p'] else [])) (s_bad s)) p' /\
    (new = true -> clean (map snd (h ++ [(now, c)])) = true).
Proof.
  intros sgn g1 h s p now c q Hg Hb Hc (L & P & HI & G & SF & S & B) Q.
  destruct (display_step sgn g1 h p now c Hg Hb Hc P HI) as (p' & new & T & P' & HI' & N). exists p', new. split; [exact T|].
  destruct (extend_spec (s_ks s) (s_pending s) c q) as (E1 & E2 & E3). rewrite <- G in E3.
  assert (M : map snd (h ++ [(now, c)]) = map snd h ++ [c]) by (rewrite map_app; reflexivity). rewrite M. split.
  - unfold Inv. cbn [s_sent s_ks s_pending s_queue s_texts s_bad]. rewrite M. rewrite Q in *. cbn [length] in L.
    split; [lia|]. split; [exact P'|]. split; [exact HI'|]. split; [rewrite E1; now rewrite G|]. split; [|split].
    + destruct new; [|rewrite app_nil_r; now apply sf_old]. destruct N as (b & EN & ->). now apply sf_new.
    + cbn [app]. now rewrite E2.
    + lia.
  - intros ->. destruct N as (b & (_ & x & EN) & _). rewrite EN, frame_shape. unfold clean.
    change (x ++ 2 :: groups b ++ [3]) with (x ++ (2 :: groups b) ++ [3]). rewrite app_assoc, rev_app_distr. reflexivity.
Qed.
Lemma turn_inv : forall sgn g1 h s p t, length g1 = 350%nat -> Forall is_byte (map snd h) -> Forall is_byte (s_queue s ++ t_before t) -> Inv sgn g1 h s p ->
  exists q' p' x pend, loop_turn sgn t (s_queue s) p = Some (q', p', x) /\
    let h' := h ++ (match r_read x with Some c => [(t_now t, c)] | None => [] end) in
    Forall is_byte (map snd h') /\
    Inv sgn g1 h' (mk_state (s_sent s ++ t_before t ++ t_during t)
      (match r_read x with Some c => extend (s_ks s) (s_pending s ++ r_lost x) c | None => s_ks s end) pend q'
      (s_texts s ++ (match r_text x with Some t => [t] | None => [] end)) (s_bad s + lost_elsewhere x)) p' /\
    s_queue s ++ t_before t ++ t_during t = r_lost x ++ (match r_read x with Some c => [c] | None => [] end) ++ r_lost_after x ++ q' /\
    pend = (match r_read x with Some _ => r_lost_after x | None => s_pending s ++ r_lost x ++ r_lost_after x end).
Proof.
  intros sgn g1 h s p t Hg Hb Hq HI. unfold loop_turn. destruct (arrivals (s_queue s) (t_before t)) as [q1 lo] eqn:A1.
  assert (S1 : s_queue s ++ t_before t = lo ++ q1) by (apply arrivals_spec in A1; [tauto|apply HI]).
  rewrite S1 in Hq. apply Forall_app in Hq. destruct Hq as [_ Hq1].
  assert (L1 : (length q1 <= capacity)%nat) by (apply arrivals_spec in A1; [lia|apply HI]).
  set (n1 := match lo with [] => 0%nat | _ => 1%nat end).
  pose proof (drop_inv sgn g1 h s p (t_before t) q1 lo n1 HI A1) as D1.
  assert (C1 : lo <> [] -> n1 = 0%nat -> clean (map snd h) = true) by (unfold n1; destruct lo; [congruence|discriminate]).
  specialize (D1 C1). clear C1. destruct q1 as [|c q2].
  - destruct (arrivals [] (t_during t)) as [q2 lo2] eqn:A2. exists q2, p, (mk_result lo None None lo2), (s_pending s ++ lo ++ lo2).
    split; [reflexivity|]. cbn [r_read r_text r_lost r_lost_after]. rewrite !app_nil_r. split; [exact Hb|].
    assert (S2 : t_during t = lo2 ++ q2) by (apply arrivals_spec in A2; [cbn [app] in A2; tauto|cbn; lia]). split; [|split; [|reflexivity]].
    + pose proof (drop_inv sgn g1 h _ p (t_during t) q2 lo2 (match lo2 with [] => 0%nat | _ => 1%nat end) D1 A2) as D2.
      assert (C2 : lo2 <> [] -> match lo2 with [] => 0%nat | _ => 1%nat end = 0%nat -> clean (map snd h) = true) by (destruct lo2; [congruence|discriminate]).
      specialize (D2 C2). unfold drop in D2. cbn [s_sent s_ks s_pending s_queue s_texts s_bad] in D2. rewrite <- !app_assoc in D2.
      destruct D2 as (I1 & I2 & I3 & I4 & I5 & I6 & I7). cbn [s_sent s_ks s_pending s_queue s_texts s_bad] in *.
      unfold Inv. cbn [s_sent s_ks s_pending s_queue s_texts s_bad]. repeat (split; [assumption|]).
      unfold lost_elsewhere, some. cbn [r_lost r_text r_lost_after]. unfold n1 in I7. rewrite Nat.add_assoc. exact I7.
    + rewrite app_assoc, S1, app_nil_r. cbn [app]. now rewrite S2.
  - inversion Hq1 as [|? ? Hc Hq2]; subst.
    destruct (read_inv sgn g1 h _ p (t_now t) c q2 Hg Hb Hc D1 eq_refl) as (p' & new & T & R & CL). rewrite T.
    destruct (arrivals q2 (t_during t)) as [q3 lo2] eqn:A2. exists q3, p', (mk_result lo (Some c) (if new then Some (published p') else None) lo2), lo2.
    split; [reflexivity|]. cbn [r_read r_text r_lost r_lost_after]. cbn zeta.
    assert (S2 : q2 ++ t_during t = lo2 ++ q3) by (apply arrivals_spec in A2; [tauto|cbn [length] in L1; lia]).
    split; [rewrite map_app; apply Forall_app; split; [exact Hb|]; constructor; [exact Hc|constructor]|]. split; [|split; [|reflexivity]].
    + set (n2 := match lo2 with [] => 0%nat | _ => if new then 0%nat else 1%nat end).
      pose proof (drop_inv sgn g1 _ _ p' (t_during t) q3 lo2 n2 R A2) as D2.
      assert (C2 : lo2 <> [] -> n2 = 0%nat -> clean (map snd (h ++ [(t_now t, c)])) = true).
      { unfold n2. destruct lo2; [congruence|]. intros _. destruct new; [intros _; now apply CL|discriminate]. }
      specialize (D2 C2). unfold drop in D2. cbn [s_sent s_ks s_pending s_queue s_texts s_bad] in D2. cbn [app] in D2.
      destruct D2 as (I1 & I2 & I3 & I4 & I5 & I6 & I7). cbn [s_sent s_ks s_pending s_queue s_texts s_bad] in *.
      unfold Inv. cbn [s_sent s_ks s_pending s_queue s_texts s_bad].
      assert (TX : s_texts s ++ match (if new then Some (published p') else None) with Some t => [t] | None => [] end = s_texts s ++ (if new then [published p'] else [])) by (destruct new; reflexivity).
      rewrite TX. rewrite app_assoc. repeat (split; [assumption|]).
      unfold lost_elsewhere, some. cbn [r_lost r_text r_lost_after]. rewrite Nat.add_assoc. unfold n1, n2 in I7.
      assert (N2 : match lo2 with [] => 0%nat | _ => if new then 0%nat else 1%nat end = match (if new then Some (published p') else None) with None => some lo2 | Some _ => 0%nat end) by (destruct lo2; destruct new; reflexivity).
      rewrite N2 in I7. exact I7.
    + rewrite app_assoc, S1. rewrite <- app_assoc. f_equal. cbn [app]. f_equal. exact S2.
Qed.
