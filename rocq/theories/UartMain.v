(** C96 on the runs of the loop. *)
From Coq Require Import ZArith List Bool Lia.
From Verif Require Import Base BaseFacts Teleinfo TeleinfoSpec Publish HistorySpec DecoderProofs PublishProofs Uart UartSpec UartProofs.
Import ListNotations.
Open Scope Z_scope.

Definition read_event (t : turn) (x : result) : list event := match r_read x with Some c => [(t_now t, c)] | None => [] end.

Lemma extend_lost : forall ks pending c, concat (map fst (extend ks pending c)) = concat (map fst ks) ++ pending.
Proof.
  intros ks pending c. unfold extend. destruct pending as [|d pending].
  - rewrite app_nil_r. destruct (rev ks) as [|[l k] r] eqn:R.
    + rewrite map_app, concat_app. cbn. now rewrite app_nil_r.
    + rewrite <- (rev_involutive ks), R. cbn [rev]. rewrite !map_app, !concat_app. reflexivity.
  - rewrite map_app, concat_app. cbn [map concat fst]. now rewrite app_nil_r.
Qed.
Definition holes (ks : list (list Z * list Z)) : Prop := Forall (fun k => fst k <> [] /\ snd k <> []) (tl ks).
Definition proper_first (ks : list (list Z * list Z)) : Prop := match ks with [] => True | (_, k) :: _ => k <> [] end.
Lemma holes_snoc : forall ks l k, holes ks -> (ks = [] \/ (l <> [] /\ k <> [])) -> holes (ks ++ [(l, k)]).
Proof.
  intros [|k0 ks] l k H C; [constructor|]. unfold holes in *. cbn [tl app] in *. apply Forall_app. split; [exact H|].
  destruct C as [C|C]; [discriminate|]. constructor; [exact C|constructor].
Qed.
Lemma extend_holes : forall ks pending c, holes ks -> holes (extend ks pending c).
Proof.
  intros ks pending c H. unfold extend. destruct pending as [|d pending].
  - destruct (rev ks) as [|[l k] r] eqn:R.
    + assert (ks = []) by (rewrite <- (rev_involutive ks), R; reflexivity). subst. constructor.
    + rewrite <- (rev_involutive ks), R in H. cbn [rev] in H. apply holes_snoc.
      * unfold holes in *. destruct (rev r) as [|k0 r0]; [constructor|]. cbn [tl app] in *. apply Forall_app in H. tauto.
      * destruct (rev r) as [|k0 r0]; [now left|]. right. unfold holes in H. cbn [tl app] in H. apply Forall_app in H. destruct H as [_ H].
        inversion H as [|? ? [H1 H2] _]; subst. cbn [fst snd] in *. split; [exact H1|]. destruct k; discriminate.
  - apply holes_snoc; [exact H|]. right. split; discriminate.
Qed.

Lemma run_inv : forall sgn g1 ts h s p, length g1 = 350%nat -> Forall is_byte (map snd h) -> Forall is_byte (s_queue s ++ sent ts) -> Inv sgn g1 h s p -> holes (s_ks s) ->
  exists q' p' xs h' s', loop_run sgn ts (s_queue s) p = Some (q', p', xs) /\ Inv sgn g1 (h ++ h') s' p' /\ holes (s_ks s') /\
    map snd h' = bytes_read xs /\ s_queue s' = q' /\ s_sent s' = s_sent s ++ sent ts /\ s_texts s' = s_texts s ++ texts xs /\
    s_bad s' = (s_bad s + times_lost_elsewhere xs)%nat /\
    concat (map fst (s_ks s')) ++ s_pending s' = (concat (map fst (s_ks s)) ++ s_pending s) ++ lost xs.
Proof.
  intros sgn g1. induction ts as [|t ts IH]; intros h s p Hg Hb Hs HI HH.
  - exists (s_queue s), p, [], [], s. rewrite app_nil_r. split; [reflexivity|]. split; [exact HI|]. split; [exact HH|].
    unfold sent, texts, lost. cbn [map concat times_lost_elsewhere]. rewrite !app_nil_r, Nat.add_0_r. repeat split.
  - unfold sent in Hs. cbn [map concat] in Hs. fold (sent ts) in Hs. rewrite <- app_assoc in Hs.
    assert (Hq : Forall is_byte (s_queue s ++ t_before t)) by (rewrite app_assoc in Hs; apply Forall_app in Hs; tauto).
    destruct (turn_inv sgn g1 h s p t Hg Hb Hq HI) as (q' & p' & x & pend & T & Hb' & HI' & Q & PE). cbn zeta in *.
    set (s1 := mk_state _ _ _ _ _ _) in HI'.
    assert (Hs1 : Forall is_byte (s_queue s1 ++ sent ts)).
    { apply Forall_app in Hs. destruct Hs as [A B]. rewrite (app_assoc (t_before t)) in B. apply Forall_app in B. destruct B as [B C]. apply Forall_app. split; [|exact C].
      assert (D : Forall is_byte (s_queue s ++ t_before t ++ t_during t)) by (apply Forall_app; now split).
      rewrite Q in D. rewrite !app_assoc in D. apply Forall_app in D. apply D. }
    assert (HH1 : holes (s_ks s1)) by (unfold s1; cbn [s_ks]; destruct (r_read x); [now apply extend_holes|exact HH]).
    destruct (IH _ s1 p' Hg Hb' Hs1 HI' HH1) as (q2 & p2 & xs & h2 & s2 & R & J & JH & JB & JQ & JS & JT & JN & JL).
    change (s_queue s1) with q' in R.
    exists q2, p2, (x :: xs), (read_event t x ++ h2), s2. cbn [loop_run]. rewrite T, R. split; [reflexivity|].
    rewrite app_assoc. split; [exact J|]. split; [exact JH|]. split; [|split; [exact JQ|split; [|split; [|split]]]].
    + transitivity (map snd (read_event t x) ++ bytes_read xs); [rewrite map_app; f_equal; exact JB|].
      unfold bytes_read. cbn [map concat]. f_equal. unfold read_event. destruct (r_read x); reflexivity.
    + rewrite JS. unfold s1. cbn [s_sent]. unfold sent. cbn [map concat]. now rewrite <- !app_assoc.
    + rewrite JT. unfold s1. cbn [s_texts]. unfold texts. cbn [map concat]. now rewrite <- !app_assoc.
    + rewrite JN. unfold s1. cbn [s_bad times_lost_elsewhere]. lia.
    + rewrite JL. unfold lost. cbn [map concat]. fold (lost xs). unfold s1. cbn [s_ks s_pending]. subst pend. destruct (r_read x).
      * rewrite extend_lost. now rewrite <- !app_assoc.
      * now rewrite <- !app_assoc.
Qed.

Lemma start_inv : forall sgn g1 g2 before, length g1 = 350%nat -> length g2 = 350%nat -> Inv sgn g1 [] (mk_state before [] before [] [] 0) (pub_init g1 g2).
Proof.
  intros. unfold Inv. cbn [s_sent s_ks s_pending s_queue s_texts s_bad map length]. split; [lia|]. split; [reflexivity|].
  split; [now apply pub_init_inv|]. split; [reflexivity|]. split; [constructor|]. split; [unfold sent_of; cbn; now rewrite app_nil_r|].
  destruct before; cbn; lia.
Qed.
Lemma frames_bytes : forall fs, Forall valid_frame fs -> Forall is_byte (concat (map frame_bytes fs)).
Proof.
  induction fs as [|f fs IH]; intros H; [constructor|]. inversion H as [|? ? V H']; subst. cbn [map concat]. apply Forall_app. split; [|now apply IH].
  destruct V as (_ & V & _). rewrite frame_shape. constructor; [unfold is_byte; lia|]. apply Forall_app. split; [|constructor; [unfold is_byte; lia|constructor]].
  unfold groups. clear - V. induction f as [|b f IH]; [constructor|]. inversion V as [|? ? (P & _) V']; subst. cbn [map concat]. apply Forall_app.
  split; [|now apply IH]. unfold enc_body. constructor; [unfold is_byte; lia|]. apply Forall_app. split; [|constructor; [unfold is_byte; lia|constructor]].
  eapply Forall_impl; [|exact P]. cbn. tauto.
Qed.

Section Run.
Variables (sgn : bool) (g1 g2 : list Z) (fs : list (list (list Z))) (before after : list Z) (ts : list turn).
Hypothesis H1 : length g1 = 350%nat.
Hypothesis H2 : length g2 = 350%nat.
Hypothesis V : Forall valid_frame fs.
Hypothesis E : concat (map frame_bytes fs) = before ++ sent ts ++ after.

Lemma c96_run : exists still p xs, loop_run sgn ts [] (pub_init g1 g2) = Some (still, p, xs) /\
  exists ks pending, before ++ sent ts = sent_of ks (pending ++ still) /\ bytes_read xs = got_of ks /\
    before ++ lost xs = concat (map fst ks) ++ pending /\ holes ks /\ shown_frames (bytes_read xs) (texts xs) /\
    (bad_holes [] ks <= times_lost_elsewhere xs)%nat.
Proof.
  assert (B : Forall is_byte (sent ts)).
  { pose proof (frames_bytes fs V) as F. rewrite E in F. apply Forall_app in F. destruct F as [_ F]. apply Forall_app in F. tauto. }
  assert (HH : holes (s_ks (mk_state before [] before [] [] 0))) by constructor.
  destruct (run_inv sgn g1 ts [] (mk_state before [] before [] [] 0) (pub_init g1 g2) H1 (Forall_nil _) B (start_inv sgn g1 g2 before H1 H2) HH)
    as (q & p & xs & h & s & R & (I1 & I2 & I3 & I4 & I5 & I6 & I7) & K & JB & JQ & JS & JT & JN & JL).
  exists q, p, xs. split; [exact R|]. exists (s_ks s), (s_pending s). cbn [app s_sent s_texts s_bad s_ks s_pending map concat] in *.
  rewrite JB in *. rewrite JT in I5. rewrite JS in I6. rewrite JQ in I6. split; [exact I6|]. split; [exact I4|]. split; [now symmetry|].
  split; [exact K|]. split; [exact I5|]. lia.
Qed.

Lemma c96_all : exists still p xs, loop_run sgn ts [] (pub_init g1 g2) = Some (still, p, xs) /\
  (length (strangers fs (texts xs)) <= times_lost_elsewhere xs)%nat /\
  exists ks pending, before ++ sent ts = sent_of ks (pending ++ still) /\ bytes_read xs = got_of ks /\
    before ++ lost xs = concat (map fst ks) ++ pending /\ Forall (fun k => fst k <> [] /\ snd k <> []) (tl ks) /\
    (forall lo u f v, In (lo, u ++ frame_bytes f ++ v) ks -> valid_frame f -> In (content f) (texts xs)) /\
    (forall t, In t (texts xs) -> exists bodies, valid_frame bodies /\ t = content bodies /\ Forall (fun b => In b (concat fs) \/ cut_group ks b) bodies).
Proof.
  destruct c96_run as (still & p & xs & R & ks & pending & A & B & C & D & S & N). exists still, p, xs. split; [exact R|].
  assert (EE : concat (map frame_bytes fs) = sent_of ks ((pending ++ still) ++ after)).
  { rewrite E, app_assoc, A. unfold sent_of. now rewrite <- !app_assoc. }
  assert (OK : Forall bodies_ok fs) by (eapply Forall_impl; [|exact V]; apply valid_ok).
  rewrite B in S. split; [pose proof (pieces_count fs OK ks _ _ EE S); lia|].
  exists ks, pending. split; [exact A|]. split; [exact B|]. split; [exact C|]. split; [exact D|]. split.
  - intros lo u f v I VF. apply in_split in I. destruct I as (k1 & k2 & ->). rewrite got_app in S.
    apply (shown_all _ _ S (got_of k1 ++ u) f (v ++ got_of k2) VF). unfold got_of at 2. cbn [map concat snd]. fold (got_of k2). now rewrite <- !app_assoc.
  - intros t I. apply (shown_groups fs ks _ _ V EE S t I).
Qed.
Lemma c96_services : exists still p xs, loop_run sgn ts [] (pub_init g1 g2) = Some (still, p, xs) /\
  (times_lost_elsewhere xs = 0%nat -> forall t, In t (texts xs) -> exists f, In f fs /\ t = content f).
Proof.
  destruct c96_all as (still & p & xs & R & S & _). exists still, p, xs. split; [exact R|]. intros Z0 t I. rewrite Z0 in S.
  destruct (existsb (beq t) (map content fs)) eqn:X.
  - apply existsb_exists in X. destruct X as (y & Iy & X). apply beq_eq in X. subst y. apply in_map_iff in Iy. destruct Iy as (f & <- & F). now exists f.
  - exfalso. assert (Q : In t (strangers fs (texts xs))) by (apply filter_In; split; [exact I|now rewrite X]). destruct (strangers fs (texts xs)); [contradiction|cbn in S; lia].
Qed.
End Run.

(** ** No loss *)
Lemma shown_fun : forall r l, shown_frames r l -> forall l', shown_frames r l' -> l = l'.
Proof.
  induction 1 as [|r c l b S IH EN|r c l S IH N]; intros l' H'.
  - inversion H' as [Z0|r0 ? ? ? ? ? Z0|r0 ? ? ? ? Z0]; [reflexivity| |]; destruct r0; discriminate.
  - remember (r ++ [c]) as w eqn:W. destruct H' as [|r' c' l' b' S' EN'|r' c' l' S' N'].
    + destruct r; discriminate.
    + apply app_inj_tail in W. destruct W as [-> ->]. rewrite (IH _ S'). now rewrite (ends_unique _ b b' EN EN').
    + exfalso. exact (N' b EN).
  - remember (r ++ [c]) as w eqn:W. destruct H' as [|r' c' l' b' S' EN'|r' c' l' S' N'].
    + destruct r; discriminate.
    + exfalso. exact (N b' EN').
    + apply app_inj_tail in W. destruct W as [-> ->]. now apply IH.
Qed.
Lemma shown_quiet : forall g r l, shown_frames r l -> without 3 g -> shown_frames (r ++ g) l.
Proof.
  induction g as [|c g IH]; intros r l S W; [now rewrite app_nil_r|]. inversion W; subst.
  change (r ++ c :: g) with (r ++ [c] ++ g). rewrite app_assoc. apply IH; [|assumption]. apply sf_old; [exact S|].
  intros b (_ & x & EN). rewrite frame_shape in EN. change (x ++ 2 :: groups b ++ [3]) with (x ++ (2 :: groups b) ++ [3]) in EN.
  rewrite app_assoc in EN. apply app_inj_tail in EN. tauto.
Qed.
Lemma shown_frames_all : forall fs, Forall valid_frame fs -> shown_frames (concat (map frame_bytes fs)) (map content fs).
Proof.
  induction fs as [|f fs IH] using rev_ind; intros H; [constructor|]. apply Forall_app in H. destruct H as [H VF]. inversion VF as [|? ? VF' _]; subst.
  rewrite !map_app, concat_app. cbn [map concat]. rewrite app_nil_r, frame_shape.
  change (2 :: groups f ++ [3]) with ((2 :: groups f) ++ [3]). rewrite app_assoc. apply sf_new.
  - apply shown_quiet; [now apply IH|]. constructor; [lia|]. apply groups_without; [now apply valid_ok|reflexivity|lia|lia].
  - split; [exact VF'|]. exists (concat (map frame_bytes fs)). rewrite <- app_assoc. reflexivity.
Qed.
Lemma c96_no_loss : forall sgn g1 g2 fs ts, length g1 = 350%nat -> length g2 = 350%nat -> Forall valid_frame fs ->
  concat (map frame_bytes fs) = sent ts ->
  exists still p xs, loop_run sgn ts [] (pub_init g1 g2) = Some (still, p, xs) /\
    (lost xs = [] -> still = [] -> texts xs = map content fs).
Proof.
  intros sgn g1 g2 fs ts H1 H2 V E.
  destruct (c96_run sgn g1 g2 fs [] [] ts H1 H2 V) as (still & p & xs & R & ks & pending & A & B & C & D & S & N); [now rewrite app_nil_r|].
  exists still, p, xs. split; [exact R|]. intros L ->. cbn [app] in *. rewrite L in C. symmetry in C. apply app_eq_nil in C. destruct C as [C ->].
  cbn [app] in A. assert (G : got_of ks = sent ts).
  { rewrite A. unfold sent_of, got_of. rewrite app_nil_r. clear - C. induction ks as [|[l k] ks IH]; [reflexivity|]. cbn [map concat fst snd] in *.
    apply app_eq_nil in C. destruct C as [-> C]. rewrite IH; [reflexivity|exact C]. }
  rewrite B, G, <- E in S. exact (shown_fun _ _ S _ (shown_frames_all fs V)).
Qed.

(** ** When nothing is lost *)
Lemma arrivals_room : forall burst q, (length q + length burst <= capacity)%nat -> arrivals q burst = (q ++ burst, []).
Proof.
  intros burst q L. destruct (arrivals q burst) as [q' lo] eqn:A. apply arrivals_spec in A; [|lia]. destruct A as [A B].
  pose proof (f_equal (@length Z) A) as LL. rewrite !app_length in LL. assert (lo = []) by (destruct lo; [reflexivity|cbn [length] in LL; lia]).
  subst lo. cbn [app] in A. now rewrite A.
Qed.
Definition slow_enough (done ts : list turn) : Prop :=
  forall ts1 mid ts2, done ++ ts = ts1 ++ mid ++ ts2 -> (length (sent mid) <= 253 + length mid)%nat.
Lemma sent_mid : forall a b, sent (a ++ b) = sent a ++ sent b.
Proof. intros. unfold sent. now rewrite map_app, concat_app. Qed.
Lemma room_inv : forall sgn ts done q p still p' xs, slow_enough done ts ->
  (q = [] \/ exists pre mid, done = pre ++ mid /\ mid <> [] /\ (length q + length mid <= length (sent mid) + 1)%nat) ->
  loop_run sgn ts q p = Some (still, p', xs) -> lost xs = [].
Proof.
  intros sgn. induction ts as [|t ts IH]; intros done q p still p' xs SE QI R; cbn [loop_run] in R.
  - injection R as _ _ <-. reflexivity.
  - destruct (loop_turn sgn t q p) as [[[q1 p1] x]|] eqn:T; [|discriminate].
    destruct (loop_run sgn ts q1 p1) as [[[q2 p2] xs2]|] eqn:R2; [|discriminate]. injection R as _ _ <-.
    assert (SE' : slow_enough (done ++ [t]) ts) by (unfold slow_enough in *; intros ts1 mid ts2 Q; apply (SE ts1 mid ts2); rewrite <- Q, <- app_assoc; reflexivity).
    assert (L1 : length (sent [t]) = (length (t_before t) + length (t_during t))%nat) by (unfold sent; cbn [map concat]; rewrite app_nil_r; apply app_length).
    assert (S1 : (length (sent [t]) <= 254)%nat) by (apply (SE done [t] ts); reflexivity).
    change capacity with 255%nat in *.
    assert (RM : (length q + length (t_before t) + length (t_during t) <= capacity)%nat).
    { change capacity with 255%nat. destruct QI as [->|(pre & mid & -> & N & L)]; [cbn [length]; lia|].
      pose proof (SE pre (mid ++ [t]) ts) as X. rewrite sent_mid, !app_length in X. cbn [length] in X. specialize (X ltac:(rewrite <- !app_assoc; reflexivity)). lia. }
    unfold loop_turn in T. rewrite arrivals_room in T by lia. destruct (q ++ t_before t) as [|c q0] eqn:Q0.
    + rewrite arrivals_room in T by (cbn [length]; lia). injection T as <- <- <-. unfold lost. cbn [map concat r_lost r_lost_after app]. fold (lost xs2).
      eapply (IH (done ++ [t]) _ _ _ _ _ SE'); [|exact R2]. cbn [app]. right. exists done, [t]. split; [reflexivity|]. split; [discriminate|].
      cbn [length]. lia.
    + assert (LQ : (length q + length (t_before t) = Datatypes.S (length q0))%nat) by (rewrite <- app_length, Q0; reflexivity).
      destruct (tic_decode sgn (t_now t) c p) as [[p3 new]|]; [|discriminate].
      rewrite arrivals_room in T by lia. injection T as <- <- <-. unfold lost. cbn [map concat r_lost r_lost_after app]. fold (lost xs2).
      eapply (IH (done ++ [t]) _ _ _ _ _ SE'); [|exact R2]. right. rewrite app_length. destruct QI as [->|(pre & mid & -> & N & L)].
      * exists done, [t]. split; [reflexivity|]. split; [discriminate|]. cbn [length] in *. lia.
      * exists pre, (mid ++ [t]). split; [now rewrite app_assoc|]. split; [destruct mid; discriminate|]. rewrite sent_mid, !app_length. cbn [length]. lia.
Qed.
Lemma c96_room : forall sgn ts p still p' xs, (forall ts1 mid ts2, ts = ts1 ++ mid ++ ts2 -> (length (sent mid) <= 253 + length mid)%nat) ->
  loop_run sgn ts [] p = Some (still, p', xs) -> lost xs = [].
Proof. intros sgn ts p still p' xs H R. apply (room_inv sgn ts [] [] p still p' xs); [exact H|now left|exact R]. Qed.

(** ** What is shown at the end *)
Lemma decode_published : forall sgn now c p p', tic_decode sgn now c p = Some (p', false) -> published p' = published p.
Proof.
  intros sgn now c p p' H. unfold tic_decode in H. destruct (p_pause p); [injection H as <-; reflexivity|].
  destruct (put sgn now c (p_dec p)) as [d|]; [|discriminate]. destruct (ready d).
  - destruct (copy_from _ _ _ _); discriminate.
  - injection H as <-. reflexivity.
Qed.
Lemma last_cons_default : forall (l : list (list Z)) x d, last (x :: l) d = last l x.
Proof. induction l as [|y l IH]; intros x d; [reflexivity|]. change (last (x :: y :: l) d) with (last (y :: l) d). rewrite (IH y d), (IH y x). reflexivity. Qed.
Lemma c96_shown : forall sgn ts q p q' p' xs, loop_run sgn ts q p = Some (q', p', xs) -> published p' = last (texts xs) (published p).
Proof.
  intros sgn. induction ts as [|t ts IH]; intros q p q' p' xs R; cbn [loop_run] in R.
  - injection R as _ <- <-. reflexivity.
  - destruct (loop_turn sgn t q p) as [[[q1 p1] x]|] eqn:T; [|discriminate].
    destruct (loop_run sgn ts q1 p1) as [[[q2 p2] xs2]|] eqn:R2; [|discriminate]. injection R as _ <- <-.
    rewrite (IH _ _ _ _ _ R2). unfold texts. cbn [map concat]. fold (texts xs2).
    unfold loop_turn in T. destruct (arrivals q (t_before t)) as [q3 lo]. destruct q3 as [|c q3].
    + destruct (arrivals [] (t_during t)) as [q4 lo4]. injection T as _ <- <-. reflexivity.
    + destruct (tic_decode sgn (t_now t) c p) as [[p3 new]|] eqn:D; [|discriminate].
      destruct (arrivals q3 (t_during t)) as [q4 lo4]. injection T as _ <- <-. cbn [r_text]. destruct new.
      * cbn [app]. now rewrite last_cons_default.
      * cbn [app]. now rewrite (decode_published _ _ _ _ _ D).
Qed.
Lemma c96_quiet : forall sgn g1 g2 fs ts, length g1 = 350%nat -> length g2 = 350%nat -> Forall valid_frame fs ->
  concat (map frame_bytes fs) = sent ts ->
  (forall ts1 mid ts2, ts = ts1 ++ mid ++ ts2 -> (length (sent mid) <= 253 + length mid)%nat) ->
  exists still p xs, loop_run sgn ts [] (pub_init g1 g2) = Some (still, p, xs) /\ lost xs = [] /\
    (still = [] -> texts xs = map content fs).
Proof.
  intros sgn g1 g2 fs ts H1 H2 V E Q. destruct (c96_no_loss sgn g1 g2 fs ts H1 H2 V E) as (still & p & xs & R & T).
  exists still, p, xs. split; [exact R|]. pose proof (c96_room _ _ _ _ _ _ Q R) as L. split; [exact L|]. exact (T L).
Qed.
