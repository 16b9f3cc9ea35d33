(** One altered byte: when the frame is rejected. *)
From Coq Require Import ZArith List Bool Lia ZifyBool ZifyNat.
From Verif Require Import Base BaseFacts Teleinfo TeleinfoSpec DecoderProofs AccessProofs GroupProofs.
Import ListNotations.
Open Scope Z_scope.

Lemma put_not_etx : forall sgn now c d d', put sgn now c d = Some d' -> c <> 3 -> d_size d' = 0%nat.
Proof.
  intros sgn now c d d' H Hc. unfold put in H.
  change STX with 2 in H. change LF with 10 in H. change CR with 13 in H. change ETX with 3 in H. change EOT with 4 in H.
  destruct (c =? 2). { inv H. auto. }
  destruct (c =? 10). { cbn [d_state] in H. destruct (d_state d); inv H; auto. }
  destruct (c =? 13).
  { cbn [d_state] in H. destruct (d_state d); try (inv H; auto; fail).
    unfold put_cr in H. cbn [d_size d_off d_start d_frame] in H.
    destruct (_ && _)%bool; [|inv H; auto]. destruct (Nat.ltb _ _); [|inv H; auto].
    destruct (rd _ _); [|discriminate]. destruct (rd _ _); [|discriminate].
    destruct (ck_loop _ _ _ _ _ _) as [[? ?]|]; [|discriminate].
    destruct (_ =? _); [|inv H; auto]. destruct (strip_loop _ _); [|discriminate].
    destruct (upd _ _ _); inv H. auto. }
  destruct (Z.eqb_spec c 3); [contradiction|].
  destruct (c =? 4). { inv H. auto. }
  cbn [d_state] in H. destruct (d_state d); try (inv H; auto; fail).
  destruct (Nat.ltb _ _); [|inv H; auto]. destruct (upd _ _ _); inv H. auto.
Qed.

Lemma put_wait : forall sgn now c d, c <> 2 -> d_state d = WaitStx ->
  exists d', put sgn now c d = Some d' /\ d_state d' = WaitStx /\ d_size d' = 0%nat /\ length (d_frame d') = length (d_frame d).
Proof.
  intros. unfold put.
  change STX with 2. change LF with 10. change CR with 13. change ETX with 3. change EOT with 4.
  destruct (Z.eqb_spec c 2); [contradiction|]. cbn [d_state]. rewrite H0.
  destruct (c =? 10), (c =? 13), (c =? 3), (c =? 4); eexists; (split; [reflexivity|auto]).
Qed.

Lemma run_wait : forall sgn h d, Forall (fun c => c <> 2) (map snd h) -> d_state d = WaitStx ->
  exists d', run sgn h d = Some d' /\ d_state d' = WaitStx /\ length (d_frame d') = length (d_frame d).
Proof.
  induction h as [|[now c] h]; simpl; intros; eauto. inv H.
  destruct (put_wait sgn now c d H3 H0) as (d1 & E1 & E2 & E3 & E4). rewrite E1.
  destruct (IHh d1 H4 E2) as (d2 & F1 & F2 & F3). exists d2. repeat split; auto. congruence.
Qed.

Lemma fits_app : forall bs1 bs2 used, fits used (bs1 ++ bs2) ->
  fits used bs1 /\ fits (used + length (content bs1)) bs2.
Proof.
  induction bs1; intros; simpl in *.
  - unfold content; simpl. rewrite Nat.add_0_r. auto.
  - destruct H. destruct (IHbs1 _ _ H0). repeat split; auto.
    unfold content in *. simpl. rewrite app_length, Nat.add_assoc. auto.
Qed.

(** state reached in the middle of the group after [bs1], having received [part] of it *)
Lemma run_until : forall sgn bs1 part h d, length (d_frame d) = 350%nat ->
  map snd h = 2 :: groups bs1 ++ 10 :: part -> Forall good_body bs1 -> fits 0 bs1 -> plain part ->
  (length (content bs1) + length part <= 350)%nat ->
  exists d' R, run sgn h d = Some d' /\ d_state d' = WaitCr /\ d_start d' = length (content bs1) /\
    d_frame d' = content bs1 ++ part ++ R /\ d_off d' = (length (content bs1) + length part)%nat /\
    length (d_frame d') = 350%nat /\ d_size d' = 0%nat.
Proof.
  intros sgn bs1 part h d Hl Hm Hg Hf Hp Hroom.
  destruct h as [|[t0 c0] h]; [discriminate|]. cbn [map snd] in Hm. inv Hm.
  apply map_eq_app in H1. destruct H1 as (h1 & h2 & -> & Hh1 & Hh2).
  destruct h2 as [|[n1 c1] h2]; [discriminate|]. cbn [map snd] in Hh2. inv Hh2.
  cbn [run app]. change (put sgn t0 2 d) with (Some (mk_dec (d_frame d) 0 t0 0 (d_start d) WaitLfOrEtx)). cbn iota beta.
  destruct (run_groups sgn bs1 h1 (mk_dec (d_frame d) 0 t0 0 (d_start d) WaitLfOrEtx) [] (d_frame d)) as (d1 & R1 & E1 & E2 & E3 & E4 & E5 & E6); auto.
  cbn [app] in *.
  rewrite (run_app _ _ _ _ _ E1). cbn [run]. unfold put at 1. simpl (10 =? STX). simpl (10 =? LF). cbn iota. cbn [d_state].
  rewrite E2. cbn [d_frame d_ts d_off].
  destruct (run_plain sgn (map snd h2) h2 (mk_dec (d_frame d1) 0 (d_ts d1) (d_off d1) (d_off d1) WaitCr) (content bs1) R1) as (R' & sz & F1 & F2 & F3 & F4); auto.
  { rewrite E4, app_length in E6. lia. }
  rewrite F4. eexists. exists R'. split; [reflexivity|]. cbn [d_state d_start d_frame d_off d_size].
  split; [auto|]. split; [auto|]. split; [auto|]. split; [rewrite E5; auto|]. split.
  - rewrite !app_length. rewrite <- E6, E4, app_length. lia.
  - destruct (map snd h2); [apply F1; auto|apply F2; congruence].
Qed.

Lemma total_app : forall a b, total (a ++ b) = total a + total b.
Proof. unfold total. induction a; simpl; intros; auto. rewrite IHa. lia. Qed.

(** Changing one byte outside the second separator by something visible modulo 64 breaks the checksum. *)
Lemma altered_bad : forall p1 x p2 y, good_body (p1 ++ x :: p2) -> is_ctrl y = false -> detectable x p2 y -> okb (p1 ++ y :: p2) = false.
Proof.
  intros p1 x p2 y (Hp & H4 & Hck) Hy (Hne & Hd). unfold okb. apply Z.eqb_neq. intro E.
  destruct Hd as [Hc|[[Hl Hm]|Hl]]; [congruence| |].
  - assert (exists q s c, p2 = q ++ [s; c]) as (q & s & c & ->) by (do 3 eexists; apply body_split; lia).
    replace (p1 ++ x :: q ++ [s; c]) with ((p1 ++ x :: q) ++ [s; c]) in Hck by (rewrite <- app_assoc; auto).
    replace (p1 ++ y :: q ++ [s; c]) with ((p1 ++ y :: q) ++ [s; c]) in E by (rewrite <- app_assoc; auto).
    rewrite payload_app, checksum_char_app in *. rewrite E in Hck. unfold checksum in Hck.
    assert (HT : total (p1 ++ y :: q) mod 64 = total (p1 ++ x :: q) mod 64) by lia.
    rewrite !total_app in HT. cbn [total fold_right] in HT. fold (total q) in HT.
    apply Hm.
    replace (y - x) with ((total p1 + (y + total q)) - (total p1 + (x + total q))) by lia.
    rewrite Zminus_mod, HT, Z.sub_diag. auto.
  - destruct p2; [|discriminate].
    destruct p1 as [|p1 s] using rev_ind. { simpl in H4. lia. }
    rewrite <- app_assoc in *. cbn [app] in *. rewrite payload_app, checksum_char_app in *. congruence.
Qed.

Lemma groups_no2 : forall bs, Forall good_body bs -> Forall (fun c => c <> 2 /\ c <> 3) (groups bs).
Proof.
  induction 1; unfold groups in *; cbn [map concat]; [constructor|].
  apply Forall_app. split; auto. unfold enc_body. constructor; [lia|]. apply Forall_app. split.
  - destruct H as (H & _). eapply Forall_impl; eauto. cbn. intros a [? Ha]. apply plain_char in Ha. intuition.
  - constructor; [lia|constructor].
Qed.
Lemma plain_no2 : forall l, plain l -> Forall (fun c => c <> 2 /\ c <> 3) l.
Proof. intros. eapply Forall_impl; eauto. cbn. intros a [? Ha]. apply plain_char in Ha. intuition. Qed.
Lemma Forall_and_l : forall (l : list Z), Forall (fun c => c <> 2 /\ c <> 3) l -> Forall (fun c => c <> 2) l.
Proof. intros. eapply Forall_impl; eauto. cbn. intuition. Qed.

(** after the altered byte and before ETX, the decoder waits for the next STX *)
Lemma altered_state : forall sgn bs1 p1 x p2 y bs2 d hU nowy hV,
  valid_frame (bs1 ++ (p1 ++ x :: p2) :: bs2) -> detectable x p2 y -> is_byte y ->
  length (d_frame d) = 350%nat ->
  map snd hU = 2 :: groups bs1 ++ 10 :: p1 ->
  map snd hV = p2 ++ 13 :: groups bs2 ->
  exists d1 d2, run sgn (hU ++ [(nowy, y)]) d = Some d1 /\ d_size d1 = 0%nat /\
    run sgn hV d1 = Some d2 /\ d_state d2 = WaitStx.
Proof.
  intros sgn bs1 p1 x p2 y bs2 d hU nowy hV (_ & Hg & Hf) Hdet Hy Hl HU HV.
  apply Forall_app in Hg. destruct Hg as [Hg1 Hg2]. inv Hg2.
  apply fits_app in Hf. destruct Hf as [Hf1 Hf2]. cbn [fits Nat.add] in Hf2. destruct Hf2 as [Hroom _].
  assert (Hb := H1). destruct H1 as (Hpl & H4 & Hck).
  rewrite app_length in Hroom. cbn [length] in Hroom.
  assert (Hp1 : plain p1 /\ plain p2).
  { apply Forall_app in Hpl. destruct Hpl as [A B]. inv B. auto. }
  destruct Hp1 as [Hp1 Hp2].
  destruct (run_until sgn bs1 p1 hU d) as (d' & R & E1 & E2 & E3 & E4 & E5 & E6 & E7); auto; [lia|].
  rewrite (run_app _ _ _ _ _ E1). cbn [run].
  assert (HV2 : Forall (fun c => c <> 2) (map snd hV)).
  { rewrite HV. apply Forall_app. split. apply Forall_and_l, plain_no2; auto. constructor; [lia|].
    apply Forall_and_l, groups_no2; auto. }
  destruct (is_ctrl y) eqn:Ey.
  - (* control character: afterwards only LF or ETX would be acceptable *)
    assert (HVne : exists n v hV', hV = (n, v) :: hV' /\ v <> 2 /\ v <> 10 /\ v <> 3 /\ map snd hV' = tl (p2 ++ 13 :: groups bs2)).
    { destruct hV as [|[n v] hV]. { destruct p2; discriminate. }
      exists n, v, hV. split; auto. simpl in HV. destruct p2; simpl in HV; inv HV.
      - repeat split; auto; lia.
      - inv Hp2. destruct H3 as [? Hc]. apply plain_char in Hc. intuition. }
    destruct HVne as (n & v & hV' & -> & Hv1 & Hv2 & Hv3 & _).
    assert (Hafter : exists d1, put sgn nowy y d' = Some d1 /\ d_size d1 = 0%nat /\ d_state d1 <> WaitCr).
    { unfold put. change STX with 2. change LF with 10. change CR with 13. change ETX with 3. change EOT with 4.
      unfold is_ctrl in Ey.
      destruct (y =? 2) eqn:Y2. { eexists; split; [reflexivity|]; split; cbn; auto; congruence. }
      destruct (y =? 10) eqn:Y10. { cbn [d_state]. rewrite E2. eexists; split; [reflexivity|]; split; cbn; auto; congruence. }
      destruct (y =? 13) eqn:Y13.
      { cbn [d_state]. rewrite E2.
        match goal with |- context[put_cr sgn ?D] => destruct (put_cr_spec sgn D (content bs1) p1 R) as (fr & F1 & F2); auto end.
        { apply content_stops. } { cbn. rewrite E5, E6. lia. }
        destruct (_ && _)%bool in F2.
        - destruct F2 as (R' & _ & F2). rewrite F2. eexists; split; [reflexivity|]; split; cbn; auto; congruence.
        - rewrite F2. eexists; split; [reflexivity|]; split; cbn; auto; congruence. }
      destruct (y =? 3) eqn:Y3. { cbn [d_state]. rewrite E2. eexists; split; [reflexivity|]; split; cbn; auto; congruence. }
      destruct (y =? 4) eqn:Y4. { eexists; split; [reflexivity|]; split; cbn; auto; congruence. }
      discriminate. }
    destruct Hafter as (d1 & F1 & F2 & F3). rewrite F1.
    exists d1. cbn [map snd] in HV2. inv HV2. cbn [run].
    assert (Hnext : exists d2, put sgn n v d1 = Some d2 /\ d_state d2 = WaitStx).
    { destruct (d_state d1) eqn:S1; [| |congruence].
      - destruct (put_wait sgn n v d1 H1 S1) as (d2 & G1 & G2 & _). eauto.
      - unfold put. change STX with 2. change LF with 10. change CR with 13. change ETX with 3. change EOT with 4.
        rewrite (proj2 (Z.eqb_neq v 2)), (proj2 (Z.eqb_neq v 10)), (proj2 (Z.eqb_neq v 3)) by auto. cbn [d_state]. rewrite S1.
        destruct (v =? 13), (v =? 4); eexists; (split; [reflexivity|auto]). }
    destruct Hnext as (d2 & G1 & G2). rewrite G1.
    destruct (run_wait sgn hV' d2 H3 G2) as (d3 & K1 & K2 & _). exists d3. auto.
  - (* ordinary character: the checksum fails at CR *)
    destruct R as [|r R].
    { exfalso. rewrite app_nil_r in E4. rewrite E4, app_length in E6. lia. }
    rewrite (put_plain sgn nowy y d' Hy Ey E2 (content bs1 ++ p1) r R);
      [|rewrite E4, <- app_assoc; auto|rewrite app_length; lia|auto].
    eexists. 
    apply map_eq_app in HV. destruct HV as (h1 & h2 & -> & Hh1 & Hh2).
    destruct h2 as [|[n2 c2] h2]; [discriminate|]. cbn [map snd] in Hh2. inv Hh2.
    match goal with |- context[Some ?D] => destruct (run_plain sgn (map snd h1) h1 D (content bs1 ++ p1 ++ [y]) R) as (R' & sz & F1 & F2 & F3 & F4); auto end.
    { cbn. rewrite <- !app_assoc. auto. } { cbn. rewrite !app_length; simpl. lia. }
    { cbn. rewrite <- E6, E4, !app_length. simpl. lia. }
    { rewrite E4, !app_length in E6. simpl in E6. lia. }
    cbn [d_ts d_off d_start] in F4.
    rewrite (run_app _ _ _ _ _ F4).
    cbn [run]. unfold put. simpl (13 =? STX). simpl (13 =? LF). simpl (13 =? CR). cbn iota. cbn [d_state].
    match goal with |- context[put_cr sgn ?D] => destruct (put_cr_spec sgn D (content bs1) (p1 ++ y :: map snd h1) R') as (fr & G1 & G2); auto end.
    { cbn. rewrite <- !app_assoc. auto. } { apply content_stops. }
    { unfold plain. apply Forall_app. split; [exact Hp1|constructor; auto]. }
    { cbn. rewrite !app_length; simpl. lia. }
    { cbn. rewrite !app_length. cbn [length]. rewrite ?app_length. lia. }
    rewrite (altered_bad _ _ _ _ Hb Ey Hdet), andb_false_r in G2. rewrite G2.
    match goal with |- context[run sgn h2 ?D] => destruct (run_wait sgn h2 D) as (d3 & K1 & K2 & _) end; auto.
    { apply Forall_and_l. rewrite H1. apply groups_no2; auto. }
    exists d3. split; [reflexivity|]. split; auto.
Qed.

Lemma put_etx_wait : forall sgn now d, d_state d = WaitStx -> exists d', put sgn now 3 d = Some d' /\ d_size d' = 0%nat.
Proof. intros. destruct (put_wait sgn now 3 d) as (d' & E1 & _ & E2 & _); auto. lia. eauto. Qed.

Lemma ready_size : forall d, d_size d = 0%nat -> ready d = false.
Proof. unfold ready. intros. rewrite H. auto. Qed.

(** the full statement: no prefix of the altered frame makes the decoder ready *)
Lemma altered_never_ready : forall sgn bs1 p1 x p2 y bs2 d h1 h2 d1,
  valid_frame (bs1 ++ (p1 ++ x :: p2) :: bs2) -> detectable x p2 y -> is_byte y ->
  length (d_frame d) = 350%nat ->
  map snd (h1 ++ h2) = altered_frame bs1 p1 y p2 bs2 -> h1 <> [] ->
  run sgn h1 d = Some d1 -> ready d1 = false.
Proof.
  intros sgn bs1 p1 x p2 y bs2 d h1 h2 d1 Hv Hdet Hy Hl Hm Hne Hrun.
  destruct h1 as [|[now c] h1 _] using rev_ind; [congruence|]. clear Hne.
  destruct (Z.eq_dec c 3).
  2:{ apply run_app_inv in Hrun. destruct Hrun as (d0 & _ & Hr). cbn [run] in Hr.
      destruct (put sgn now c d0) eqn:E; [|discriminate]. inv Hr. apply ready_size. eapply put_not_etx; eauto. }
  subst c. unfold altered_frame in Hm.
  (* split the history along U, y, V, ETX *)
  replace (2 :: groups bs1 ++ 10 :: p1 ++ y :: p2 ++ 13 :: groups bs2 ++ [3])
    with ((2 :: groups bs1 ++ 10 :: p1) ++ y :: (p2 ++ 13 :: groups bs2) ++ [3]) in Hm
    by (repeat (progress (cbn [app]; rewrite <- ?app_assoc)); auto).
  set (U := 2 :: groups bs1 ++ 10 :: p1) in *. set (V := p2 ++ 13 :: groups bs2) in *.
  assert (HvU := Hv). destruct HvU as (_ & Hg & _). apply Forall_app in Hg. destruct Hg as [Hg1 Hg2]. inv Hg2.
  assert (Hpl : plain p1 /\ plain p2).
  { destruct H1 as (Hpl & _). apply Forall_app in Hpl. destruct Hpl as [A B]. inv B. auto. }
  assert (HU3 : ~ In 3 U).
  { unfold U. intros [E|E]; [lia|]. apply in_app_or in E. destruct E as [E|[E|E]]; [| lia |].
    - apply groups_no2 in Hg1. rewrite Forall_forall in Hg1. apply Hg1 in E. lia.
    - destruct Hpl as [A _]. apply plain_no2 in A. rewrite Forall_forall in A. apply A in E. lia. }
  assert (HV3 : ~ In 3 V).
  { unfold V. intros E. apply in_app_or in E. destruct E as [E|[E|E]]; [| lia |].
    - destruct Hpl as [_ A]. apply plain_no2 in A. rewrite Forall_forall in A. apply A in E. lia.
    - apply groups_no2 in H2. rewrite Forall_forall in H2. apply H2 in E. lia. }
  apply map_eq_app in Hm. destruct Hm as (hU & hr & Hsplit & HhU & Hhr).
  destruct hr as [|[nowy cy] hr]; [discriminate|]. cbn [map snd] in Hhr. inv Hhr.
  apply map_eq_app in H3. destruct H3 as (hV & he & -> & HhV & Hhe).
  destruct he as [|[ne ce] [|]]; try discriminate. cbn [map snd] in Hhe. inv Hhe.
  destruct (altered_state sgn bs1 p1 x p2 y bs2 d hU nowy hV) as (dA & dB & EA & SA & EB & SB); auto.
  (* position of our final ETX *)
  assert (Hcase : h1 ++ [(now, 3)] = hU ++ [(nowy, y)] \/ h1 ++ [(now, 3)] = hU ++ (nowy, y) :: hV ++ [(ne, 3)]).
  { rewrite <- app_assoc in Hsplit. cbn [app] in Hsplit.
    assert (HinU : ~ In 3 (map snd hU)) by (rewrite HhU; auto).
    assert (HinV : ~ In 3 (map snd hV)) by (rewrite HhV; auto).
    clear - Hsplit HinU HinV. revert hU Hsplit HinU. induction h1 as [|e h1]; intros hU Hsplit HinU.
    - destruct hU as [|u hU]; cbn [app] in Hsplit.
      + inv Hsplit. left. auto.
      + inv Hsplit. exfalso. apply HinU. left. auto.
    - destruct hU as [|u hU]; cbn [app] in Hsplit.
      + inv Hsplit. right. cbn [app]. f_equal.
        clear - H1 HinV. revert hV H1 HinV. induction h1 as [|e h1]; intros hV Hs HinV.
        * destruct hV as [|v hV]; cbn [app] in Hs.
          -- inv Hs. auto.
          -- inv Hs. exfalso. apply HinV. left. auto.
        * destruct hV as [|v hV]; cbn [app] in Hs.
          -- inv Hs. destruct h1; discriminate.
          -- inv Hs. cbn [app]. rewrite (IHh1 hV); auto. intro. apply HinV. right. auto.
      + inv Hsplit. destruct (IHh1 hU) as [E|E]; auto.
        { intro. apply HinU. right. auto. }
        * left. cbn [app]. rewrite E. auto.
        * right. cbn [app]. rewrite E. auto. }
  destruct Hcase as [E|E]; rewrite E in Hrun.
  - rewrite EA in Hrun. inv Hrun. apply ready_size; auto.
  - replace (hU ++ (nowy, y) :: hV ++ [(ne, 3)]) with ((hU ++ [(nowy, y)]) ++ hV ++ [(ne, 3)]) in Hrun
      by (rewrite <- app_assoc; auto).
    rewrite (run_app _ _ _ _ _ EA), (run_app _ _ _ _ _ EB) in Hrun. cbn [run] in Hrun.
    destruct (put_etx_wait sgn ne dB SB) as (dC & F1 & F2). rewrite F1 in Hrun. inv Hrun. apply ready_size; auto.
Qed.
