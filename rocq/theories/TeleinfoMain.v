(** Top-level statements about the decoder and its accessors, assembled for PropTeleinfo.v. *)
From Coq Require Import ZArith List Bool Lia ZifyBool ZifyNat.
From Verif Require Import Base BaseFacts Teleinfo TeleinfoSpec DecoderProofs AccessProofs GroupProofs CorruptProofs DumpProofs Publish HistorySpec PublishProofs.
Import ListNotations.
Open Scope Z_scope.

(** The frame buffer of the decoder at any time: a text ending in NUL (or nothing), then stale bytes. *)
Definition well_kept (fr : list Z) (size : nat) : Prop :=
  exists text R, fr = text ++ R /\ size = length text /\ stops text /\ bytes text /\ nolf text /\ (length text <= 347)%nat.

Lemma well_kept_content : forall bodies R, valid_frame bodies -> well_kept (content bodies ++ R) (length (content bodies)).
Proof.
  intros bodies R (Hne & Hg & Hf). exists (content bodies), R. repeat split; auto.
  - apply content_stops.
  - apply content_bytes; auto.
  - apply content_bytes; auto.
  - pose proof (fits_content bodies 0 Hg Hf). lia.
Qed.
Lemma well_kept_empty : forall fr, well_kept fr 0.
Proof. intros. exists [], fr. repeat split; auto; try constructor; simpl; auto; lia. Qed.

Lemma decoder_kept : forall sgn garbage h d, length garbage = 350%nat -> Forall is_byte (map snd h) ->
  run sgn h (dec_init garbage) = Some d -> well_kept (d_frame d) (d_size d) /\ length (d_frame d) = 350%nat.
Proof.
  intros sgn garbage h d Hg Hb E. destruct (decoder_exact sgn garbage h Hg Hb) as (d' & E' & Hl & Hr & Hfw).
  rewrite E in E'. inv E'. split; auto. destruct (ready d') eqn:Erd.
  - destruct (proj1 Hr eq_refl) as (t0 & bodies & Hf & Hv). destruct (Hfw _ _ Hf Hv) as (_ & R & -> & ->).
    apply well_kept_content; auto.
  - unfold ready in Erd. destruct (Nat.eqb_spec (d_size d') 0); [|discriminate]. rewrite e. apply well_kept_empty.
Qed.

Lemma groups_bytes : forall bs, Forall good_body bs -> Forall is_byte (groups bs).
Proof.
  intros bs Hgb. unfold groups. induction Hgb; cbn [map concat]; [constructor|].
  apply Forall_app. split; auto. unfold enc_body. constructor. { unfold is_byte; lia. }
  apply Forall_app. split. { destruct H as (Hpl & _). apply plain_bytes; auto. }
  constructor; [unfold is_byte; lia|constructor].
Qed.

(** ** C01 *)
Lemma c01 : forall sgn garbage h, length garbage = 350%nat -> Forall is_byte (map snd h) ->
  exists d, run sgn h (dec_init garbage) = Some d /\
   (ready d = true <-> exists t0 bodies, frame_ends h t0 bodies /\ valid_frame bodies) /\
   (forall t0 bodies, frame_ends h t0 bodies -> valid_frame bodies ->
      d_ts d = t0 /\ firstn (d_size d) (d_frame d) = content bodies).
Proof.
  intros. destruct (decoder_exact sgn garbage h) as (d & E & _ & Hr & Hfw); auto.
  exists d. split; auto. split; auto. intros t0 bodies Hf Hv. destruct (Hfw _ _ Hf Hv) as (? & R & -> & ->).
  split; auto. apply firstn_app_exact.
Qed.

(** ** C02 *)
Lemma c02 : forall sgn garbage pre t0 rest gs, length garbage = 350%nat -> Forall is_byte (map snd pre) ->
  gs <> [] -> Forall good_t gs -> fits 0 (map enc_t gs) ->
  map snd ((t0, 2) :: rest) = frame_bytes (map enc_t gs) ->
  exists d, run sgn (pre ++ (t0, 2) :: rest) (dec_init garbage) = Some d /\ ready d = true /\ d_ts d = t0 /\
   all_pairs (d_frame d) (d_size d) = Some (map (fun x => shown (snd x)) gs).
Proof.
  intros sgn garbage pre t0 rest gs Hg Hp Hne Hgood Hfit Hm.
  destruct (run_inv sgn pre [] (dec_init garbage)) as (d1 & E1 & HI1); auto. { apply init_inv; auto. }
  assert (Hv : valid_frame (map enc_t gs)).
  { split. { destruct gs; [congruence|discriminate]. } split; auto. apply good_bodies_t; auto. }
  destruct (run_frame sgn t0 rest (map enc_t gs) d1) as (d & R & E & Hfr & Hsz & Hts & Hst); auto. { apply HI1. }
  exists d. rewrite (run_app _ _ _ _ _ E1). split; auto.
  assert (Hl : length (d_frame d) = 350%nat).
  { eapply decoder_kept with (h := pre ++ (t0, 2) :: rest); eauto.
    - rewrite map_app, Hm. apply Forall_app. split; auto. unfold frame_bytes. constructor. { unfold is_byte; lia. }
      apply Forall_app. split.
      + apply groups_bytes. apply Hv.
      + constructor; [unfold is_byte; lia|constructor].
    - rewrite (run_app _ _ _ _ _ E1). eauto. }
  split. { unfold ready. rewrite Hsz. destruct Hv as (Hn & _). apply content_pos in Hn.
           destruct (Nat.eqb_spec (length (content (map enc_t gs))) 0); auto. }
  split; auto. rewrite Hsz. rewrite Hfr in *. rewrite all_pairs_spec; auto.
  - rewrite pairs_of_groups; auto.
  - apply content_stops.
Qed.

Lemma c02_short : forall gs, Forall good_t gs -> (length (frame_bytes (map enc_t gs)) <= 351)%nat -> fits 0 (map enc_t gs).
Proof.
  intros. apply fits_short. apply good_bodies_t; auto. unfold frame_bytes in H0. fold (groups (map enc_t gs)) in H0.
  cbn [length] in H0. rewrite app_length in H0. cbn [length] in H0. lia.
Qed.

(** ** C03 *)
Lemma scan0_indep : forall fuel text R1 R2 p, stops text -> (p < length text)%nat ->
  scan0 fuel (text ++ R1) p (length text) = scan0 fuel (text ++ R2) p (length text).
Proof.
  induction fuel; intros; auto. cbn [scan0]. unfold rd. rewrite !nth_error_app1 by auto.
  destruct (nth_error text p) eqn:E; auto. destruct (Z.eqb_spec z 0); auto.
  destruct (Nat.leb_spec (length text) p); [lia|]. apply IHfuel; auto.
  destruct H as [->|[A ->]]. { simpl in H0. lia. }
  rewrite app_length in *. cbn [length] in *. destruct (Nat.eq_dec p (length A)); [|lia].
  subst p. rewrite nth_error_app2, Nat.sub_diag in E by lia. cbn in E. inv E. congruence.
Qed.
Lemma scan0_S : forall f fr p e, scan0 (S f) fr p e =
  (b <- rd fr p ;; if b =? 0 then Some (Some p) else if Nat.leb e p then Some None else scan0 f fr (S p) e).
Proof. reflexivity. Qed.
Lemma scan0_pos : forall fuel text R p z, stops text -> (p < length text)%nat ->
  scan0 fuel (text ++ R) p (length text) = Some (Some z) -> (z < length text)%nat.
Proof.
  induction fuel; intros; [discriminate|]. cbn [scan0] in H1. unfold rd in H1. rewrite nth_error_app1 in H1 by auto.
  destruct (nth_error text p) eqn:E; [|discriminate]. destruct (Z.eqb_spec z0 0). { inv H1. auto. }
  destruct (Nat.leb_spec (length text) p); [lia|]. apply IHfuel in H1; auto.
  destruct H as [->|[A ->]]. { simpl in H0. lia. }
  rewrite app_length in *. cbn [length] in *. destruct (Nat.eq_dec p (length A)); [|lia].
  subst p. rewrite nth_error_app2, Nat.sub_diag in E by lia. cbn in E. inv E. congruence.
Qed.
Local Opaque scan0.
Lemma step_pair_indep : forall text R1 R2 p, stops text -> (p < length text)%nat ->
  step_pair (text ++ R1) p (length text) = step_pair (text ++ R2) p (length text).
Proof.
  intros text R1 R2 p Hs Hp. unfold step_pair. generalize (S MAX_FRAME_SIZE) as F. intros F.
  rewrite (scan0_indep F text R1 R2 p Hs Hp).
  destruct (scan0 F (text ++ R2) p (length text)) as [[z|]|] eqn:E.
  - apply scan0_pos in E; [|exact Hs|exact Hp]. destruct (Nat.leb_spec (length text) (S z)) as [Hz|Hz]; [reflexivity|].
    rewrite (scan0_indep F text R1 R2 (S z) Hs Hz). reflexivity.
  - reflexivity.
  - reflexivity.
Qed.
Lemma stops_skipn' : forall text p, stops text -> (p < length text)%nat -> exists s rest, skipn p text = s ++ 0 :: rest /\ nz s.
Proof. intros. destruct (stops_skipn text p) as (s & r & E & Hn & _); eauto. Qed.
Lemma cstr_at_indep : forall text R1 R2 p, stops text -> (p < length text)%nat ->
  cstr_at (text ++ R1) p = cstr_at (text ++ R2) p.
Proof.
  intros. destruct (stops_skipn' text p) as (s & r & E & Hn); auto. unfold cstr_at. rewrite !skipn_app.
  replace (p - length text)%nat with 0%nat by lia. cbn [skipn]. rewrite E, <- !app_assoc. cbn [app].
  rewrite !cstr_from_app; auto.
Qed.
Lemma step_pair_pos : forall text R p l v q, stops text -> (p < length text)%nat ->
  step_pair (text ++ R) p (length text) = Some (Some (l, v, q)) -> l = p /\ (v < length text)%nat.
Proof.
  intros text R p l v q Hs Hp H. unfold step_pair in H.
  destruct (scan0 (S MAX_FRAME_SIZE) (text ++ R) p (length text)) as [[z|]|] eqn:E; try discriminate.
  destruct (Nat.leb_spec (length text) (S z)); try discriminate.
  destruct (scan0 (S MAX_FRAME_SIZE) (text ++ R) (S z) (length text)) as [[z2|]|] eqn:E2; try discriminate.
  inv H. auto.
Qed.
Lemma get_value_next_indep : forall text R1 R2 st, stops text -> length (text ++ R1) = 350%nat -> length (text ++ R2) = 350%nat ->
  get_value_next (text ++ R1) (length text) st = get_value_next (text ++ R2) (length text) st.
Proof.
  intros text R1 R2 st Hs H1 H2.
  assert (Hgo : forall p, (p < length text)%nat ->
     (r <- step_pair (text ++ R1) p (length text);;
      match r with None => Some None | Some (l, v, p') =>
        lab <- cstr_at (text ++ R1) l;; val <- cstr_at (text ++ R1) v;; Some (Some (lab, val, p')) end) =
     (r <- step_pair (text ++ R2) p (length text);;
      match r with None => Some None | Some (l, v, p') =>
        lab <- cstr_at (text ++ R2) l;; val <- cstr_at (text ++ R2) v;; Some (Some (lab, val, p')) end)).
  { intros p Hp. rewrite (step_pair_indep text R1 R2) by auto.
    destruct (step_pair (text ++ R2) p (length text)) as [[[[l v] q]|]|] eqn:E; auto.
    apply step_pair_pos in E; auto. destruct E as [-> Hv].
    rewrite (cstr_at_indep text R1 R2 p), (cstr_at_indep text R1 R2 v) by auto. auto. }
  unfold get_value_next. destruct st as [p|].
  - destruct (Nat.leb_spec (length text) p); auto.
  - destruct (Nat.eq_dec (length text) 0); [|apply Hgo; lia].
    destruct text; [|discriminate]. cbn [app length] in *.
    assert (Hz : forall R, length R = 350%nat -> step_pair R 0 0 = Some None).
    { intros R HR. destruct R; [discriminate|]. unfold step_pair. 
      rewrite (scan0_S MAX_FRAME_SIZE). unfold rd. cbn [nth_error]. destruct (z =? 0); auto. }
    rewrite !Hz; auto.
Qed.

Local Transparent scan0.
Lemma firstn_app_len : forall (A B : list Z) , firstn (length A) (A ++ B) = A.
Proof. exact firstn_app_exact. Qed.

Lemma ascii_loop_indep : forall n i text R1 R2 dst ds j lab, (i + n <= length text)%nat ->
  ascii_loop n i (text ++ R1) dst ds j lab = ascii_loop n i (text ++ R2) dst ds j lab.
Proof.
  induction n; intros; auto. cbn [ascii_loop]. unfold rd. rewrite !nth_error_app1 by lia.
  destruct (nth_error text i); auto. destruct (upd dst j _); auto. destruct (dump_limit_reached (S j) ds); auto.
  apply IHn. lia.
Qed.

Lemma ask_total : forall fr size q, well_kept fr size -> length fr = 350%nat -> proper q -> ask fr size q <> None.
Proof.
  intros fr size q (text & R & -> & -> & Hs & Hb & Hn & Hl) H350 Hq. destruct q; cbn [ask proper] in *.
  - rewrite get_value_spec; auto; try lia. discriminate.
  - rewrite get_value_int_spec; auto; try lia. discriminate. intros. eapply lookup_bytes; eauto.
  - pose proof (get_value_next_safe text R st Hs H350). destruct (get_value_next _ _ _); congruence.
  - rewrite all_pairs_spec; auto. discriminate.
  - destruct (get_frame_ascii_spec text R dst Hs Hn Hq) as (dst' & j & k & E & _). rewrite E. discriminate.
  - destruct text.
    + unfold copy_from. change MAX_FRAME_SIZE with 350%nat. cbn. discriminate.
    + destruct (copy_from_spec (z :: text) R ts dst) as (cs & _ & E); auto; try lia. discriminate.
      rewrite E. discriminate.
Qed.

Lemma ask_indep : forall text R1 R2 q, stops text -> bytes text -> nolf text -> (length text <= 347)%nat ->
  length (text ++ R1) = 350%nat -> length (text ++ R2) = 350%nat -> proper q ->
  ask (text ++ R1) (length text) q = ask (text ++ R2) (length text) q.
Proof.
  intros text R1 R2 q Hs Hb Hn Hl H1 H2 Hq. destruct q; cbn [ask proper] in *.
  - rewrite !get_value_spec; auto; lia.
  - rewrite !get_value_int_spec; auto; try lia; intros; eapply lookup_bytes; eauto.
  - rewrite (get_value_next_indep text R1 R2); auto.
  - rewrite !all_pairs_spec; auto.
  - unfold get_frame_ascii. rewrite (ascii_loop_indep _ 0 text R1 R2); auto.
  - unfold copy_from. rewrite !firstn_app_exact. auto.
Qed.

Lemma run_two : forall sgn g1 g2 h, length g1 = 350%nat -> length g2 = 350%nat -> Forall is_byte (map snd h) ->
  exists d1 d2 text R1 R2, run sgn h (dec_init g1) = Some d1 /\ run sgn h (dec_init g2) = Some d2 /\
   d_frame d1 = text ++ R1 /\ d_frame d2 = text ++ R2 /\ d_size d1 = length text /\ d_size d2 = length text /\
   stops text /\ bytes text /\ nolf text /\ (length text <= 347)%nat /\ length (text ++ R1) = 350%nat /\ length (text ++ R2) = 350%nat.
Proof.
  intros sgn g1 g2 h Hg1 Hg2 Hb.
  destruct (decoder_exact sgn g1 h Hg1 Hb) as (d1 & E1 & Hl1 & Hr1 & Hf1).
  destruct (decoder_exact sgn g2 h Hg2 Hb) as (d2 & E2 & Hl2 & Hr2 & Hf2).
  exists d1, d2. destruct (ready d1) eqn:Erd.
  - destruct (proj1 Hr1 eq_refl) as (t0 & bodies & Hf & Hv).
    destruct (Hf1 _ _ Hf Hv) as (_ & R1 & F1 & S1). destruct (Hf2 _ _ Hf Hv) as (_ & R2 & F2 & S2).
    exists (content bodies), R1, R2. rewrite <- F1, <- F2.
    destruct Hv as (Hne & Hg & Hfit). pose proof (content_bytes bodies Hg) as [? ?]. pose proof (fits_content bodies 0 Hg Hfit).
    repeat (split; [solve [auto | apply content_stops | lia]|]). auto.
  - destruct (ready d2) eqn:Erd2. { assert (false = true) by (apply Hr1; apply Hr2; auto). discriminate. }
    unfold ready in *. destruct (Nat.eqb_spec (d_size d1) 0); [|discriminate]. destruct (Nat.eqb_spec (d_size d2) 0); [|discriminate].
    exists [], (d_frame d1), (d_frame d2). cbn [app length].
    repeat (split; [solve [auto | left; auto | constructor | lia]|]). auto.
Qed.

Lemma c03 : forall sgn g1 g2 h, length g1 = 350%nat -> length g2 = 350%nat -> Forall is_byte (map snd h) ->
  exists d1 d2, run sgn h (dec_init g1) = Some d1 /\ run sgn h (dec_init g2) = Some d2 /\
   length (d_frame d1) = 350%nat /\ ready d1 = ready d2 /\
   forall q, proper q ->
     ask (d_frame d1) (d_size d1) q <> None /\
     ask (d_frame d1) (d_size d1) q = ask (d_frame d2) (d_size d2) q.
Proof.
  intros sgn g1 g2 h Hg1 Hg2 Hb.
  destruct (run_two sgn g1 g2 h Hg1 Hg2 Hb) as (d1 & d2 & text & R1 & R2 & E1 & E2 & F1 & F2 & S1 & S2 & Hs & Hby & Hn & Hl & L1 & L2).
  exists d1, d2. repeat (split; [solve [auto | rewrite F1; auto | unfold ready; rewrite S1, S2; auto]|]).
  intros q Hq. rewrite F1, F2, S1, S2. split.
  - apply ask_total; auto. exists text, R1. repeat split; auto.
  - apply ask_indep; auto.
Qed.

(** ** C04 *)
Lemma c04_detected : forall sgn garbage pre bs1 p1 x p2 y bs2 h1 h2, length garbage = 350%nat ->
  Forall is_byte (map snd pre) ->
  valid_frame (bs1 ++ (p1 ++ x :: p2) :: bs2) -> is_byte y -> detectable x p2 y ->
  map snd (h1 ++ h2) = altered_frame bs1 p1 y p2 bs2 -> h1 <> [] ->
  exists d, run sgn (pre ++ h1) (dec_init garbage) = Some d /\ ready d = false.
Proof.
  intros sgn garbage pre bs1 p1 x p2 y bs2 h1 h2 Hg Hp Hv Hy Hd Hm Hne.
  destruct (run_inv sgn pre [] (dec_init garbage)) as (d0 & E0 & HI0); auto. { apply init_inv; auto. }
  assert (Hfull : Forall is_byte (map snd h1)).
  { assert (Hall : Forall is_byte (map snd (h1 ++ h2))).
    { rewrite Hm. unfold altered_frame. destruct Hv as (_ & Hgb & _).
      apply Forall_app in Hgb. destruct Hgb as [Hg1 Hg2]. inv Hg2.
      assert (Hgr : forall bs, Forall good_body bs -> Forall is_byte (groups bs)).
      { exact groups_bytes. }
      destruct H1 as (Hpl & _). apply plain_bytes in Hpl. apply Forall_app in Hpl. destruct Hpl as [Hp1 Hp2]. inv Hp2.
      constructor; [unfold is_byte; lia|]. apply Forall_app. split; [auto|].
      constructor; [unfold is_byte; lia|]. apply Forall_app. split; [auto|].
      constructor; [auto|]. apply Forall_app. split; [auto|].
      constructor; [unfold is_byte; lia|]. apply Forall_app. split; [auto|].
      constructor; [unfold is_byte; lia|constructor]. }
    rewrite map_app in Hall. apply Forall_app in Hall. apply Hall. }
  destruct (run_inv sgn h1 (map (fun e => e) pre) d0) as (d & E & HI); auto. { rewrite map_id. auto. }
  exists d. rewrite (run_app _ _ _ _ _ E0). split; auto.
  eapply altered_never_ready with (d := d0); eauto. apply HI0.
Qed.

(** The converse: a plain replacement that is not visible to the checksum is accepted. *)
Lemma c04_undetected : forall sgn garbage pre t0 rest bs1 p1 x p2 y bs2, length garbage = 350%nat ->
  Forall is_byte (map snd pre) ->
  valid_frame (bs1 ++ (p1 ++ x :: p2) :: bs2) -> is_byte y ->
  ~ detectable x p2 y -> fits 0 (bs1 ++ (p1 ++ y :: p2) :: bs2) ->
  map snd ((t0, 2) :: rest) = altered_frame bs1 p1 y p2 bs2 ->
  exists d, run sgn (pre ++ (t0, 2) :: rest) (dec_init garbage) = Some d /\ ready d = true /\
    firstn (d_size d) (d_frame d) = content (bs1 ++ (p1 ++ y :: p2) :: bs2).
Proof.
  intros sgn garbage pre t0 rest bs1 p1 x p2 y bs2 Hg Hp Hv Hy Hnd Hfit Hm.
  destruct (run_inv sgn pre [] (dec_init garbage)) as (d0 & E0 & HI0); auto. { apply init_inv; auto. }
  assert (Hv' : valid_frame (bs1 ++ (p1 ++ y :: p2) :: bs2)).
  { destruct Hv as (_ & Hgb & _). split. { destruct bs1; discriminate. } split; auto.
    apply Forall_app in Hgb. destruct Hgb as [Hg1 Hg2]. inversion Hg2 as [|? ? Hb Hg3]; subst.
    apply Forall_app. split; auto. constructor; auto. destruct Hb as (Hpl & Hlen & Hck).
    apply Forall_app in Hpl. destruct Hpl as [Hpl1 Hpl2]. inversion Hpl2 as [|? ? Hx Hpl3]; subst.
    assert (Hc : is_ctrl y = false).
    { destruct (Z.eq_dec y x) as [->|Hne]; [apply Hx|]. destruct (is_ctrl y) eqn:Ec; auto. exfalso. apply Hnd. split; auto. }
    split. { apply Forall_app. split; auto. }
    split. { rewrite app_length in *. cbn [length] in *. auto. }
    destruct (Z.eq_dec y x) as [->|Hne]; auto.
    destruct p2 as [|a p2] using rev_ind; [|clear IHp2]. { exfalso. apply Hnd. split; auto. }
    destruct p2 as [|b p2] using rev_ind; [|clear IHp2].
    + replace (p1 ++ y :: [] ++ [a]) with (p1 ++ [y; a]) by auto.
      replace (p1 ++ x :: [] ++ [a]) with (p1 ++ [x; a]) in Hck by auto.
      rewrite checksum_char_app, payload_app in *. auto.
    + assert (Hsn : forall z, p1 ++ z :: (p2 ++ [b]) ++ [a] = (p1 ++ z :: p2) ++ [b; a]).
      { intros z. repeat (progress (cbn [app]; rewrite <- ?app_assoc)). auto. }
      rewrite !Hsn in *.
      rewrite checksum_char_app, payload_app in *. rewrite Hck. unfold checksum. f_equal.
      rewrite !total_app. cbn [total fold_right]. fold (total p2).
      assert (Hmod : (y - x) mod 64 = 0).
      { destruct (Z.eq_dec ((y - x) mod 64) 0); auto. exfalso. apply Hnd. split; auto. right. left. split; auto.
        rewrite !app_length. cbn [length]. lia. }
      replace (total p1 + (y + total p2)) with (total p1 + (x + total p2) + (y - x)) by lia.
      rewrite (Zplus_mod _ (y - x)), Hmod, Z.add_0_r, Z.mod_mod by lia. auto. }
  assert (Hm' : map snd ((t0, 2) :: rest) = frame_bytes (bs1 ++ (p1 ++ y :: p2) :: bs2)).
  { rewrite Hm. unfold altered_frame, frame_bytes. f_equal. rewrite map_app, concat_app. cbn [map concat].
    unfold groups, enc_body. repeat (progress (cbn [app]; rewrite <- ?app_assoc)). auto. }
  destruct (run_frame sgn t0 rest _ d0 Hm' Hv') as (d & R & E & Hfr & Hsz & Hts & Hst). { apply HI0. }
  exists d. rewrite (run_app _ _ _ _ _ E0). split; auto. split.
  - unfold ready. rewrite Hsz. destruct Hv' as (Hn & _). apply content_pos in Hn.
    destruct (Nat.eqb_spec (length (content (bs1 ++ (p1 ++ y :: p2) :: bs2))) 0); auto.
  - rewrite Hfr, Hsz. apply firstn_app_exact.
Qed.

(** ** C05, C06: on the published Teleinfo object *)
Lemma ti_kept : forall sgn g1 g2 es p, length g1 = 350%nat -> length g2 = 350%nat ->
  Forall is_byte (map snd (fed false es)) -> pub_run sgn es (pub_init g1 g2) = Some p ->
  well_kept (t_frame (p_ti p)) (t_size (p_ti p)) /\ length (t_frame (p_ti p)) = 350%nat.
Proof.
  intros sgn g1 g2 es p Hg1 Hg2 Hb E.
  destruct (pub_run_inv sgn g1 es [] (pub_init g1 g2)) as (p' & E' & _ & Hring & r & Hl & Hs); auto.
  { apply pub_init_inv; auto. }
  rewrite E in E'. inv E'. split; [|apply Hring].
  destruct r as [[t0 bodies]|]; cbn in Hs.
  - destruct Hs as (_ & -> & R & ->). destruct Hl as (_ & _ & _ & _ & Hv & _). apply well_kept_content; auto.
  - rewrite Hs. apply well_kept_empty.
Qed.

Lemma c05 : forall sgn g1 g2 es p, length g1 = 350%nat -> length g2 = 350%nat ->
  Forall is_byte (map snd (fed false es)) -> pub_run sgn es (pub_init g1 g2) = Some p ->
  exists gs, all_pairs (t_frame (p_ti p)) (t_size (p_ti p)) = Some gs /\
   forall label,
    get_value (t_frame (p_ti p)) (t_size (p_ti p)) label false = Some (lookup label gs) /\
    get_value (t_frame (p_ti p)) (t_size (p_ti p)) label true = Some (option_map trim_number (lookup label gs)).
Proof.
  intros sgn g1 g2 es p Hg1 Hg2 Hb E. destruct (ti_kept sgn g1 g2 es p Hg1 Hg2 Hb E) as [(text & R & Hfr & Hsz & Hs & Hby & Hn & Hl) H350].
  rewrite Hfr, Hsz in *. exists (pairs_of text). split. { apply all_pairs_spec; auto. }
  intros. rewrite !get_value_spec by (auto; lia). split.
  - destruct (lookup label (pairs_of text)); auto.
  - destruct (lookup label (pairs_of text)); auto.
Qed.

Lemma c06_int : forall sgn g1 g2 es p label default, length g1 = 350%nat -> length g2 = 350%nat ->
  Forall is_byte (map snd (fed false es)) -> pub_run sgn es (pub_init g1 g2) = Some p ->
  exists v, get_value (t_frame (p_ti p)) (t_size (p_ti p)) label false = Some v /\
   get_value_int (t_frame (p_ti p)) (t_size (p_ti p)) label default = Some (int_of default v).
Proof.
  intros sgn g1 g2 es p label default Hg1 Hg2 Hb E.
  destruct (ti_kept sgn g1 g2 es p Hg1 Hg2 Hb E) as [(text & R & Hfr & Hsz & Hs & Hby & Hn & Hl) H350].
  rewrite Hfr, Hsz in *. rewrite get_value_spec by (auto; lia). eexists. split; [reflexivity|].
  rewrite get_value_int_spec; auto; try lia.
  - destruct (lookup label (pairs_of text)); auto.
  - intros. eapply lookup_bytes; eauto.
Qed.

Lemma nlz_shape : forall v, v <> [] -> no_leading_zeros v <> [] /\
  (forall c r, no_leading_zeros v = c :: r -> r <> [] -> c <> 48).
Proof.
  induction v as [|c [|d v]]; intros; [congruence| |].
  - simpl. split; [discriminate|]. intros. inv H0. congruence.
  - cbn [no_leading_zeros]. destruct (Z.eqb_spec c 48).
    + apply IHv. discriminate.
    + split; [discriminate|]. intros. inv H0. auto.
Qed.
Lemma c06_trim : forall v, v <> [] ->
  trim_number v <> [] /\
  (all_digit v = true -> all_digit (trim_number v) = true /\ dec_value (trim_number v) = dec_value v /\
     forall c r, trim_number v = c :: r -> r <> [] -> c <> 48) /\
  (all_digit v = false -> trim_number v = v).
Proof.
  intros. split; [|split].
  - unfold trim_number. destruct (all_digit v); auto. apply nlz_shape; auto.
  - intros Hd. split. { rewrite trim_digits; auto. } unfold trim_number. rewrite Hd. split. { apply nlz_value. }
    apply nlz_shape; auto.
  - intros Hd. unfold trim_number. rewrite Hd. auto.
Qed.

(** ** C09 *)
Lemma c09 : forall sgn g1 g2 es p dst, length g1 = 350%nat -> length g2 = 350%nat ->
  Forall is_byte (map snd (fed false es)) -> pub_run sgn es (pub_init g1 g2) = Some p -> (2 <= length dst)%nat ->
  exists dst' j gs k, get_frame_ascii (t_frame (p_ti p)) (t_size (p_ti p)) dst = Some (dst', j) /\
    all_pairs (t_frame (p_ti p)) (t_size (p_ti p)) = Some gs /\
    length dst' = length dst /\ (j < length dst)%nat /\ nth j dst' 1 = 0 /\
    firstn j dst' = concat (firstn k (map line gs)).
Proof.
  intros sgn g1 g2 es p dst Hg1 Hg2 Hb E Hd.
  destruct (ti_kept sgn g1 g2 es p Hg1 Hg2 Hb E) as [(text & R & Hfr & Hsz & Hs & Hby & Hn & Hl) H350].
  rewrite Hfr, Hsz in *. destruct (get_frame_ascii_spec text R dst Hs Hn Hd) as (dst' & j & k & E1 & L1 & L2 & L3 & L4 & _).
  exists dst', j, (pairs_of text), k. rewrite all_pairs_spec; auto. repeat split; auto.
Qed.

(** Complete dump of a frame sent by a meter. *)
Lemma pieces_even : forall gs, Forall good_t gs -> Nat.even (length (pieces [] (content (map enc_t gs)))) = true.
Proof.
  intros. rewrite content_groups; auto. rewrite pieces_join0.
  - induction gs; auto. inv H. cbn [map concat app length Nat.even]. auto.
  - induction H; simpl; constructor; [|constructor]; auto.
    + destruct H as (_ & Hl & _). apply char7_nz; auto.
    + apply rstrip_Forall. destruct H as (_ & _ & Hv & _). apply char7_nz; auto.
Qed.
Lemma c09_full : forall gs R dst, gs <> [] -> Forall good_t gs -> fits 0 (map enc_t gs) ->
  (length (content (map enc_t gs)) + 2 <= length dst)%nat ->
  exists dst' j, get_frame_ascii (content (map enc_t gs) ++ R) (length (content (map enc_t gs))) dst = Some (dst', j) /\
   (j < length dst')%nat /\ nth j dst' 1 = 0 /\ firstn j dst' = concat (map (fun x => line (shown (snd x))) gs).
Proof.
  intros gs R dst Hne Hg Hf Hl.
  assert (Hgb := good_bodies_t gs Hg).
  destruct (get_frame_ascii_spec (content (map enc_t gs)) R dst) as (dst' & j & k & E1 & L1 & L2 & L3 & L4 & L5).
  { apply content_stops. } { apply content_bytes; auto. } { lia. }
  exists dst', j. split; auto. split; [lia|]. split; auto. rewrite L5; [|lia|apply pieces_even; auto].
  rewrite pairs_of_groups, map_map; auto.
Qed.

(** ** C07, C50 *)
Lemma received_bytes_fed : forall es, fed false (map (fun e => Byte (fst e) (snd e)) es) = es.
Proof. induction es as [|[a b] es]; cbn; auto. f_equal; auto. Qed.

Lemma c07 : forall sgn g1 g2 es, length g1 = 350%nat -> length g2 = 350%nat ->
  Forall is_byte (map snd (received es)) -> (forall b, ~ In (Pause b) es) ->
  exists p r, pub_run sgn es (pub_init g1 g2) = Some p /\ last_valid (received es) r /\
   match r with
   | None => published p = []
   | Some (t0, bodies) => published p = content bodies /\ t_ts (p_ti p) = t0
   end.
Proof.
  intros. rewrite <- (fed_no_pause es) in * by auto. apply published_last; auto.
Qed.

(** What one more byte does: nothing, unless it completes a valid frame. *)
Lemma fed_snoc : forall es b e, fed b (es ++ [e]) =
  fed b es ++ match e with Byte now c => if fold_left (fun s x => match x with Pause y => y | _ => s end) es b then [] else [(now, c)] | Pause _ => [] end.
Proof.
  induction es as [|[now c|y] es]; intros; cbn [app fed fold_left].
  - destruct e; destruct b; auto.
  - destruct b; auto. cbn [app]. f_equal. apply IHes.
  - apply IHes.
Qed.

(** [target] is not the text of any valid frame ended by a prefix of [h]; decided by running the decoder. *)
Definition never (h : list event) (target : list Z) : bool :=
  forallb (fun n => match run false (firstn n h) (dec_init (repeat 0 350)) with
                    | Some d => negb (ready d && beq (firstn (d_size d) (d_frame d)) target)
                    | None => false
                    end) (seq 0 (S (length h))).
Lemma never_spec : forall h target, Forall is_byte (map snd h) -> never h target = true ->
  forall k1 k2 t bs, h = k1 ++ k2 -> frame_ends k1 t bs -> valid_frame bs -> content bs <> target.
Proof.
  intros h target Hb Hn k1 k2 t bs E Hf Hv Heq.
  unfold never in Hn. rewrite forallb_forall in Hn.
  assert (Hin : In (length k1) (seq 0 (S (length h)))).
  { apply in_seq. rewrite E, app_length. lia. }
  apply Hn in Hin. clear Hn. rewrite E in Hin. rewrite firstn_app, Nat.sub_diag, firstn_all in Hin. cbn [firstn] in Hin.
  rewrite app_nil_r in Hin.
  destruct (decoder_exact false (repeat 0 350) k1) as (d & E1 & _ & Hr & Hfw).
  { apply repeat_length. } { rewrite E, map_app in Hb. apply Forall_app in Hb. apply Hb. }
  rewrite E1 in Hin. destruct (Hfw _ _ Hf Hv) as (_ & R & F1 & F2).
  rewrite (proj2 Hr) in Hin by eauto. rewrite F1, F2, firstn_app_exact, Heq, beq_refl in Hin. discriminate.
Qed.
