(** The published data is the last valid frame. *)
From Coq Require Import ZArith List Bool Lia ZifyBool ZifyNat.
From Verif Require Import Base BaseFacts Teleinfo TeleinfoSpec DecoderProofs AccessProofs GroupProofs CorruptProofs DumpProofs Publish HistorySpec.
Import ListNotations.
Open Scope Z_scope.

(** ** bytes of the kept text *)
Lemma plain_bytes : forall l, plain l -> bytes l.
Proof. intros l H. apply (Forall_impl _ (fun a (H : is_byte a /\ is_ctrl a = false) => proj1 H) H). Qed.
Lemma cut_bytes : forall l s, bytes l -> bytes (cut s l).
Proof.
  induction l; simpl; intros; auto. inv H. destruct (a =? s).
  - constructor. unfold is_byte; lia. apply Forall_map. eapply Forall_impl; eauto. cbn. intros.
    destruct (a0 =? 255); auto. unfold is_byte; lia.
  - constructor; auto. apply IHl; auto.
Qed.
Lemma cut_nolf : forall l s, nolf l -> nolf (cut s l).
Proof.
  induction l; simpl; intros; auto. inv H. destruct (a =? s).
  - constructor. lia. apply Forall_map. eapply Forall_impl; eauto. cbn. intros.
    destruct (a0 =? 255); auto. lia.
  - constructor; auto. apply IHl; auto.
Qed.
Lemma payload_Forall : forall (P : Z -> Prop) b, Forall P b -> Forall P (payload b).
Proof. intros. unfold payload. rewrite <- (firstn_skipn (length b - 2) b) in H. apply Forall_app in H. apply H. Qed.
Lemma kept_bytes : forall b, plain b -> bytes (kept b) /\ nolf (kept b).
Proof.
  intros. unfold kept. split; apply Forall_app; split; try (constructor; [unfold is_byte; lia|constructor]).
  - apply rstrip_Forall. apply cut_bytes. apply payload_Forall. apply plain_bytes; auto.
  - apply rstrip_Forall. apply cut_nolf. apply payload_Forall. eapply Forall_impl; eauto. cbn.
    intros a [_ Ha]. apply plain_char in Ha. intuition.
Qed.
Lemma content_bytes : forall bs, Forall good_body bs -> bytes (content bs) /\ nolf (content bs).
Proof.
  induction 1; unfold content in *; simpl. { split; constructor. }
  destruct H as (Hp & _). destruct (kept_bytes x Hp). destruct IHForall.
  split; apply Forall_app; auto.
Qed.

Lemma pieces_Forall : forall (P : Z -> Prop) l acc, Forall P l -> Forall P acc -> Forall (Forall P) (pieces acc l).
Proof.
  induction l; simpl; intros; [constructor|]. inv H. destruct (a =? 0).
  - constructor; [apply Forall_rev; auto|]. apply IHl; auto.
  - apply IHl; auto.
Qed.
Lemma pair_up_Forall : forall (P : Z -> Prop) n l, (length l <= n)%nat -> Forall (Forall P) l ->
  Forall (fun g => Forall P (fst g) /\ Forall P (snd g)) (pair_up l).
Proof.
  induction n; intros.
  - destruct l; simpl in H; [constructor|lia].
  - destruct l as [|a [|b l]]; simpl; try constructor.
    + inv H0. inv H4. auto.
    + inv H0. inv H4. apply IHn; auto. simpl in H. lia.
Qed.
Lemma pairs_of_Forall : forall (P : Z -> Prop) t, Forall P t -> Forall (fun g => Forall P (fst g) /\ Forall P (snd g)) (pairs_of t).
Proof. intros. unfold pairs_of. eapply pair_up_Forall; eauto. apply pieces_Forall; auto. Qed.
Lemma lookup_in : forall lab gs v, lookup lab gs = Some v -> In (lab, v) gs.
Proof.
  induction gs as [|[l w] gs]; simpl; intros; [discriminate|]. destruct (beq l lab) eqn:E.
  - apply beq_eq in E. inv H. auto.
  - right. auto.
Qed.
Lemma lookup_bytes : forall t lab v, bytes t -> lookup lab (pairs_of t) = Some v -> bytes v.
Proof.
  intros. apply pairs_of_Forall in H. rewrite Forall_forall in H. apply lookup_in in H0. apply H in H0. apply H0.
Qed.

(** room *)
Lemma fits_content : forall bs used, Forall good_body bs -> fits used bs -> (used <= 347)%nat ->
  (used + length (content bs) <= 347)%nat.
Proof.
  induction bs; intros used Hg Hf Hu.
  - unfold content. simpl. lia.
  - inv Hg. cbn [fits] in Hf. destruct Hf as [Hroom Hf].
    assert (Hk : (length (kept a) <= length a - 1)%nat) by (apply kept_length; destruct H1 as (_ & ? & _); auto).
    unfold content in *. cbn [map concat]. rewrite app_length, Nat.add_assoc.
    apply IHbs; auto. lia.
Qed.

(** ** copy_from *)
Definition conso_base (t : teleinfo) (text : list Z) (ts : timeval) : conso :=
  if date_ms (t_conso0 t) =? 0 then mk_conso (u32 (tv_sec ts - 1)) (u32 (energy text - 1)) else t_conso0 t.
Definition conso_new (c0 : conso) (text : list Z) (ts : timeval) : conso :=
  mk_conso (u32 ((tv_sec ts - date_ms c0) * 1000 + tv_usec ts / 1000)) (u32 (energy text - watt_heure c0)).

Lemma updc_length : forall m i v m', updc m i v = Some m' -> length m' = length m.
Proof.
  induction m; simpl; intros; [discriminate|]. destruct i.
  - inv H. auto.
  - destruct (updc m i v) eqn:E; inv H. simpl. erewrite IHm; eauto.
Qed.
Lemma updc_lt : forall m i v, (i < length m)%nat -> exists m', updc m i v = Some m'.
Proof.
  induction m; simpl; intros; [lia|]. destruct i; eauto.
  destruct (IHm i v) as (m' & E); [lia|]. rewrite E. eauto.
Qed.
Lemma updc_nth : forall m i v m', updc m i v = Some m' ->
  forall j, nth_error m' j = if Nat.eqb j i then Some v else nth_error m j.
Proof.
  induction m; simpl; intros; [discriminate|]. destruct i.
  - inv H. destruct j; auto.
  - destruct (updc m i v) eqn:E; inv H. destruct j; simpl; auto.
Qed.


Lemma copy_from_spec : forall text R ts t, stops text -> text <> [] -> bytes text -> (length text <= 350)%nat -> ring_ok t ->
  exists cs, updc (t_consos t) (t_i t) (conso_new (conso_base t text ts) text ts) = Some cs /\
  copy_from (text ++ R) (length text) ts t =
  Some (mk_ti (text ++ skipn (length text) (t_frame t)) (length text) ts cs ((t_i t + 1) mod 48)%nat (conso_base t text ts)).
Proof.
  intros text R ts t Hs Hne Hb Hl (Hc & Hi & Hf).
  destruct (updc_lt (t_consos t) (t_i t) (conso_new (conso_base t text ts) text ts)) as (cs & E); [lia|].
  exists cs. split; auto. unfold copy_from.
  change MAX_FRAME_SIZE with 350%nat. destruct (Nat.ltb_spec 350 (length text)); [lia|].
  destruct (Nat.eqb_spec (length text) 0). { destruct text; [congruence|discriminate]. }
  rewrite firstn_app_exact.
  rewrite !get_value_int_spec by (auto; intros; eapply lookup_bytes; eauto).
  fold (energy text). fold (conso_base t text ts). fold (conso_new (conso_base t text ts) text ts).
  rewrite E. auto.
Qed.

Lemma ring_ok_init : forall g, length g = 350%nat -> ring_ok (ti_init g).
Proof. intros. unfold ring_ok. cbn [t_consos t_i t_frame ti_init]. rewrite repeat_length. unfold CONSO_MAX. lia. Qed.

(** ** publication *)
Lemma frame_ends_since : forall h t0 bodies, frame_ends h t0 bodies <-> since_stx h t0 (groups bodies ++ [3]).
Proof.
  intros. unfold frame_ends, since_stx, frame_bytes, groups. split; intros (pre & rest & E1 & E2); exists pre, rest; split; auto.
  - cbn in E2. inv E2. auto.
  - cbn. f_equal. auto.
Qed.

(** exactness of publication by the decoder (C01) *)
Lemma decoder_exact : forall sgn garbage h, length garbage = 350%nat -> Forall is_byte (map snd h) ->
  exists d, run sgn h (dec_init garbage) = Some d /\ length (d_frame d) = 350%nat /\
   (ready d = true <-> exists t0 bodies, frame_ends h t0 bodies /\ valid_frame bodies) /\
   (forall t0 bodies, frame_ends h t0 bodies -> valid_frame bodies ->
      d_ts d = t0 /\ exists R, d_frame d = content bodies ++ R /\ d_size d = length (content bodies)).
Proof.
  intros. destruct (run_inv sgn h [] (dec_init garbage)) as (d & E & HI); auto. { apply init_inv; auto. }
  cbn [app] in HI. exists d. split; auto. split; [apply HI|].
  assert (Hfw : forall t0 bodies, frame_ends h t0 bodies -> valid_frame bodies ->
      d_ts d = t0 /\ exists R, d_frame d = content bodies ++ R /\ d_size d = length (content bodies)).
  { intros t0 bodies (pre & rest & Eh & Em) Hv. rewrite Eh in E.
    apply run_app_inv in E. destruct E as (d1 & E1 & E2).
    assert (length (d_frame d1) = 350%nat).
    { destruct (run_inv sgn pre [] (dec_init garbage)) as (d1' & E1' & HI'); auto.
      - rewrite Eh, map_app in H0. apply Forall_app in H0. apply H0.
      - apply init_inv; auto.
      - rewrite E1 in E1'. inv E1'. apply HI'. }
    destruct (run_frame sgn t0 rest bodies d1 Em Hv H1) as (d' & R & F1 & F2 & F3 & F4 & F5).
    rewrite E2 in F1. inv F1. split; auto. exists R. auto. }
  split; auto. split.
  - intros Hr. destruct HI as (_ & Hc & _). unfold ready in Hr.
    destruct (Nat.eqb_spec (d_size d) 0); [discriminate|].
    destruct (Hc n) as (bodies & R & Hv & _ & _ & Hs). exists (d_ts d), bodies. split; auto. apply frame_ends_since; auto.
  - intros (t0 & bodies & Hf & Hv). destruct (Hfw t0 bodies Hf Hv) as (_ & R & _ & Hs).
    unfold ready. rewrite Hs. destruct Hv as (Hne & _). apply content_pos in Hne.
    destruct (Nat.eqb_spec (length (content bodies)) 0); auto.
Qed.

Definition shows (t : teleinfo) (r : option (timeval * list (list Z))) : Prop :=
  match r with
  | Some (t0, bodies) => t_ts t = t0 /\ t_size t = length (content bodies) /\ exists R, t_frame t = content bodies ++ R
  | None => t_size t = 0%nat
  end.

Definition PubInv (sgn : bool) (g1 : list Z) (h : list event) (p : pub) : Prop :=
  run sgn h (dec_init g1) = Some (p_dec p) /\ ring_ok (p_ti p) /\
  exists r, last_valid h r /\ shows (p_ti p) r.

Lemma last_valid_ext : forall h r e, last_valid h r -> (forall t bs, frame_ends (h ++ [e]) t bs -> ~ valid_frame bs) ->
  last_valid (h ++ [e]) r.
Proof.
  intros h [[t0 bodies]|] e H Hn.
  - destruct H as (h1 & h2 & -> & H1 & H2 & H3). exists h1, (h2 ++ [e]). rewrite app_assoc. repeat split; auto; try apply H2.
    intros k1 k2 t bs E Hne Hf. destruct k2 as [|x k2 _] using rev_ind.
    + rewrite app_nil_r in E. rewrite <- E in Hf. rewrite app_assoc in Hf. eapply Hn; eauto.
    + rewrite app_assoc in E. apply app_inj_tail in E. destruct E as [-> ->]. eapply H3; eauto.
  - intros k1 k2 t bs E Hf. destruct k2 as [|x k2 _] using rev_ind.
    + rewrite app_nil_r in E. rewrite <- E in Hf. eapply Hn; eauto.
    + rewrite app_assoc in E. apply app_inj_tail in E. destruct E as [-> ->]. eapply H; eauto.
Qed.

Lemma pub_step_inv : forall sgn g1 h p now c, length g1 = 350%nat -> Forall is_byte (map snd h) -> is_byte c ->
  p_pause p = false -> PubInv sgn g1 h p -> exists p', pub_step sgn (Byte now c) p = Some p' /\ p_pause p' = false /\ PubInv sgn g1 (h ++ [(now, c)]) p'.
Proof.
  intros sgn g1 h p now c Hg Hh Hc Hp (Hr & Hring & r & Hl & Hs).
  cbn [pub_step]. unfold tic_decode. rewrite Hp.
  assert (Hb : Forall is_byte (map snd (h ++ [(now, c)]))).
  { rewrite map_app. apply Forall_app. split; auto. constructor; auto. }
  destruct (decoder_exact sgn g1 (h ++ [(now, c)]) Hg Hb) as (d & E & Hlen & Hready & Hfw).
  assert (E' := E). rewrite (run_app _ _ _ _ _ Hr) in E'. cbn [run] in E'.
  destruct (put sgn now c (p_dec p)) as [d'|] eqn:Ep; [|discriminate]. inv E'.
  destruct (ready d) eqn:Erd.
  - destruct (proj1 Hready eq_refl) as (t0 & bodies & Hf & Hv).
    destruct (Hfw _ _ Hf Hv) as (Hts & R & Hfr & Hsz).
    assert (Hv' := Hv). destruct Hv' as (Hne & Hgood & Hfit).
    assert (Hct : (length (content bodies) <= 350)%nat).
    { pose proof (fits_content bodies 0 Hgood Hfit). lia. }
    destruct (copy_from_spec (content bodies) R (d_ts d) (p_ti p)) as (cs & Ecs & Ecf); auto.
    { apply content_stops. } { intro X. apply content_nil in X. contradiction. } { apply content_bytes; auto. }
    rewrite Hfr, Hsz, Ecf. cbn iota beta. eexists. split; [reflexivity|].
    split; [auto|]. split; [cbn [p_dec]; auto|].
    destruct Hring as (R1 & R2 & R3).
    split.
    { unfold ring_ok. cbn [p_ti t_consos t_i t_frame]. split; [erewrite updc_length; eauto|].
      split; [apply Nat.mod_upper_bound; lia|]. rewrite app_length, skipn_length. lia. }
    exists (Some (t0, bodies)). split.
    + exists (h ++ [(now, c)]), []. rewrite app_nil_r. repeat split; auto.
      intros k1 k2 t bs E1 Hk. destruct k1; [congruence|discriminate].
    + cbn. repeat split; auto. eexists. reflexivity.
  - cbn iota beta. eexists. split; [reflexivity|]. split; [auto|]. split; [auto|]. split; [auto|]. exists r. split; auto.
    apply last_valid_ext; auto. intros t bs Hf Hv. assert (false = true) by (apply Hready; eauto). discriminate.
Qed.

Lemma pub_run_inv : forall sgn g1 es h1 p, length g1 = 350%nat ->
  Forall is_byte (map snd (h1 ++ fed (p_pause p) es)) ->
  PubInv sgn g1 h1 p -> exists p', pub_run sgn es p = Some p' /\ PubInv sgn g1 (h1 ++ fed (p_pause p) es) p'.
Proof.
  induction es as [|[now c|b] es]; intros h1 p Hg Hb HI; cbn [fed pub_run] in *.
  - exists p. rewrite app_nil_r. auto.
  - destruct (p_pause p) eqn:Ep.
    + cbn [pub_step]. unfold tic_decode. rewrite Ep. rewrite <- Ep. apply IHes; auto. rewrite Ep. auto.
    + assert (Hb' := Hb). rewrite map_app in Hb'. apply Forall_app in Hb'. destruct Hb' as [Hb1 Hb2]. inv Hb2.
      destruct (pub_step_inv sgn g1 h1 p now c) as (p1 & E1 & Ep1 & HI1); auto.
      rewrite E1.
      replace (h1 ++ (now, c) :: fed false es) with ((h1 ++ [(now, c)]) ++ fed (p_pause p1) es)
        by (rewrite <- app_assoc, Ep1; auto).
      apply IHes; auto. rewrite <- app_assoc, Ep1. auto.
  - cbn [pub_step].
    destruct (IHes h1 (mk_pub (p_dec p) (p_ti p) b)) as (p' & E & HI'); auto. eauto.
Qed.

Lemma pub_init_inv : forall sgn g1 g2, length g1 = 350%nat -> length g2 = 350%nat -> PubInv sgn g1 [] (pub_init g1 g2).
Proof.
  intros. split; auto. split. { apply ring_ok_init; auto. }
  exists None. split; [|reflexivity]. intros k1 k2 t bs E Hf. destruct k1; [|discriminate].
  destruct Hf as (pre & rest & E1 & _). destruct pre; discriminate.
Qed.

(** C07 *)
Lemma published_last : forall sgn g1 g2 es, length g1 = 350%nat -> length g2 = 350%nat ->
  Forall is_byte (map snd (fed false es)) ->
  exists p r, pub_run sgn es (pub_init g1 g2) = Some p /\ last_valid (fed false es) r /\
   match r with
   | None => published p = []
   | Some (t0, bodies) => published p = content bodies /\ t_ts (p_ti p) = t0
   end.
Proof.
  intros. destruct (pub_run_inv sgn g1 es [] (pub_init g1 g2)) as (p & E & _ & _ & r & Hl & Hs); auto.
  { apply pub_init_inv; auto. }
  exists p, r. split; auto. split; auto. unfold published. destruct r as [[t0 bodies]|]; cbn in Hs.
  - destruct Hs as (? & -> & R & ->). split; auto. apply firstn_app_exact.
  - rewrite Hs. auto.
Qed.

Lemma fed_no_pause : forall es, (forall b, ~ In (Pause b) es) -> fed false es = received es.
Proof.
  induction es as [|[now c|b] es]; cbn; intros; auto.
  - f_equal. apply IHes. intros b Hin. apply (H b). auto.
  - exfalso. apply (H b). auto.
Qed.

