(** Proofs about the ring of samples and the power estimate. *)
From Coq Require Import ZArith List Bool Lia ZifyBool ZifyNat Sorted.
From Verif Require Import Base BaseFacts Teleinfo TeleinfoSpec DecoderProofs AccessProofs GroupProofs CorruptProofs DumpProofs Publish HistorySpec PublishProofs TeleinfoMain WattSpec.
Import ListNotations.
Open Scope Z_scope.

(** ** The ring holds the last 48 samples *)
Definition pos (i k : nat) : nat := ((i + 47 - k) mod 48)%nat.
Definition zero_conso := mk_conso 0 0.

(** [ss]: all the samples, newest first *)
Definition Ring (t : teleinfo) (ss : list conso) : Prop :=
  ring_ok t /\ forall k, (k < 48)%nat -> nth_error (t_consos t) (pos (t_i t) k) = Some (nth k ss zero_conso).

Lemma Ring_init : forall g, length g = 350%nat -> Ring (ti_init g) [].
Proof.
  intros. split. { apply ring_ok_init; auto. }
  intros k Hk. cbn [t_consos ti_init t_i]. destruct k; cbn [nth]; change zero_conso with (mk_conso 0 0);
  rewrite nth_error_repeat; auto; unfold CONSO_MAX, pos; apply Nat.mod_upper_bound; lia.
Qed.

Lemma pos_step : forall i k, (i < 48)%nat -> (k < 48)%nat ->
  pos ((i + 1) mod 48) k = if Nat.eqb k 0 then i else pos i (k - 1).
Proof.
  intros. unfold pos. destruct (Nat.eqb_spec k 0).
  - subst. destruct (Nat.eq_dec i 47).
    + subst. reflexivity.
    + rewrite (Nat.mod_small (i + 1)) by lia. replace (i + 1 + 47 - 0)%nat with (i + 1 * 48)%nat by lia.
      rewrite Nat.mod_add by lia. apply Nat.mod_small. lia.
  - destruct (Nat.eq_dec i 47).
    + subst. change ((47 + 1) mod 48)%nat with 0%nat. replace (47 + 47 - (k - 1))%nat with (0 + 47 - k + 1 * 48)%nat by lia.
      rewrite Nat.mod_add by lia. auto.
    + rewrite (Nat.mod_small (i + 1)) by lia. f_equal. lia.
Qed.
Lemma pos_lt : forall i k, (pos i k < 48)%nat.
Proof. intros. apply Nat.mod_upper_bound. lia. Qed.
Lemma pos_inj : forall i k, (i < 48)%nat -> (k < 48)%nat -> (pos i k = i <-> k = 47%nat).
Proof.
  intros. unfold pos. split; intros.
  - destruct (Nat.lt_ge_cases (i + 47 - k) 48).
    + rewrite Nat.mod_small in H1 by lia. lia.
    + replace (i + 47 - k)%nat with (i + 47 - k - 48 + 1 * 48)%nat in H1 by lia.
      rewrite Nat.mod_add in H1 by lia. rewrite Nat.mod_small in H1 by lia. lia.
  - subst. replace (i + 47 - 47)%nat with i by lia. apply Nat.mod_small. lia.
Qed.

Definition next_base (b : conso) (text : list Z) (ts : timeval) : conso :=
  if date_ms b =? 0 then mk_conso (u32 (tv_sec ts - 1)) (u32 (energy text - 1)) else b.

Lemma Ring_copy : forall t ss text R ts, stops text -> text <> [] -> bytes text -> (length text <= 350)%nat -> Ring t ss ->
  exists t', copy_from (text ++ R) (length text) ts t = Some t' /\
   t_conso0 t' = next_base (t_conso0 t) text ts /\
   t_size t' = length text /\ (exists R', t_frame t' = text ++ R') /\ t_ts t' = ts /\
   Ring t' (conso_new (t_conso0 t') text ts :: ss).
Proof.
  intros t ss text R ts Hs Hne Hb Hl [Hok Hr].
  destruct (copy_from_spec text R ts t) as (cs & Ecs & E); auto.
  eexists. split; [exact E|]. cbn [t_conso0 t_size t_frame t_ts]. split; [reflexivity|]. split; [auto|]. split; [eauto|]. split; [auto|].
  destruct Hok as (H1 & H2 & H3).
  split.
  - unfold ring_ok. cbn [t_consos t_i t_frame]. split; [erewrite updc_length; eauto|].
    split; [apply Nat.mod_upper_bound; lia|]. rewrite app_length, skipn_length. lia.
  - intros k Hk. cbn [t_consos t_i]. rewrite (updc_nth _ _ _ _ Ecs). rewrite pos_step by auto.
    destruct (Nat.eqb_spec k 0).
    + subst. rewrite Nat.eqb_refl. auto.
    + destruct (Nat.eqb_spec (pos (t_i t) (k - 1)) (t_i t)) as [X|X].
      * apply pos_inj in X; lia.
      * rewrite Hr by lia. destruct k; [lia|]. cbn [nth]. replace (S k - 1)%nat with k by lia. auto.
Qed.

(** ** The walk *)
Fixpoint walk (now periode : Z) (l : list conso) : nat :=
  match l with
  | [] => 0
  | c :: r => if watt_heure c =? 0 then 0%nat
              else if periode <? u32 (now - date_ms c) then 0%nat
              else S (walk now periode r)
  end.
Definition ring_view (ss : list conso) : list conso := map (fun k => nth k ss zero_conso) (seq 0 48).

Lemma view_nth : forall ss k, (k < 48)%nat -> nth_error (ring_view ss) k = Some (nth k ss zero_conso).
Proof.
  intros. unfold ring_view. rewrite nth_error_map. rewrite (nth_error_nth' _ 0%nat) by (rewrite seq_length; auto).
  rewrite seq_nth by auto. auto.
Qed.
Lemma view_length : forall ss, length (ring_view ss) = 48%nat.
Proof. intros. unfold ring_view. rewrite map_length, seq_length. auto. Qed.

Lemma skipn_nth : forall (A : Type) (l : list A) k x, nth_error l k = Some x -> skipn k l = x :: skipn (S k) l.
Proof.
  induction l; intros k x H; destruct k; try discriminate.
  - cbn in H. inv H. auto.
  - cbn in H. cbn [skipn]. rewrite (IHl k x H). destruct l; auto.
Qed.

Lemma suivant_pos : forall i k, (i < 48)%nat -> (k < 47)%nat -> ((CONSO_MAX + pos i k - 1) mod CONSO_MAX)%nat = pos i (S k).
Proof.
  intros. unfold CONSO_MAX. unfold pos at 2. destruct (Nat.lt_ge_cases (i + 47 - k) 48).
  - unfold pos. rewrite (Nat.mod_small (i + 47 - k)) by lia.
    replace (48 + (i + 47 - k) - 1)%nat with (i + 47 - S k + 1 * 48)%nat by lia. rewrite Nat.mod_add by lia. auto.
  - unfold pos. replace (i + 47 - k)%nat with (i + 47 - k - 48 + 1 * 48)%nat by lia. rewrite Nat.mod_add by lia.
    rewrite (Nat.mod_small (i + 47 - k - 48)) by lia. f_equal. lia.
Qed.

Lemma watt_loop_spec : forall t ss now periode, Ring t ss -> forall fuel k, (k < 47)%nat -> (47 - k <= fuel)%nat ->
  watt_loop fuel (t_consos t) (t_i t) (pos (t_i t) k) now periode =
  Some (pos (t_i t) (k + walk now periode (skipn (S k) (ring_view ss)))).
Proof.
  intros t ss now periode [(H1 & H2 & H3) Hr]. induction fuel; intros k Hk Hf; [lia|].
  cbn [watt_loop]. rewrite suivant_pos by auto. rewrite Hr by lia.
  assert (Hsk : skipn (S k) (ring_view ss) = nth (S k) ss zero_conso :: skipn (S (S k)) (ring_view ss)).
  { apply skipn_nth. apply view_nth. lia. }
  rewrite Hsk. cbn [walk].
  destruct (watt_heure (nth (S k) ss zero_conso) =? 0). { rewrite Nat.add_0_r. auto. }
  destruct (periode <? u32 (now - date_ms (nth (S k) ss zero_conso))). { rewrite Nat.add_0_r. auto. }
  destruct (Nat.eqb_spec (pos (t_i t) (S k)) (t_i t)) as [X|X].
  - apply pos_inj in X; try lia. assert (k = 46)%nat by lia. subst k.
    rewrite (skipn_all2 (ring_view ss)) by (rewrite view_length; lia). cbn [walk]. rewrite Nat.add_1_r. auto.
  - assert (S k <> 47)%nat by (intro; apply X; apply pos_inj; lia).
    rewrite IHfuel by lia. do 2 f_equal. lia.
Qed.

Definition first_sample (now periode : Z) (ss : list conso) : conso :=
  nth (walk now periode (skipn 1 (ring_view ss))) ss zero_conso.

Lemma walk_le : forall now p l, (walk now p l <= length l)%nat.
Proof. induction l; cbn [walk length]; [lia|]. destruct (_ =? _); [lia|]. destruct (_ <? _); lia. Qed.

Lemma watt_ring : forall t ss p, Ring t ss ->
  watt t p =
  let ca := nth 0 ss zero_conso in
  let cp := first_sample (date_ms ca) (u32 (p * 1000)) ss in
  if date_ms ca =? date_ms cp then Some 0
  else let t0 := i32 (date_ms ca - date_ms cp) in
       let t1 := if t0 <? 0 then i32 (t0 + 1000000) else t0 in
       if t1 =? 0 then None else Some (u32 (3600000 * u32 (watt_heure ca - watt_heure cp)) / u32 t1).
Proof.
  intros t ss p HR. pose proof HR as [(H1 & H2 & H3) Hr].
  unfold watt.
  assert (Ea : ((CONSO_MAX + t_i t - 1) mod CONSO_MAX)%nat = pos (t_i t) 0).
  { unfold CONSO_MAX, pos. f_equal. lia. }
  rewrite Ea. rewrite Hr by lia. cbv zeta.
  rewrite (watt_loop_spec t ss _ _ HR) by (unfold CONSO_MAX; lia).
  rewrite Nat.add_0_l.
  pose proof (walk_le (date_ms (nth 0 ss zero_conso)) (u32 (p * 1000)) (skipn 1 (ring_view ss))) as Hw.
  rewrite skipn_length, view_length in Hw.
  rewrite Hr by lia. fold (first_sample (date_ms (nth 0 ss zero_conso)) (u32 (p * 1000)) ss). auto.
Qed.

Lemma first_in_window : forall now p l c d, (0 < walk now p l)%nat -> nth_error l (walk now p l - 1) = Some c -> 
  d = c -> u32 (now - date_ms d) <= p.
Proof.
  induction l; cbn [walk]; intros c d H Hn ->. { lia. }
  destruct (watt_heure a =? 0) eqn:E1; [lia|]. destruct (p <? u32 (now - date_ms a)) eqn:E2; [lia|].
  replace (S (walk now p l) - 1)%nat with (walk now p l) in Hn by lia.
  destruct (walk now p l) eqn:Ew.
  - cbn in Hn. inv Hn. lia.
  - cbn in Hn. eapply IHl; eauto. lia. replace (S n - 1)%nat with n by lia. auto.
Qed.

(** no division by zero, no access outside the ring *)
Definition in_u32 (ss : list conso) : Prop := Forall (fun c => 0 <= date_ms c < 4294967296) ss.
Lemma nth_u32 : forall ss k, in_u32 ss -> 0 <= date_ms (nth k ss zero_conso) < 4294967296.
Proof.
  intros. destruct (nth_in_or_default k ss zero_conso) as [Hi|Hi].
  - unfold in_u32 in H. rewrite Forall_forall in H. apply H; auto.
  - rewrite Hi. cbn. lia.
Qed.
Lemma watt_safe : forall t ss p, Ring t ss -> in_u32 ss -> 0 <= p <= 2147483 -> watt t p <> None.
Proof.
  intros t ss p HR H32 Hp. rewrite (watt_ring t ss p HR). cbv zeta.
  destruct (Z.eqb_spec (date_ms (nth 0 ss zero_conso)) (date_ms (first_sample (date_ms (nth 0 ss zero_conso)) (u32 (p * 1000)) ss))) as [E|E]; [discriminate|].
  set (now := date_ms (nth 0 ss zero_conso)) in *.
  assert (Hu : u32 (p * 1000) = p * 1000) by (unfold u32; apply Z.mod_small; lia).
  rewrite Hu in *.
  unfold first_sample in *. set (l := skipn 1 (ring_view ss)) in *. destruct (walk now (p * 1000) l) eqn:Ew.
  { exfalso. apply E. reflexivity. }
  assert (Hin : u32 (now - date_ms (nth (S n) ss zero_conso)) <= p * 1000).
  { pose proof (walk_le now (p * 1000) l) as Hl. unfold l in Hl at 2. rewrite skipn_length, view_length, Ew in Hl.
    eapply (first_in_window now (p * 1000) l); [rewrite Ew; lia| |reflexivity].
    rewrite Ew. replace (S n - 1)%nat with n by lia.
    assert (Hnth : nth_error (ring_view ss) (S n) = Some (nth (S n) ss zero_conso)) by (apply view_nth; lia).
    unfold l. destruct (ring_view ss) as [|a r]; [discriminate|]. cbn [skipn]. cbn in Hnth. exact Hnth. }
  set (x := now - date_ms (nth (S n) ss zero_conso)) in *.
  assert (Hx : i32 x = u32 x).
  { unfold i32, u32 in *. pose proof (Z.mod_pos_bound x 4294967296 ltac:(lia)).
    assert (Hd : (x + 2147483648) mod 4294967296 = x mod 4294967296 + 2147483648).
    { rewrite <- Zplus_mod_idemp_l. apply Z.mod_small. lia. }
    lia. }
  rewrite Hx. pose proof (Z.mod_pos_bound x 4294967296 ltac:(lia)) as Hb. fold (u32 x) in Hb.
  destruct (Z.ltb_spec (u32 x) 0); [lia|].
  pose proof (nth_u32 ss 0 H32) as Ha. fold now in Ha. pose proof (nth_u32 ss (S n) H32) as Hc.
  destruct (Z.eqb_spec (u32 x) 0) as [E0|E0]; [|discriminate].
  exfalso. unfold u32 in E0. apply E. unfold x in E0. apply Z.mod_divide in E0; [|lia]. destruct E0 as [q Hq].
  assert (q = 0) by lia. subst q. lia.
Qed.

(** ** The samples of a list of frames *)
Fixpoint samples (b : conso) (fs : list rframe) : list conso :=   (* oldest first *)
  match fs with
  | [] => []
  | f :: r => let b' := next_base b (content (snd f)) (fst f) in
              conso_new b' (content (snd f)) (fst f) :: samples b' r
  end.
Fixpoint last_base (b : conso) (fs : list rframe) : conso :=
  match fs with
  | [] => b
  | f :: r => last_base (next_base b (content (snd f)) (fst f)) r
  end.
Lemma samples_snoc : forall fs b f, samples b (fs ++ [f]) =
  samples b fs ++ [conso_new (next_base (last_base b fs) (content (snd f)) (fst f)) (content (snd f)) (fst f)].
Proof. induction fs; intros; cbn [samples app last_base]; auto. rewrite IHfs. auto. Qed.
Lemma last_base_snoc : forall fs b f, last_base b (fs ++ [f]) = next_base (last_base b fs) (content (snd f)) (fst f).
Proof. induction fs; intros; cbn [last_base app]; auto. Qed.
Lemma samples_u32 : forall fs b, in_u32 (samples b fs).
Proof.
  induction fs; intros; cbn [samples]; constructor; [|apply IHfs]. unfold conso_new. cbn. apply Z.mod_pos_bound. lia.
Qed.

(** The published object after the frames [fs]. *)
Definition Holds (t : teleinfo) (fs : list rframe) : Prop :=
  Ring t (rev (samples zero_conso fs)) /\ t_conso0 t = last_base zero_conso fs.

Lemma Holds_copy : forall t fs f R, valid_frame (snd f) -> Holds t fs ->
  exists t', copy_from (content (snd f) ++ R) (length (content (snd f))) (fst f) t = Some t' /\ Holds t' (fs ++ [f]).
Proof.
  intros t fs f R (Hne & Hg & Hfit) [HR Hb].
  destruct (Ring_copy t (rev (samples zero_conso fs)) (content (snd f)) R (fst f)) as (t' & E & Hb' & _ & _ & _ & HR'); auto.
  { apply content_stops. } { intro X. apply content_nil in X. contradiction. } { apply content_bytes; auto. }
  { pose proof (fits_content (snd f) 0 Hg Hfit). lia. }
  exists t'. split; auto. split.
  - rewrite samples_snoc, rev_app_distr. cbn [rev app]. rewrite <- Hb, <- Hb'. auto.
  - rewrite last_base_snoc, <- Hb. auto.
Qed.

Lemma Holds_init : forall g, length g = 350%nat -> Holds (ti_init g) [].
Proof. intros. split; [apply Ring_init; auto|reflexivity]. Qed.

(** ** along the history *)
Lemma pub_step_holds : forall sgn g1 h p fs now c, length g1 = 350%nat -> Forall is_byte (map snd (h ++ [(now, c)])) ->
  p_pause p = false -> run sgn h (dec_init g1) = Some (p_dec p) -> frames_in h fs -> Holds (p_ti p) fs ->
  exists p' fs', pub_step sgn (Byte now c) p = Some p' /\ p_pause p' = false /\
    run sgn (h ++ [(now, c)]) (dec_init g1) = Some (p_dec p') /\ frames_in (h ++ [(now, c)]) fs' /\ Holds (p_ti p') fs'.
Proof.
  intros sgn g1 h p fs now c Hg Hb Hp Hr Hfs HH.
  cbn [pub_step]. unfold tic_decode. rewrite Hp.
  destruct (decoder_exact sgn g1 (h ++ [(now, c)]) Hg Hb) as (d & E & Hlen & Hready & Hfw).
  assert (E' := E). rewrite (run_app _ _ _ _ _ Hr) in E'. cbn [run] in E'.
  destruct (put sgn now c (p_dec p)) as [d'|] eqn:Ep; [|discriminate]. inv E'.
  destruct (ready d) eqn:Erd.
  - destruct (proj1 Hready eq_refl) as (t0 & bodies & Hf & Hv).
    destruct (Hfw _ _ Hf Hv) as (Hts & R & Hfr & Hsz).
    destruct (Holds_copy (p_ti p) fs (t0, bodies) R Hv HH) as (t' & Ec & HH'). cbn [fst snd] in *.
    rewrite Hfr, Hsz, Hts, Ec. cbn iota beta. do 2 eexists. split; [reflexivity|]. split; [reflexivity|].
    split; [auto|]. split; [eapply frames_new; eauto|auto].
  - cbn iota beta. exists (mk_pub d (p_ti p) false), fs. split; [reflexivity|]. split; [auto|]. split; [auto|]. split; [|auto].
    apply frames_more; auto. intros t bs Hf Hv. assert (false = true) by (apply Hready; eauto). discriminate.
Qed.

Lemma pub_run_holds : forall sgn g1 es h p fs, length g1 = 350%nat -> Forall is_byte (map snd (h ++ fed (p_pause p) es)) ->
  run sgn h (dec_init g1) = Some (p_dec p) -> frames_in h fs -> Holds (p_ti p) fs ->
  exists p' fs', pub_run sgn es p = Some p' /\ frames_in (h ++ fed (p_pause p) es) fs' /\ Holds (p_ti p') fs'.
Proof.
  induction es as [|[now c|b] es]; intros h p fs Hg Hb Hr Hfs HH; cbn [fed pub_run] in *.
  - exists p, fs. rewrite app_nil_r. auto.
  - destruct (p_pause p) eqn:Ep.
    + cbn [pub_step]. unfold tic_decode. rewrite Ep. rewrite <- Ep. eapply IHes; eauto. rewrite Ep. auto.
    + assert (Hb2 : Forall is_byte (map snd (h ++ [(now, c)]))).
      { replace (h ++ (now, c) :: fed false es) with ((h ++ [(now, c)]) ++ fed false es) in Hb by (rewrite <- app_assoc; auto).
        rewrite map_app in Hb. apply Forall_app in Hb. apply Hb. }
      destruct (pub_step_holds sgn g1 h p fs now c) as (p1 & fs1 & E1 & Ep1 & Hr1 & Hfs1 & HH1); auto.
      rewrite E1.
      replace (h ++ (now, c) :: fed false es) with ((h ++ [(now, c)]) ++ fed (p_pause p1) es) in *
        by (rewrite <- app_assoc, Ep1; auto).
      eapply IHes; eauto.
  - cbn [pub_step].
    destruct (IHes h (mk_pub (p_dec p) (p_ti p) b) fs) as (p' & fs' & E & ?); auto. eauto.
Qed.

Lemma pub_holds : forall sgn g1 g2 es, length g1 = 350%nat -> length g2 = 350%nat -> Forall is_byte (map snd (fed false es)) ->
  exists p fs, pub_run sgn es (pub_init g1 g2) = Some p /\ frames_in (fed false es) fs /\ Holds (p_ti p) fs.
Proof.
  intros. destruct (pub_run_holds sgn g1 es [] (pub_init g1 g2) []) as (p & fs & ?); auto.
  - constructor.
  - apply Holds_init; auto.
  - eauto.
Qed.

Lemma c10_safe : forall sgn g1 g2 es periode, length g1 = 350%nat -> length g2 = 350%nat -> Forall is_byte (map snd (fed false es)) ->
  0 <= periode <= 2147483 ->
  exists p w, pub_run sgn es (pub_init g1 g2) = Some p /\ watt (p_ti p) periode = Some w.
Proof.
  intros. destruct (pub_holds sgn g1 g2 es) as (p & fs & E & Hfs & HR & _); auto.
  exists p. pose proof (watt_safe (p_ti p) _ periode HR) as Hw.
  destruct (watt (p_ti p) periode) as [w|].
  - eauto.
  - exfalso. apply Hw; auto. unfold in_u32. apply Forall_rev. apply samples_u32.
Qed.


(** ** Normal operation *)
Lemma last_base_keep : forall fs b, date_ms b <> 0 -> last_base b fs = b /\ samples b fs = map (fun f => conso_new b (content (snd f)) (fst f)) fs.
Proof.
  induction fs; intros b Hb; cbn [last_base samples map]; auto.
  assert (En : next_base b (content (snd a)) (fst a) = b).
  { unfold next_base. destruct (Z.eqb_spec (date_ms b) 0); [contradiction|auto]. }
  rewrite En. destruct (IHfs b Hb) as [-> ->]. auto.
Qed.
Definition base_of (f : rframe) : conso := mk_conso (u32 (tv_sec (fst f) - 1)) (u32 (wh f - 1)).
Definition smp (f1 f : rframe) : conso := conso_new (base_of f1) (content (snd f)) (fst f).

Lemma samples_normal : forall f1 r, (tv_sec (fst f1) - 1) mod 4294967296 <> 0 ->
  samples zero_conso (f1 :: r) = map (smp f1) (f1 :: r).
Proof.
  intros f1 r H. cbn [samples map]. unfold next_base at 1 2. cbn [date_ms zero_conso]. rewrite Z.eqb_refl.
  fold (wh f1). fold (base_of f1). unfold smp at 1. f_equal.
  apply last_base_keep. cbn. exact H.
Qed.

Lemma u32_diff : forall a b c, u32 (u32 (a - c) - u32 (b - c)) = u32 (a - b).
Proof. intros. unfold u32. rewrite <- Zminus_mod. f_equal. lia. Qed.
Lemma date_smp : forall f1 f, date_ms (smp f1 f) = u32 (at_ms f - (tv_sec (fst f1) - 1) * 1000).
Proof.
  intros. unfold smp, conso_new, base_of, at_ms. cbn [date_ms].
  unfold u32. rewrite Z.mul_sub_distr_r.
  replace (tv_sec (fst f) * 1000 - (tv_sec (fst f1) - 1) mod 4294967296 * 1000 + tv_usec (fst f) / 1000)
    with ((tv_sec (fst f) * 1000 + tv_usec (fst f) / 1000) - ((tv_sec (fst f1) - 1) mod 4294967296 * 1000)) by lia.
  rewrite Zminus_mod, Zmult_mod_idemp_l, <- Zminus_mod. auto.
Qed.
Lemma wh_range : forall f, 0 <= wh f < 4294967296.
Proof. intros. unfold wh, energy, u32. apply Z.mod_pos_bound. lia. Qed.
Lemma wh_smp : forall f1 f, wh f1 <= wh f < 4294967295 -> watt_heure (smp f1 f) = wh f - wh f1 + 1.
Proof.
  intros. unfold smp, conso_new, base_of. cbn [watt_heure]. fold (wh f).
  unfold u32. rewrite Zminus_mod_idemp_r. pose proof (wh_range f1). rewrite Z.mod_small; lia.
Qed.

Fixpoint tw (n : rframe) (p : Z) (l : list rframe) : nat :=
  match l with
  | [] => 0
  | f :: r => if at_ms n - at_ms f <=? p then S (tw n p r) else 0%nat
  end.

Lemma walk_zeros : forall now p ss k, walk now p (ss ++ repeat zero_conso k) = walk now p ss.
Proof.
  induction ss; intros; cbn [app walk].
  - destruct k; auto.
  - rewrite IHss. auto.
Qed.
Lemma walk_frames : forall n f1 p l, (forall f, In f l -> 0 <= at_ms n - at_ms f < 4294967296 /\ wh f1 <= wh f < 4294967295) ->
  walk (date_ms (smp f1 n)) p (map (smp f1) l) = tw n p l.
Proof.
  induction l; intros H; cbn [map walk tw]; auto.
  destruct (H a) as [H1 H2]. { left; auto. }
  rewrite wh_smp by auto. destruct (Z.eqb_spec (wh a - wh f1 + 1) 0); [lia|].
  assert (Hd : u32 (date_ms (smp f1 n) - date_ms (smp f1 a)) = at_ms n - at_ms a).
  { rewrite !date_smp, u32_diff. unfold u32. apply Z.mod_small. auto. }
  rewrite Hd.
  destruct (Z.ltb_spec p (at_ms n - at_ms a)); destruct (Z.leb_spec (at_ms n - at_ms a) p); try lia; auto.
  f_equal. apply IHl. intros. apply H. right; auto.
Qed.
Lemma filter_none : forall n p l c, Forall (fun b => at_ms b <= at_ms c) l -> p < at_ms n - at_ms c ->
  filter (fun f => at_ms n - at_ms f <=? p) l = [].
Proof.
  induction 1; intros; auto. cbn [filter]. destruct (Z.leb_spec (at_ms n - at_ms x) p); [lia|]. auto.
Qed.
Lemma last_cons : forall (A : Type) (l : list A) a d, last (a :: l) d = last l a.
Proof.
  induction l; intros; auto. change (last (a0 :: a :: l) d) with (last (a :: l) d). rewrite (IHl a d), (IHl a a0). auto.
Qed.
Lemma last_filter_tw : forall n p l cur d, StronglySorted (fun a b => at_ms b <= at_ms a /\ wh b <= wh a) l ->
  last (filter (fun f => at_ms n - at_ms f <=? p) l) cur = nth (tw n p l) (cur :: l) d.
Proof.
  induction l; intros cur d HS; cbn [filter tw]; auto. inv HS.
  destruct (Z.leb_spec (at_ms n - at_ms a) p).
  - rewrite last_cons. rewrite (IHl a d) by auto. auto.
  - rewrite (filter_none n p l a); auto. eapply Forall_impl; [|exact H2]. cbn. intuition.
Qed.

Lemma view_split : forall ss, ring_view ss = firstn 48 ss ++ repeat zero_conso (48 - length ss).
Proof.
  intros. unfold ring_view. generalize 48%nat as m. intros m. revert ss.
  induction m; intros; auto. cbn [seq map]. destruct ss; cbn [firstn length nth app].
  - replace (S m - 0)%nat with (S m) by lia. cbn [repeat]. f_equal. rewrite <- seq_shift, map_map. cbn [nth].
    specialize (IHm []). rewrite firstn_nil in IHm. cbn [length app] in IHm. rewrite Nat.sub_0_r in IHm. rewrite <- IHm.
    apply map_ext. intros []; auto.
  - f_equal. rewrite <- seq_shift, map_map. cbn [nth]. rewrite IHm. auto.
Qed.

Lemma watt_normal : forall t fs n older p, Holds t fs -> normal fs -> rev fs = n :: older -> 0 <= p <= 2147483 ->
  let o := window_start (p * 1000) n fs in
  watt t p = Some (if at_ms n =? at_ms o then 0 else u32 (3600000 * (wh n - wh o)) / (at_ms n - at_ms o)).
Proof.
  intros t fs n older p [HR _] Hn Hrev Hp o.
  destruct fs as [|f1 r]; [contradiction|]. destruct Hn as (Hbase & Hsort & Hspan & Hwh).
  assert (Hss : rev (samples zero_conso (f1 :: r)) = map (smp f1) (n :: older)).
  { rewrite samples_normal by auto. rewrite <- map_rev. exact (f_equal (map (smp f1)) Hrev). }
  rewrite (watt_ring t _ p HR), Hss. cbv zeta.
  cbn [map nth].
  assert (Hrec : recent (f1 :: r) = n :: firstn 47 older) by exact (f_equal (firstn 48) Hrev).
  assert (Hin : forall f, In f (n :: older) -> In f (f1 :: r)).
  { intros f Hf. rewrite <- Hrev in Hf. apply in_rev in Hf. auto. }
  assert (Hin47 : forall f, In f (firstn 47 older) -> In f older).
  { intros f Hf. rewrite <- (firstn_skipn 47 older). apply in_or_app. auto. }
  rewrite Hrec in Hsort, Hspan. inversion Hsort as [|? ? Hsort' Hfst]; subst.
  assert (Hu : u32 (p * 1000) = p * 1000) by (unfold u32; apply Z.mod_small; lia). rewrite Hu.
  assert (Hcp : first_sample (date_ms (smp f1 n)) (p * 1000) (smp f1 n :: map (smp f1) older) = smp f1 o /\
    (at_ms n - at_ms o <= p * 1000) /\ In o (n :: firstn 47 older)).
  { unfold first_sample. rewrite view_split.
    match goal with |- context[skipn 1 (firstn 48 (?a :: ?l) ++ ?z)] =>
      change (skipn 1 (firstn 48 (a :: l) ++ z)) with (firstn 47 l ++ z) end.
    rewrite walk_zeros, firstn_map, walk_frames.
    2:{ intros f Hf. split.
        - rewrite Forall_forall in Hfst. pose proof (Hfst f Hf) as [Hle _]. pose proof (Hspan n f (or_introl eq_refl) (or_intror Hf)). lia.
        - apply Hwh, Hin. right. auto. }
    unfold o, window_start. rewrite Hrec. cbn [filter]. rewrite Z.sub_diag. destruct (Z.leb_spec 0 (p * 1000)); [|lia].
    rewrite last_cons, (last_filter_tw n (p * 1000) (firstn 47 older) n n) by auto.
    set (k := tw n (p * 1000) (firstn 47 older)).
    assert (Hk : (k <= length (firstn 47 older))%nat).
    { unfold k. clear. generalize (firstn 47 older) as l. induction l; cbn [tw length]; [lia|]. destruct (_ <=? _); lia. }
    split.
    - change (smp f1 n :: map (smp f1) older) with (map (smp f1) (n :: older)).
      rewrite (nth_indep _ zero_conso (smp f1 n)).
      2:{ rewrite map_length. cbn [length]. rewrite firstn_length in Hk. lia. }
      rewrite map_nth. f_equal. destruct k as [|k']; [reflexivity|]. cbn [nth].
      rewrite <- (firstn_skipn 47 older) at 1. rewrite app_nth1 by lia. reflexivity.
    - split.
      + unfold k. clear - Hp. generalize (firstn 47 older) as l. 
        assert (G : forall l c, at_ms n - at_ms c <= p * 1000 -> at_ms n - at_ms (nth (tw n (p * 1000) l) (c :: l) n) <= p * 1000).
        { induction l; intros c Hc; cbn [tw]; auto. destruct (Z.leb_spec (at_ms n - at_ms a) (p * 1000)); auto.
          cbn [nth]. apply (IHl a). auto. }
        intros l. apply G. lia.
      + apply nth_In. cbn [length]. lia. }
  destruct Hcp as (-> & Hwin & Hino).
  assert (Hdiff : 0 <= at_ms n - at_ms o < 4294967296 /\ wh o <= wh n).
  { destruct Hino as [<-|Hino]; [lia|]. rewrite Forall_forall in Hfst. pose proof (Hfst o Hino) as [? ?].
    pose proof (Hspan n o (or_introl eq_refl) (or_intror Hino)). lia. }
  assert (Hino' : In o (f1 :: r)). { apply Hin. destruct Hino; [left; auto|right; auto]. }
  assert (Hinn : In n (f1 :: r)). { apply Hin. left; auto. }
  rewrite !wh_smp by (apply Hwh; auto).
  set (dn := date_ms (smp f1 n)). set (d_o := date_ms (smp f1 o)).
  assert (Hmod : u32 (dn - d_o) = at_ms n - at_ms o).
  { unfold dn, d_o. rewrite !date_smp, u32_diff. unfold u32. apply Z.mod_small. lia. }
  assert (Hdn : 0 <= dn < 4294967296) by (unfold dn; rewrite date_smp; apply Z.mod_pos_bound; lia).
  assert (Hdo : 0 <= d_o < 4294967296) by (unfold d_o; rewrite date_smp; apply Z.mod_pos_bound; lia).
  destruct (Z.eqb_spec dn d_o) as [E|E].
  - assert (at_ms n - at_ms o = 0). { rewrite <- Hmod, E, Z.sub_diag. reflexivity. }
    destruct (Z.eqb_spec (at_ms n) (at_ms o)); [auto|lia].
  - destruct (Z.eqb_spec (at_ms n) (at_ms o)) as [E2|E2].
    { exfalso. rewrite E2, Z.sub_diag in Hmod. unfold u32 in Hmod. apply Z.mod_divide in Hmod; [|lia]. destruct Hmod as [q Hq].
      assert (q = 0) by lia. subst q. lia. }
    assert (Hi : i32 (dn - d_o) = at_ms n - at_ms o).
    { unfold i32. rewrite <- Zplus_mod_idemp_l. fold (u32 (dn - d_o)). rewrite Hmod, Z.mod_small; lia. }
    rewrite Hi. destruct (Z.ltb_spec (at_ms n - at_ms o) 0); [lia|].
    destruct (Z.eqb_spec (at_ms n - at_ms o) 0); [lia|].
    f_equal. f_equal.
    + replace (wh n - wh f1 + 1 - (wh o - wh f1 + 1)) with (wh n - wh o) by lia.
      unfold u32. rewrite Zmult_mod_idemp_r. auto.
    + unfold u32. apply Z.mod_small. lia.
Qed.

(** ** The list of frames is determined by the bytes *)
Lemma split_at : forall (x : Z) a1 b1 a2 b2, ~ In x a1 -> ~ In x a2 -> a1 ++ x :: b1 = a2 ++ x :: b2 -> a1 = a2 /\ b1 = b2.
Proof.
  induction a1; intros b1 a2 b2 H1 H2 E; destruct a2; cbn [app] in E; inversion E; subst; auto.
  - exfalso. apply H2. left; auto.
  - exfalso. apply H1. left; auto.
  - destruct (IHa1 b1 a2 b2) as [-> ->]; auto.
    + intro. apply H1. right; auto.
    + intro. apply H2. right; auto.
Qed.
Lemma plain_not13 : forall b, plain b -> ~ In 13 b.
Proof. intros b H Hi. unfold plain in H. rewrite Forall_forall in H. apply H in Hi. destruct Hi as [_ Hi]. discriminate. Qed.
Lemma groups_inj : forall bs1 bs2, Forall good_body bs1 -> Forall good_body bs2 ->
  groups bs1 ++ [3] = groups bs2 ++ [3] -> bs1 = bs2.
Proof.
  induction bs1; intros bs2 H1 H2 E; destruct bs2; auto; unfold groups in E; cbn [map concat app] in E.
  - discriminate.
  - discriminate.
  - inversion H1 as [|? ? Ha H1']; subst. inversion H2 as [|? ? Hb H2']; subst.
    unfold enc_body in E. cbn [app] in E. inversion E as [E'].
    repeat rewrite <- app_assoc in E'. cbn [app] in E'.
    apply split_at in E'; [|apply plain_not13; apply Ha|apply plain_not13; apply Hb].
    destruct E' as [-> E']. f_equal. apply IHbs1; auto.
Qed.
Lemma app_split2 : forall (p1 p2 r1 r2 : list event) t1 t2, Forall (fun c => c <> 2) (map snd r1) -> Forall (fun c => c <> 2) (map snd r2) ->
  p1 ++ (t1, 2) :: r1 = p2 ++ (t2, 2) :: r2 -> t1 = t2 /\ r1 = r2.
Proof.
  induction p1; intros p2 r1 r2 t1 t2 H1 H2 E; destruct p2; cbn [app] in E; inversion E; subst; auto.
  - exfalso. rewrite map_app in H1. apply Forall_app in H1. destruct H1 as [_ H1]. inversion H1. cbn in *. congruence.
  - exfalso. rewrite map_app in H2. apply Forall_app in H2. destruct H2 as [_ H2]. inversion H2. cbn in *. congruence.
  - eapply IHp1; eauto.
Qed.
Lemma frame_ends_unique : forall h t1 bs1 t2 bs2, frame_ends h t1 bs1 -> frame_ends h t2 bs2 ->
  Forall good_body bs1 -> Forall good_body bs2 -> t1 = t2 /\ bs1 = bs2.
Proof.
  intros h t1 bs1 t2 bs2 (p1 & r1 & E1 & F1) (p2 & r2 & E2 & F2) G1 G2.
  assert (F1' : map snd r1 = groups bs1 ++ [3]) by (unfold frame_bytes in F1; cbn [map snd] in F1; inversion F1; auto).
  assert (F2' : map snd r2 = groups bs2 ++ [3]) by (unfold frame_bytes in F2; cbn [map snd] in F2; inversion F2; auto).
  assert (Hno : forall bs, Forall good_body bs -> Forall (fun c => c <> 2) (groups bs ++ [3])).
  { intros bs Hg. apply Forall_app. split; [apply Forall_and_l, groups_no2; auto|]. constructor; [lia|constructor]. }
  destruct (app_split2 p1 p2 r1 r2 t1 t2) as [Et Er].
  - rewrite F1'. auto.
  - rewrite F2'. auto.
  - exact (eq_trans (eq_sym E1) E2).
  - split; auto. apply groups_inj; auto. rewrite <- F1', <- F2', Er. auto.
Qed.
Lemma frames_in_unique : forall h fs1, frames_in h fs1 -> forall fs2, frames_in h fs2 -> fs1 = fs2.
Proof.
  induction 1 as [|h fs e H IH Hno|h fs e t bs H IH Hf Hv]; intros fs2 H2.
  - inversion H2 as [E|h' ? ? ? ? E|h' ? ? ? ? ? ? ? E]; subst; auto; destruct h'; discriminate.
  - inversion H2 as [E|h' fs' e' H' Hno' E|h' fs' e' t' bs' H' Hf' Hv' E]; subst.
    + destruct h; discriminate.
    + apply app_inj_tail in E. destruct E as [-> ->]. auto.
    + exfalso. rewrite E in Hf'. eapply Hno; eauto.
  - inversion H2 as [E|h' fs' e' H' Hno' E|h' fs' e' t' bs' H' Hf' Hv' E]; subst.
    + destruct h; discriminate.
    + exfalso. rewrite E in Hno'. eapply Hno'; eauto.
    + rewrite E in Hf'. apply app_inj_tail in E. destruct E as [-> ->]. rewrite (IH _ H').
      destruct (frame_ends_unique _ _ _ _ _ Hf Hf') as [-> ->]; auto; [apply Hv|apply Hv'].
Qed.

Lemma c10 : forall sgn g1 g2 es fs n older periode, length g1 = 350%nat -> length g2 = 350%nat ->
  Forall is_byte (map snd (fed false es)) ->
  frames_in (fed false es) fs -> normal fs -> rev fs = n :: older -> 0 <= periode <= 2147483 ->
  let o := window_start (periode * 1000) n fs in
  wh n - wh o <= 1193 ->
  exists p, pub_run sgn es (pub_init g1 g2) = Some p /\
   watt (p_ti p) periode = Some (if at_ms n =? at_ms o then 0 else 3600000 * (wh n - wh o) / (at_ms n - at_ms o)).
Proof.
  intros sgn g1 g2 es fs n older periode Hg1 Hg2 Hb Hfs Hn Hrev Hp o Ho.
  destruct (pub_holds sgn g1 g2 es) as (p & fs' & E & Hfs' & HH); auto.
  rewrite (frames_in_unique _ _ Hfs' _ Hfs) in HH.
  exists p. split; auto. rewrite (watt_normal (p_ti p) fs n older periode HH Hn Hrev Hp). fold o.
  destruct (at_ms n =? at_ms o); auto. unfold u32. rewrite Z.mod_small; auto.
  assert (Hin : wh o <= wh n); [|lia].
  destruct fs as [|f1 r]; [contradiction|]. destruct Hn as (_ & Hsort & _ & _).
  unfold o, window_start. assert (Hrec : recent (f1 :: r) = n :: firstn 47 older) by exact (f_equal (firstn 48) Hrev).
  rewrite Hrec in *. inversion Hsort as [|? ? _ Hf]; subst.
  match goal with |- wh (last ?l n) <= _ => assert (Hl : In (last l n) (n :: l)) end.
  { generalize (filter (fun f => at_ms n - at_ms f <=? periode * 1000) (n :: firstn 47 older)) as l.
    induction l; [left; auto|]. rewrite last_cons. destruct IHl as [E1|E1].
    - clear. revert a. induction l; intros; [right; left; auto|]. rewrite last_cons. destruct (IHl a) as [X|X]; [left; auto|].
      right. destruct X as [<-|X]; right; [left; auto|right; auto].
    - clear. revert a. induction l; intros; [right; left; auto|]. rewrite last_cons. destruct (IHl a) as [X|X]; [left; auto|].
      right. destruct X as [<-|X]; right; [left; auto|right; auto]. }
  destruct Hl as [<-|Hl]; [lia|]. apply filter_In in Hl. destruct Hl as [[<-|Hl] _]; [lia|].
  rewrite Forall_forall in Hf. apply Hf in Hl. lia.
Qed.

(** ** The frames sent one after the other are the frames received *)
Lemma frame_ends_etx : forall h e t bs, frame_ends (h ++ [e]) t bs -> snd e = 3.
Proof.
  intros h e t bs (pre & rest & E & F). unfold frame_bytes in F. cbn [map snd] in F. inversion F as [F'].
  destruct rest as [|x rest _] using rev_ind. { destruct (concat (map enc_body bs)); discriminate. }
  rewrite map_app in F'. cbn [map] in F'. apply app_inj_tail in F'. destruct F' as [_ F'].
  change (pre ++ (t, 2) :: rest ++ [x]) with (pre ++ ((t, 2) :: rest) ++ [x]) in E. rewrite app_assoc in E.
  apply app_inj_tail in E. destruct E as [_ ->]. auto.
Qed.
Lemma frames_in_quiet : forall l h fs, frames_in h fs -> Forall (fun c => c <> 3) (map snd l) -> frames_in (h ++ l) fs.
Proof.
  induction l; intros h fs H Hl. { rewrite app_nil_r; auto. }
  inversion Hl; subst. replace (h ++ a :: l) with ((h ++ [a]) ++ l) by (rewrite <- app_assoc; auto).
  apply IHl; auto. apply frames_more; auto. intros t bs Hf. apply frame_ends_etx in Hf. contradiction.
Qed.
Lemma frames_in_frame : forall h fs t0 rest bs, frames_in h fs -> valid_frame bs ->
  map snd ((t0, 2) :: rest) = frame_bytes bs -> frames_in (h ++ (t0, 2) :: rest) (fs ++ [(t0, bs)]).
Proof.
  intros h fs t0 rest bs H Hv Hm. assert (Hm' := Hm). unfold frame_bytes in Hm. cbn [map snd] in Hm. inversion Hm as [Hr].
  fold (groups bs) in Hr.
  destruct rest as [|x rest _] using rev_ind. { destruct (groups bs); discriminate. }
  rewrite map_app in Hr. cbn [map] in Hr. apply app_inj_tail in Hr. destruct Hr as [Hr Hx].
  replace (h ++ (t0, 2) :: rest ++ [x]) with ((h ++ (t0, 2) :: rest) ++ [x]) by (rewrite <- app_assoc; auto).
  apply frames_new; auto.
  - apply frames_in_quiet; auto. cbn [map snd]. constructor; [lia|]. rewrite Hr.
    assert (Hg : Forall good_body bs) by apply Hv. apply groups_no2 in Hg. eapply Forall_impl; [|exact Hg]. cbn. intuition.
  - exists h, (rest ++ [x]). split; [rewrite <- app_assoc; auto|auto].
Qed.

Lemma frames_in_sent : forall l h fs, frames_in h fs -> Forall (fun f => valid_frame (snd f)) l ->
  frames_in (h ++ concat (map sent l)) (fs ++ l).
Proof.
  induction l; intros h fs H Hl. { cbn. rewrite !app_nil_r; auto. }
  inversion Hl; subst. cbn [map concat].
  replace (h ++ sent a ++ concat (map sent l)) with ((h ++ sent a) ++ concat (map sent l)) by (rewrite <- app_assoc; auto).
  replace (fs ++ a :: l) with ((fs ++ [a]) ++ l) by (rewrite <- app_assoc; auto).
  apply IHl; auto. destruct a as [t0 bs]. unfold sent. cbn [fst snd frame_bytes map] in *.
  apply frames_in_frame; auto. cbn [map snd]. unfold frame_bytes. f_equal. rewrite map_map. cbn. apply map_id.
Qed.
Lemma fed_bytes : forall h, fed false (map (fun e => Byte (fst e) (snd e)) h) = h.
Proof. induction h as [|[a b] h]; cbn; auto. f_equal; auto. Qed.

(** ** No off-peak/peak index: always 0 *)
Lemma samples_flat : forall fs b, Forall (fun f => wh f = 0) fs -> (date_ms b = 0 \/ watt_heure b = 4294967295) ->
  Forall (fun c => watt_heure c = 1) (samples b fs).
Proof.
  induction fs as [|f fs IH]; intros b H Hb; cbn [samples]; constructor; inversion H as [|? ? Hf H']; subst.
  - unfold conso_new. cbn [watt_heure]. fold (wh f). rewrite Hf. unfold next_base.
    destruct (Z.eqb_spec (date_ms b) 0); cbn [watt_heure].
    + fold (wh f). rewrite Hf. reflexivity.
    + destruct Hb as [Hb|Hb]; [contradiction|]; rewrite Hb. reflexivity.
  - apply IH; auto. right. unfold next_base. destruct (Z.eqb_spec (date_ms b) 0); cbn [watt_heure].
    + fold (wh f). rewrite Hf. reflexivity.
    + destruct Hb as [Hb|Hb]; [contradiction|]; rewrite Hb. reflexivity.
Qed.
Lemma watt_flat : forall t fs p, Holds t fs -> Forall (fun f => wh f = 0) fs -> 0 <= p <= 2147483 -> watt t p = Some 0.
Proof.
  intros t fs p [HR _] Hz Hp. pose proof (watt_safe t _ p HR) as Hs.
  rewrite (watt_ring t _ p HR) in *. cbv zeta in *.
  set (ss := rev (samples zero_conso fs)) in *.
  assert (H1 : Forall (fun c => watt_heure c = 1) ss).
  { apply Forall_rev. apply samples_flat; auto. }
  assert (H32 : in_u32 ss) by (unfold in_u32; apply Forall_rev; apply samples_u32).
  specialize (Hs H32 Hp).
  set (now := date_ms (nth 0 ss zero_conso)) in *.
  destruct (Z.eqb_spec now (date_ms (first_sample now (u32 (p * 1000)) ss))) as [E|E]; auto.
  match type of Hs with context[if ?b then _ else _] => idtac end.
  assert (Hss : ss <> []).
  { intro X. apply E. unfold now, first_sample. rewrite X. cbn. destruct (walk 0 (u32 (p * 1000)) (skipn 1 (ring_view []))); auto. }
  assert (Hcp : watt_heure (first_sample now (u32 (p * 1000)) ss) = 1).
  { unfold first_sample in *. destruct (nth_in_or_default (walk now (u32 (p * 1000)) (skipn 1 (ring_view ss))) ss zero_conso) as [Hi|Hi].
    - rewrite Forall_forall in H1. apply H1; auto.
    - exfalso.
      (* the walk stops at the first unused slot *)
      assert (Hw : (walk now (u32 (p * 1000)) (skipn 1 (ring_view ss)) < length ss)%nat).
      { rewrite view_split. destruct ss as [|a ss']; [congruence|].
        match goal with |- context[skipn 1 (firstn 48 (?a :: ?l) ++ ?z)] =>
          change (skipn 1 (firstn 48 (a :: l) ++ z)) with (firstn 47 l ++ z) end.
        rewrite walk_zeros. pose proof (walk_le now (u32 (p * 1000)) (firstn 47 ss')). rewrite firstn_length in H. cbn [length]. lia. }
      rewrite Forall_forall in H1. pose proof (H1 _ (nth_In ss zero_conso Hw)) as X. rewrite Hi in X. discriminate. }
  assert (Hca : watt_heure (nth 0 ss zero_conso) = 1).
  { rewrite Forall_forall in H1. apply H1. apply nth_In. destruct ss; [congruence|cbn; lia]. }
  rewrite Hcp, Hca in *. cbn [Z.sub] in *. change (u32 (1 - 1)) with 0 in *. rewrite Z.mul_0_r in *. change (u32 0) with 0 in *.
  match goal with |- (if ?b then None else _) = _ => destruct b; [congruence|] end.
  rewrite Zdiv_0_l. auto.
Qed.
Lemma c10_flat : forall sgn g1 g2 es fs periode, length g1 = 350%nat -> length g2 = 350%nat ->
  Forall is_byte (map snd (fed false es)) -> frames_in (fed false es) fs ->
  (forall f, In f fs -> lookup (str "HCHC") (pairs_of (content (snd f))) = None /\ lookup (str "HCHP") (pairs_of (content (snd f))) = None) ->
  0 <= periode <= 2147483 ->
  exists p, pub_run sgn es (pub_init g1 g2) = Some p /\ watt (p_ti p) periode = Some 0.
Proof.
  intros sgn g1 g2 es fs periode Hg1 Hg2 Hb Hfs Hz Hp.
  destruct (pub_holds sgn g1 g2 es) as (p & fs' & E & Hfs' & HH); auto.
  rewrite (frames_in_unique _ _ Hfs' _ Hfs) in HH.
  exists p. split; auto. eapply watt_flat; eauto. apply Forall_forall. intros f Hf. destruct (Hz f Hf) as [A B].
  unfold wh, energy. rewrite A, B. reflexivity.
Qed.
