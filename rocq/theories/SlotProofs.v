(** C52 for any sequence of polling times. *)
From Coq Require Import ZArith List Bool Lia Sorted.
From Verif Require Import Base BaseFacts Teleinfo TeleinfoSpec Config ConfigSpec JsonBuild Tic TicSpec TemplateProofs PageProofs NotifProofs NotifMain RequestProofs SlotSpec.
Import ListNotations.
Open Scope Z_scope.

(** A timer of period [p] whose current slot began [s] ms after the counter was at [a]. *)
Definition slotted (a p s : Z) (tm : timer) : Prop := tm_period tm = p /\ tm_never tm = false /\ tm_start tm = u32 (a + s).
Lemma poll_slot : forall a p s d tm, 0 < p -> s <= d -> slotted a p s tm ->
  exists s', slotted a p s' (snd (tm_expired (u32 (a + d)) tm)) /\ s <= s' <= d /\
    (fst (tm_expired (u32 (a + d)) tm) = true -> s + p <= s' /\ d < s' + p).
Proof.
  intros a p s d tm Hp Hs (E1 & E2 & E3). unfold tm_expired. rewrite E1, E2.
  replace (p =? 0) with false by (symmetry; apply Z.eqb_neq; lia).
  assert (X : u32 (u32 (a + d) - tm_start tm) = (d - s) mod 4294967296).
  { rewrite E3. unfold u32. rewrite <- Zminus_mod. f_equal. lia. }
  rewrite X. clear X. set (x := (d - s) mod 4294967296).
  assert (x <= d - s) by (apply Z.mod_le; lia).
  assert (XE : d - s = 4294967296 * ((d - s) / 4294967296) + x) by (apply Z.div_mod; lia).
  destruct (Z.leb_spec p x); cbn [fst snd].
  - assert (M := Z.div_mod x p ltac:(lia)). assert (R := Z.mod_pos_bound x p Hp).
    assert (1 <= x / p) by (apply Z.div_le_lower_bound; lia).
    exists (d - x mod p). split; [|split; [nia|intros _; nia]].
    unfold slotted. cbn [tm_period tm_never tm_start]. split; auto. split; auto. rewrite E3. unfold u32. rewrite Zplus_mod_idemp_l.
    replace (a + (d - x mod p)) with (a + s + x / p * p + ((d - s) / 4294967296) * 4294967296) by nia. symmetry. apply Z_mod_plus_full.
  - exists s. split; [split; auto|]. split; [lia|discriminate].
Qed.

Lemma run_slots : forall e a c (sel : timers -> timer) (hit : list effect -> bool) p,
  0 < p ->
  (forall now k t s ts o s' ts', published_ti t -> tic_notifs e c now k t s ts = Some (o, s', ts') ->
     (hit o = true -> fst (tm_expired now (sel ts)) = true) /\ sel ts' = snd (tm_expired now (sel ts))) ->
  forall fs b s st os st', Forall (fun f => published_ti (snd (snd f))) fs -> ts_cfg st = c -> slotted a p s (sel (ts_tm st)) ->
  s <= b -> Sorted Z.le (b :: map fst fs) -> tic_run e (frames_from a fs) st = Some (os, st') ->
  one_per_slot p s (map fst fs) (map hit os).
Proof.
  intros e a c sel hit p Hp HS. induction fs as [|f fs IH]; intros b s st os st' P C T B So R.
  - inv R. exists (fun _ => 0). intros i H. destruct i; discriminate H.
  - cbn [frames_from map] in R. apply run_cons in R. destruct R as (o & st1 & os' & S & R & ->).
    apply frame_step in S. destruct S as (n & tm & S & ->). rewrite C in S. inv P.
    apply HS in S; auto. destruct S as [A N].
    cbn [map] in So. apply Sorted_inv in So. destruct So as [So Hd]. apply HdRel_inv in Hd.
    destruct (poll_slot a p s (fst f) (sel (ts_tm st)) Hp ltac:(lia) T) as (s' & T' & S' & F).
    destruct (IH (fst f) s' (mk_ts (ts_cfg st) n tm) os' st' H2 eq_refl) as (slot & K); [cbn [ts_tm]; rewrite N; exact T'|lia|exact So|exact R|].
    exists (fun i => match i with O => s' | Datatypes.S k => slot k end). intros [|i] H; cbn [map nth] in *.
    + destruct (F (A H)) as [F1 F2]. split; [lia|]. split; [lia|]. intros [|j] J Hj; [lia|]. cbn [nth] in Hj. apply (K j Hj).
    + destruct (K i H) as (K1 & K2 & K3). split; [lia|]. split; [exact K2|]. intros [|j] J Hj; [lia|]. cbn [nth] in Hj. apply K3; [lia|exact Hj].
Qed.
Lemma ticking_slotted : forall a p tm, 0 < p -> ticking a p 0 tm -> slotted a p 0 tm.
Proof. intros a p tm Hp (A & B & C). split; [exact A|]. split; [exact B|]. rewrite Z.div_0_l, Z.mul_0_l in C by lia. exact C. Qed.

Lemma c52_slots : forall e a c st o st1 fs os st' w,
  tic_step e (Configure (u32 a) c) st = Some (o, st1) ->
  Forall (fun f => published_ti (snd (snd f))) fs ->
  tic_run e (frames_from a fs) st1 = Some (os, st') ->
  let s := view c in let p := 1000 * freq_of s w in
  periodic w = true -> host_of s w <> [] -> port_of s w <> 0 -> 0 < freq_of s w -> p <= 4294967294 ->
  Sorted Z.le (0 :: map fst fs) -> one_per_slot p 0 (map fst fs) (map (sent w) os).
Proof.
  intros e a c st o st1 fs os st' w S P R s p Pw H Po F1 F2 So. inv S.
  assert (T : ticking a p 0 ((match w with JEEDOM => t_jeedom | EMONCMS => t_emoncms | _ => t_http end)
                (tic_make_timers (u32 a) c (ts_tm st)))).
  { subst p s. destruct w; try discriminate Pw; cbn [host_of port_of freq_of] in *;
      cbn [tic_make_timers t_http t_jeedom t_emoncms].
    - apply (arm_ticking a (s_http_freq (view c)) (s_http_port (view c)) (s_http_host (view c))); auto; lia.
    - apply (arm_ticking a (s_jdom_freq (view c)) (s_jdom_port (view c)) (s_jdom_host (view c))); auto; lia.
    - apply (arm_ticking a (s_emon_freq (view c)) (s_emon_port (view c)) (s_emon_host (view c))); auto; lia. }
  apply (run_slots e a c (match w with JEEDOM => t_jeedom | EMONCMS => t_emoncms | _ => t_http end) (sent w) p ltac:(subst p; lia)) with
    (b := 0) (st := mk_ts c (ts_ns st) (tic_make_timers (u32 a) c (ts_tm st))) (st' := st'); auto; try lia.
  - intros now k t s0 ts o s' ts' Pt Q. destruct (periodic_hit e c w Pw H _ _ _ _ _ _ _ _ Pt Q) as [X Y]. split; [|exact Y].
    rewrite X, andb_true_r. auto.
Qed.
Lemma c52_sse_slots : forall e a c st o st1 fs os st',
  tic_step e (Configure (u32 a) c) st = Some (o, st1) ->
  Forall (fun f => published_ti (snd (snd f))) fs ->
  tic_run e (frames_from a fs) st1 = Some (os, st') ->
  let p := 1000 * s_sse_freq (view c) in
  0 < s_sse_freq (view c) < 65536 -> Sorted Z.le (0 :: map fst fs) -> one_per_slot p 0 (map fst fs) (map pushed os).
Proof.
  intros e a c st o st1 fs os st' S P R p F So. inv S.
  change (s_sse_freq (view c)) with (num SseFreq c) in *.
  assert (T : ticking a p 0 (t_sse (tic_make_timers (u32 a) c (ts_tm st)))).
  { subst p. cbn [tic_make_timers t_sse]. replace (num SseFreq c =? 0) with false by (symmetry; apply Z.eqb_neq; lia).
    unfold tm_reset, ticking. cbn [tm_period tm_never tm_start]. split; [lia|]. split; [apply Z.ltb_ge; lia|].
    rewrite Z.div_0_l by lia. rewrite Z.mul_0_l, Z.add_0_r. reflexivity. }
  apply (run_slots e a c t_sse pushed p ltac:(subst p; lia)) with
    (b := 0) (st := mk_ts c (ts_ns st) (tic_make_timers (u32 a) c (ts_tm st))) (st' := st'); auto; try lia.
  - intros now k t s ts o s' ts' Pt S. apply tic_notifs_spec in S; auto. destruct S as (_ & -> & -> & _). split; [|reflexivity].
    intros X. apply andb_true_iff in X. apply X.
Qed.

(** A service without host, port or period. *)
Lemma never_expires : forall now tm, tm_period tm <> 0 -> tm_never tm = true -> tm_expired now tm = (false, tm).
Proof. intros now tm P N. unfold tm_expired. rewrite N. apply Z.eqb_neq in P. rewrite P. reflexivity. Qed.
Lemma run_never : forall e c (sel : timers -> timer) (hit : list effect -> bool),
  (forall now k t s ts o s' ts', published_ti t -> tic_notifs e c now k t s ts = Some (o, s', ts') ->
     (hit o = true -> fst (tm_expired now (sel ts)) = true) /\ (sel ts' = snd (tm_expired now (sel ts)) \/ sel ts' = sel ts)) ->
  forall evs st os st', frames_published evs -> Forall (fun v => match v with Frame _ _ _ => True | _ => False end) evs -> ts_cfg st = c ->
  tm_period (sel (ts_tm st)) <> 0 -> tm_never (sel (ts_tm st)) = true -> tic_run e evs st = Some (os, st') ->
  Forall (fun o => hit o = false) os.
Proof.
  intros e c sel hit HS. induction evs as [|v evs IH]; intros st os st' P FR C T N R.
  - inv R. constructor.
  - apply run_cons in R. destruct R as (o & st1 & os' & S & R & ->). inv FR. inv P. destruct v as [n c|now k t]; [contradiction|].
    apply frame_step in S. destruct S as (n & tm & S & ->). apply HS in S; auto. destruct S as [A B].
    rewrite (never_expires now _ T N) in A, B. cbn [fst snd] in A, B. assert (B' : sel tm = sel (ts_tm st)) by (destruct B; assumption). clear B.
    constructor; [destruct (hit o); [discriminate (A eq_refl)|reflexivity]|].
    refine (IH (mk_ts (ts_cfg st) n tm) os' st' _ _ eq_refl _ _ R); auto; cbn [ts_tm]; rewrite B'; assumption.
Qed.
Lemma c52_disabled : forall e now c st o st1 evs os st' w,
  tic_step e (Configure now c) st = Some (o, st1) ->
  frames_published evs -> Forall (fun v => match v with Frame _ _ _ => True | _ => False end) evs ->
  tic_run e evs st1 = Some (os, st') ->
  periodic w = true -> host_of (view c) w = [] \/ port_of (view c) w = 0 \/ freq_of (view c) w = 0 ->
  Forall (fun o => sent w o = false) os.
Proof.
  intros e now c st o st1 evs os st' w S P FR R Pw D. inv S.
  assert (HS : forall now k t s ts o s' ts', published_ti t -> tic_notifs e c now k t s ts = Some (o, s', ts') ->
     let sel := match w with JEEDOM => t_jeedom | EMONCMS => t_emoncms | _ => t_http end in
     (sent w o = true -> fst (tm_expired now (sel ts)) = true) /\ (sel ts' = snd (tm_expired now (sel ts)) \/ sel ts' = sel ts)).
  { clear - Pw. intros now k t s ts o s' ts' Pt S sel.
    pose proof (frame_reasons _ _ _ _ _ _ _ _ _ _ Pt S) as (_ & _ & _ & SM & SJ & SE & _).
    apply tic_notifs_spec in S; auto. destruct S as (_ & -> & _).
    destruct w; try discriminate Pw; subst sel; cbv iota; cbn [t_http t_jeedom t_emoncms] in *.
    - rewrite SM. split; [intros X; apply andb_true_iff in X; apply X|destruct (has_host HHost c); auto].
    - rewrite SJ. split; [intros X; apply andb_true_iff in X; apply X|auto].
    - rewrite SE. split; [intros X; apply andb_true_iff in X; apply X|auto]. }
  assert (A : forall f port host tm, host = [] \/ port = 0 \/ f = 0 -> tm_period (arm now f port host tm) <> 0 /\ tm_never (arm now f port host tm) = true).
  { intros f port host tm [-> | [-> | ->]]; unfold arm; cbn; rewrite ?orb_true_r; split; reflexivity || discriminate. }
  refine (run_never e c (match w with JEEDOM => t_jeedom | EMONCMS => t_emoncms | _ => t_http end) (sent w) HS evs
    (mk_ts c (ts_ns st) (tic_make_timers now c (ts_tm st))) os st' P FR eq_refl _ _ R);
  (destruct w; try discriminate Pw; cbn [host_of port_of freq_of] in D; cbn [ts_tm tic_make_timers t_http t_jeedom t_emoncms]; apply A; exact D).
Qed.
