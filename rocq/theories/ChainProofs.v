(** Proofs for the whole chain. *)
From Coq Require Import ZArith List Bool Lia.
From Verif Require Import Base BaseFacts Teleinfo TeleinfoSpec Publish HistorySpec PublishProofs Config ConfigSpec ConfigProofs ConfigMain
  ConfigHist Tic TicSpec Sse Cpu Web Wifi Device WebSpec WebProofs DeviceProofs DeviceMain DeviceFinal DevicePages DeviceSafe
  DecoderProofs NotifMain NotifExact RequestProofs SlotSpec SlotProofs ChainSpec.
Import ListNotations.
Open Scope Z_scope.

(** ** Which bytes end a frame *)
Lemma fed_snoc : forall sgn tv c l p p', pub_run sgn l p = Some p' ->
  fed (p_pause p) (l ++ [Byte tv c]) = fed (p_pause p) l ++ (if p_pause p' then [] else [(tv, c)]).
Proof.
  intros sgn tv c. induction l as [|[n x|b] l IH]; intros p p' H; cbn [pub_run pub_step] in H.
  - injection H as <-. cbn [app fed]. destruct (p_pause p); reflexivity.
  - destruct (tic_decode sgn n x p) as [[p1 f]|] eqn:E; [|discriminate].
    assert (K : p_pause p1 = p_pause p).
    { unfold tic_decode in E. destruct (p_pause p) eqn:Q; [injection E as <- _; exact Q|].
      destruct (put _ _ _ _) as [d|]; [|discriminate]. destruct (ready d); [destruct (copy_from _ _ _ _); [|discriminate]|];
      injection E as <- _; reflexivity. }
    specialize (IH _ _ H). rewrite K in IH. cbn [app fed]. rewrite IH. destruct (p_pause p); reflexivity.
  - specialize (IH _ _ H). cbn [p_pause] in IH. cbn [app fed]. exact IH.
Qed.
Lemma heard_snoc : forall es e, (forall a up tv c, e <> DByte a up tv c) -> heard false (es ++ [e]) = heard false es.
Proof.
  intros es e N. generalize false as off. induction es as [|x es IH]; intros off.
  - destruct e; try reflexivity. destruct (N a up tv c eq_refl).
  - destruct x; cbn [app heard]; auto. destruct off; rewrite IH; reflexivity.
Qed.
Lemma frame_unique : forall (sgn : bool) (g : list Z) h t1 b1 t2 b2, length g = 350%nat -> Forall is_byte (map snd h) ->
  frame_ends h t1 b1 -> valid_frame b1 -> frame_ends h t2 b2 -> valid_frame b2 -> t1 = t2 /\ content b1 = content b2.
Proof.
  intros sgn g h t1 b1 t2 b2 G B F1 V1 F2 V2. destruct (decoder_exact sgn g h G B) as (d & _ & _ & _ & X).
  destruct (X _ _ F1 V1) as (T1 & R1 & E1 & S1). destruct (X _ _ F2 V2) as (T2 & R2 & E2 & S2). split; [congruence|].
  assert (firstn (length (content b1)) (content b1 ++ R1) = firstn (length (content b2)) (content b2 ++ R2)) as E by congruence.
  rewrite !firstn_app, !firstn_all, !Nat.sub_diag, !firstn_O, !app_nil_r in E. exact E.
Qed.
Lemma last_now : forall h t0 bodies r, frame_ends h t0 bodies -> valid_frame bodies -> last_valid h r ->
  exists t1 b1, r = Some (t1, b1) /\ frame_ends h t1 b1 /\ valid_frame b1.
Proof.
  intros h t0 bodies [[t1 b1]|] F V L.
  - destruct L as (h1 & h2 & -> & F1 & V1 & N). exists t1, b1. split; [reflexivity|]. split; [|exact V1].
    destruct h2 as [|x h2]; [rewrite app_nil_r; exact F1|].
    destruct (N (x :: h2) [] t0 bodies); [rewrite app_nil_r; reflexivity|discriminate|exact F|exact V].
  - destruct (L h [] t0 bodies); [rewrite app_nil_r; reflexivity|exact F|exact V].
Qed.

Section Started.
Variables (fuel : nat) (sgn : bool) (b : start) (d0 : device) (acts : list wifi_act).
Hypothesis St : start_ok b.
Hypothesis Bo : boot b = Some (d0, acts).

Lemma fresh_iff : forall es d os a up tv c p fresh, Forall is_byte (map snd (heard false (es ++ [DByte a up tv c]))) ->
  drun fuel sgn es d0 = Done (d, os) -> tic_decode sgn tv c (d_pub d) = Some (p, fresh) ->
  (fresh = true -> exists t0 gs, ends_frame es (DByte a up tv c) a t0 gs) /\
  (forall a' t0 gs, ends_frame es (DByte a up tv c) a' t0 gs ->
     fresh = true /\ a' = a /\ published_ti (p_ti p) /\ carries (p_ti p) gs /\ t_ts (p_ti p) = t0 /\ t_size (p_ti p) <> 0%nat).
Proof.
  intros es d os a up tv c p fresh B R T. destruct (boot_pub b d0 acts St Bo) as (P & _).
  destruct St as (_ & _ & _ & _ & _ & G1 & G2).
  assert (Q := drun_pub _ _ _ _ _ _ R). rewrite P in Q.
  assert (Fs := fed_snoc sgn tv c _ _ _ Q). change (p_pause (pub_init (b_g1 b) (b_g2 b))) with false in Fs.
  assert (Hs : heard false (es ++ [DByte a up tv c]) = heard false es ++ (if p_pause (d_pub d) then [] else [(tv, c)])).
  { rewrite <- !fed_heard, flat_map_app. exact Fs. }
  assert (Q2 : pub_run sgn (flat_map as_pub es ++ [Byte tv c]) (pub_init (b_g1 b) (b_g2 b)) = Some p).
  { rewrite pub_run_app, Q. cbn [pub_run pub_step]. rewrite T. reflexivity. }
  assert (B2 : Forall is_byte (map snd (fed false (flat_map as_pub es ++ [Byte tv c])))).
  { rewrite Fs, fed_heard, <- Hs. exact B. }
  destruct (pub_groups sgn _ _ _ _ G1 G2 B2 Q2) as (PT & r & L & Gr).
  assert (HF : fed false (flat_map as_pub es ++ [Byte tv c]) = heard false (es ++ [DByte a up tv c])).
  { rewrite Fs, Hs, fed_heard. reflexivity. }
  rewrite HF in L.
  unfold tic_decode in T. destruct (p_pause (d_pub d)) eqn:Pa.
  - injection T as <- <-. split; [discriminate|]. intros a' t0 gs (up' & tv' & c' & bodies & E & H & _). exfalso.
    rewrite Hs, app_nil_r in H. apply (f_equal (@length event)) in H. unfold event in *. rewrite app_length in H. cbn in H. lia.
  - destruct (put sgn tv c (p_dec (d_pub d))) as [dd|] eqn:Pu; [|discriminate].
    assert (Rd : run sgn (heard false (es ++ [DByte a up tv c])) (dec_init (b_g1 b)) = Some dd).
    { destruct (pub_run_inv sgn (b_g1 b) (flat_map as_pub es) [] (pub_init (b_g1 b) (b_g2 b)) G1) as (p1 & R1 & (I1 & _)).
      - cbn [app]. change (p_pause (pub_init (b_g1 b) (b_g2 b))) with false. rewrite fed_heard.
        rewrite Hs, map_app in B. apply Forall_app in B. apply B.
      - apply pub_init_inv; auto.
      - rewrite Q in R1. injection R1 as <-. cbn [app] in I1. change (p_pause (pub_init (b_g1 b) (b_g2 b))) with false in I1. rewrite fed_heard in I1.
        rewrite Hs, (DecoderProofs.run_app _ _ _ _ _ I1). cbn [run]. rewrite Pu. reflexivity. }
    destruct (decoder_exact sgn (b_g1 b) _ G1 B) as (d1 & Rd1 & _ & Iff & _). rewrite Rd in Rd1. injection Rd1 as <-.
    assert (Fr : fresh = ready dd). { destruct (ready dd); [destruct (copy_from _ _ _ _); [|discriminate]|]; injection T as _ <-; reflexivity. }
    rewrite Fr. split.
    + intros Y. apply Iff in Y. destruct Y as (t0 & bodies & F & V). exists t0, (pairs_of (content bodies)), up, tv, c, bodies. auto 10.
    + intros a' t0 gs (up' & tv' & c' & bodies & E & H & F & V & ->). injection E as <- <- <- <-.
      split; [apply Iff; eauto|]. split; [reflexivity|]. split; [exact PT|].
      destruct (last_now _ _ _ _ F V L) as (t1 & b1 & -> & F1 & V1). destruct Gr as (Sz & Ca & Ts & _).
      destruct (frame_unique sgn _ _ _ _ _ _ G1 B F V F1 V1) as (-> & ->). split; [exact Ca|]. split; [exact Ts|].
      rewrite Sz. apply content_pos. apply V1.
Qed.

Lemma frames_exist : forall past es d os, Forall is_byte (map snd (heard false (past ++ es))) ->
  drun fuel sgn (past ++ es) d0 = Done (d, os) -> exists ms, frames fuel sgn d0 past es ms.
Proof.
  intros past es. induction es as [|e es IH] using rev_ind; intros d os B R; [exists []; constructor|].
  rewrite app_assoc in B, R. destruct (drun_snoc _ _ _ _ _ _ _ R) as (d1 & os1 & o & R1 & R2 & ->).
  assert (B1 : Forall is_byte (map snd (heard false (past ++ es)))).
  { destruct (boot_pub b d0 acts St Bo) as (P & _). assert (Q := drun_pub _ _ _ _ _ _ R1). rewrite P in Q.
    destruct e; try (rewrite heard_snoc in B by discriminate; exact B).
    assert (Fs := fed_snoc sgn tv c _ _ _ Q). change (p_pause (pub_init (b_g1 b) (b_g2 b))) with false in Fs.
    rewrite <- fed_heard, flat_map_app in B. cbn [flat_map as_pub app] in B. rewrite Fs, map_app in B. apply Forall_app in B.
    rewrite <- fed_heard. apply B. }
  destruct (IH _ _ B1 R1) as (ms & F).
  assert (N : (forall a up tv c, e <> DByte a up tv c) -> frames fuel sgn d0 past (es ++ [e]) ms).
  { intros N. apply another; [exact F|]. intros a t0 gs (up & tv & c & bodies & -> & _). exact (N _ _ _ _ eq_refl). }
  destruct e; try (exists ms; apply N; discriminate). clear N.
  cbn [dstep] in R2. destruct (receive sgn a up tv c d1) as [[d2 o2]|] eqn:E; [|discriminate]. cbn [lift] in R2. injection R2 as <- <-.
  destruct (receive_keeps _ _ _ _ _ _ _ _ E) as ((fresh & T) & _).
  destruct (fresh_iff _ _ _ a up tv c _ _ B R1 T) as (Yes & No). destruct fresh.
  - destruct (Yes eq_refl) as (t0 & gs & Ef). eexists. eapply a_frame; [exact F|exact R1|cbn [dstep]; rewrite E; reflexivity|exact Ef].
  - exists ms. apply another; [exact F|]. intros a' t0 gs Ef. destruct (No _ _ _ Ef) as (X & _). discriminate.
Qed.
End Started.

(** ** From the events of the module to those of the notifications *)
Definition as_sent (x : effect) : list (reason * request) := match x with Request w r => [(w, r)] | SseData _ => [] end.
Inductive story : settings -> list tevent -> list (list effect) -> list moment -> Prop :=
| story_nil : forall s, story s [] [] []
| story_conf : forall s now c evs tos ms, story (view c) evs tos ms -> story s (Configure now c :: evs) ([] :: tos) ms
| story_frame : forall s k t o m evs tos ms, m_set m = s -> carries t (m_groups m) -> t_ts t = m_date m -> t_size t <> 0%nat ->
    published_ti t -> requests (m_out m) = flat_map as_sent o -> story s evs tos ms ->
    story s (Frame (m_now m) k t :: evs) (o :: tos) (m :: ms).
Lemma settings_app : forall e1 e2 s, settings_after s (e1 ++ e2) = settings_after (settings_after s e1) e2.
Proof. induction e1 as [|[n c|n k t] e1 IH]; intros e2 s; cbn [app settings_after]; auto. Qed.
Lemma story_app : forall s e1 t1 m1 e2 t2 m2, story s e1 t1 m1 -> story (settings_after s e1) e2 t2 m2 -> story s (e1 ++ e2) (t1 ++ t2) (m1 ++ m2).
Proof.
  intros s e1 t1 m1 e2 t2 m2 H. revert e2 t2 m2. induction H; intros e2 t2 m2 K; cbn [app settings_after] in *; auto.
  - constructor. auto.
  - constructor; auto.
Qed.
Lemma story_published : forall s evs tos ms, story s evs tos ms -> frames_published evs.
Proof. induction 1; constructor; auto. Qed.
Lemma tic_run_app : forall e e1 e2 s t1 s1, tic_run e e1 s = Some (t1, s1) ->
  tic_run e (e1 ++ e2) s = match tic_run e e2 s1 with Some (t2, s2) => Some (t1 ++ t2, s2) | None => None end.
Proof.
  intros e. induction e1 as [|x e1 IH]; intros e2 s t1 s1 H; cbn [tic_run app] in *.
  - injection H as <- <-. destruct (tic_run e e2 s) as [[t2 s2]|]; reflexivity.
  - destruct (tic_step e x s) as [[o sa]|]; [|discriminate]. destruct (tic_run e e1 sa) as [[t2 s2]|] eqn:E; [|discriminate].
    injection H as <- <-. rewrite (IH e2 _ _ _ E). destruct (tic_run e e2 s2) as [[t3 s3]|]; reflexivity.
Qed.

Lemma effects_sent : forall up es d d' os, effects_out up es d = Some (d', os) -> requests os = flat_map as_sent es.
Proof.
  intros up. induction es as [|x es IH]; intros d d' os H; cbn [effects_out] in H; [injection H as <- <-; reflexivity|].
  destruct (effect_out up x d) as [[d1 o1]|] eqn:E; [|discriminate].
  destruct (effects_out up es d1) as [[d2 o2]|] eqn:E2; [|discriminate]. injection H as <- <-. cbn [flat_map]. rewrite <- (IH _ _ _ E2).
  unfold requests at 1. rewrite flat_map_app. f_equal. destruct x; cbn [effect_out] in E.
  - injection E as <- <-. reflexivity.
  - destruct (handle_clients up (Some d0) (d_sse d)) as [[s o]|]; [|discriminate]. injection E as <- <-. clear.
    induction o as [|y o IH]; [reflexivity|exact IH].
Qed.
Lemma requests_none : forall o, (forall w r, ~ In (Sent w r) o) -> requests o = [].
Proof.
  induction o as [|x o IH]; intros N; [reflexivity|]. unfold requests in *. cbn [flat_map]. rewrite IH by (intros w r I; apply (N w r); right; exact I).
  destruct x; try reflexivity. destruct (N why r). left. reflexivity.
Qed.

(** What an event that is not a byte does to the settings and to the timers *)
Definition ts_of (d : device) : tstate := mk_ts (cfg_of d) (d_ns d) (d_tm d).
Lemma other_step : forall fuel sgn e d d' o, dstep fuel sgn e d = Done (d', o) -> (forall a up tv c, e <> DByte a up tv c) -> ~ In RestartNow o ->
  requests o = [] /\ (ts_of d' = ts_of d \/ ~ no_form e /\ exists now, ts_of d' = mk_ts (cfg_of d') (d_ns d) (tic_make_timers now (cfg_of d') (d_tm d))).
Proof.
  intros fuel sgn e d d' o H N NR. destruct e; cbn [dstep] in H.
  - destruct (cpuload_loop _ _); [|discriminate]. cbn [lift] in H. injection H as <- <-. split; [reflexivity|]. left. reflexivity.
  - destruct (N a up tv c eq_refl).
  - split; [apply requests_none; apply (handle_restart _ _ _ _ _ _ H)|].
    apply handle_happened in H. destruct H as [-> _|_ _ -> _|r s code U G F -> _|s U G F -> ->]; [left; reflexivity|left; reflexivity| |].
    + right. split; [intros X; exact (X U)|]. exists (a_now a). reflexivity.
    + exfalso. apply NR. right. right. left. reflexivity.
  - injection H as H. destruct u as [name len [|] ended|data [|] ended|ended|ended]; cbn in H; injection H as <- <-; (split; [reflexivity|left; reflexivity]).
  - destruct (handle_clients up None (d_sse d)) as [[s o']|]; [|discriminate]. cbn [lift] in H. injection H as <- <-.
    split; [|left; reflexivity]. clear. induction o' as [|x o IH]; [reflexivity|exact IH].
Qed.

Section Chain.
Variables (fuel : nat) (sgn : bool) (b : start) (d0 : device) (acts : list wifi_act) (en : env).
Hypothesis St : start_ok b.
Hypothesis Bo : boot b = Some (d0, acts).

Lemma chain : forall past es ms dp osp d os, Forall is_byte (map snd (heard false (past ++ es))) -> Forall (same_env en) es ->
  drun fuel sgn past d0 = Done (dp, osp) -> drun fuel sgn (past ++ es) d0 = Done (d, os) -> ~ In RestartNow (concat os) ->
  frames fuel sgn d0 past es ms ->
  exists evs tos, story (view (cfg_of dp)) evs tos ms /\ tic_run en evs (ts_of dp) = Some (tos, ts_of d) /\
    settings_after (view (cfg_of dp)) evs = view (cfg_of d) /\
    requests (concat os) = requests (concat osp) ++ flat_map (fun m => requests (m_out m)) ms /\
    (Forall no_form es -> Forall (fun v => match v with Frame _ _ _ => True | _ => False end) evs) /\
    (Forall devent_ok (past ++ es) -> Forall (fun v => match v with Configure _ c => terminated c | _ => True end) evs).
Proof.
  intros past es ms dp osp d os B SE Rp R NR F. revert d os B SE R NR. induction F as [|es ms e d1 os1 d1' o1 a t0 gs F IH Rd Sd Ef|es ms e F IH Ne];
    intros d os B SE R NR.
  - rewrite app_nil_r in R. assert (dp = d /\ osp = os) as (<- & <-) by (split; congruence). exists [], [].
    split; [constructor|]. split; [reflexivity|]. split; [reflexivity|]. split; [cbn; rewrite app_nil_r; reflexivity|split; constructor].
  - rewrite app_assoc in B, R. destruct (drun_snoc _ _ _ _ _ _ _ R) as (d2 & os2 & o & R1 & R2 & ->).
    rewrite Rd in R1. assert (d1 = d2 /\ os1 = os2) as (<- & <-) by (split; congruence). clear R1.
    rewrite Sd in R2. assert (d1' = d /\ o1 = o) as (<- & <-) by (split; congruence). clear R2.
    rewrite concat_app in NR. cbn [concat] in NR. rewrite app_nil_r in NR.
    apply Forall_app in SE. destruct SE as (SE1 & SE2). apply Forall_inv in SE2.
    assert (Ef' := Ef). destruct Ef' as (up & tv & c & bodies & -> & Hh & _).
    assert (B1 : Forall is_byte (map snd (heard false (past ++ es)))). { rewrite Hh, map_app in B. apply Forall_app in B. apply B. }
    destruct (IH _ _ B1 SE1 Rd) as (evs & tos & S1 & T1 & Se & Rq & Nf & Tf). { intros I. apply NR. apply in_or_app. left. exact I. }
    cbn [dstep] in Sd. destruct (receive sgn a up tv c d1) as [[d2 o2]|] eqn:E; [|discriminate]. cbn [lift] in Sd. injection Sd as -> ->.
    destruct (receive_keeps _ _ _ _ _ _ _ _ E) as ((fresh & T) & Cs & _). unfold receive in E. rewrite T in E.
    destruct (fresh_iff fuel sgn b d0 acts St Bo _ _ _ a up tv c _ _ B Rd T) as (_ & Y).
    destruct (Y _ _ _ Ef) as (-> & _ & PT & Ca & Ts & Sz). cbn [same_env] in SE2. rewrite SE2 in E.
    destruct (tic_notifs en (cfg_of d1) (a_now a) (length (sse_list (d_sse d1))) (p_ti (d_pub d1')) (d_ns d1) (d_tm d1)) as [[[es' n] t]|] eqn:TN; [|discriminate].
    assert (Q := effects_sent _ _ _ _ _ E). destruct (effects_keep _ _ _ _ _ E) as (_ & Kc & _ & Kn & Kt). cbn [d_cs d_ns d_tm] in Kc, Kn, Kt.
    exists (evs ++ [Frame (a_now a) (length (sse_list (d_sse d1))) (p_ti (d_pub d1'))]), (tos ++ [es']).
    split; [|split; [|split; [|split; [|split]]]].
    + apply story_app; [exact S1|]. rewrite Se.
      apply (story_frame _ _ _ _ (mk_moment (view (cfg_of d1)) (a_now a) t0 gs o1)); [reflexivity|exact Ca|exact Ts|exact Sz|exact PT|exact Q|constructor].
    + rewrite (tic_run_app _ _ _ _ _ _ T1). cbn [tic_run tic_step ts_of ts_cfg ts_ns ts_tm]. rewrite TN. unfold ts_of, cfg_of. rewrite Kc, Kn, Kt. reflexivity.
    + rewrite settings_app, Se. cbn [settings_after]. unfold cfg_of. rewrite Kc. reflexivity.
    + rewrite concat_app. cbn [concat]. rewrite app_nil_r. unfold requests at 1. rewrite flat_map_app. fold (requests (concat os1)). fold (requests o1).
      rewrite Rq, flat_map_app, app_assoc. cbn [flat_map m_out]. rewrite app_nil_r. reflexivity.
    + intros N. apply Forall_app in N. apply Forall_app. split; [apply Nf; apply N|constructor; [exact Logic.I|constructor]].
    + intros N. rewrite app_assoc in N. apply Forall_app in N. apply Forall_app. split; [apply Tf; apply N|constructor; [exact Logic.I|constructor]].
  - rewrite app_assoc in B, R. destruct (drun_snoc _ _ _ _ _ _ _ R) as (d2 & os2 & o & R1 & R2 & ->).
    rewrite concat_app in NR. cbn [concat] in NR. rewrite app_nil_r in NR.
    apply Forall_app in SE. destruct SE as (SE1 & SE2). apply Forall_inv in SE2.
    assert (K : Forall is_byte (map snd (heard false (past ++ es))) /\ requests o = [] /\
      (ts_of d = ts_of d2 \/ ~ no_form e /\ exists now, ts_of d = mk_ts (cfg_of d) (d_ns d2) (tic_make_timers now (cfg_of d) (d_tm d2)))).
    { assert (W : (forall a up tv c, e <> DByte a up tv c) -> Forall is_byte (map snd (heard false (past ++ es))) /\ requests o = [] /\
        (ts_of d = ts_of d2 \/ ~ no_form e /\ exists now, ts_of d = mk_ts (cfg_of d) (d_ns d2) (tic_make_timers now (cfg_of d) (d_tm d2)))).
      { intros N. rewrite (heard_snoc _ _ N) in B. split; [exact B|]. apply (other_step _ _ _ _ _ _ R2 N).
        intros I. apply NR. apply in_or_app. right. exact I. }
      destruct e; try (apply W; discriminate). clear W. cbn [dstep] in R2.
      destruct (receive sgn a up tv c d2) as [[d3 o3]|] eqn:E; [|discriminate]. cbn [lift] in R2. injection R2 as -> ->.
      destruct (receive_keeps _ _ _ _ _ _ _ _ E) as ((fresh & T) & Cs & _). unfold receive in E. rewrite T in E.
      destruct (fresh_iff fuel sgn b d0 acts St Bo _ _ _ a up tv c _ _ B R1 T) as (Y & _).
      destruct fresh; [destruct (Y eq_refl) as (t0 & gs & Ef); destruct (Ne _ _ _ Ef)|]. injection E as <- <-.
      split; [|split; [reflexivity|left; reflexivity]].
      destruct (boot_pub b d0 acts St Bo) as (P & _). assert (Q := drun_pub _ _ _ _ _ _ R1). rewrite P in Q.
      assert (Fs := fed_snoc sgn tv c _ _ _ Q). change (p_pause (pub_init (b_g1 b) (b_g2 b))) with false in Fs.
      rewrite <- fed_heard, flat_map_app in B. cbn [flat_map as_pub app] in B. rewrite Fs, map_app in B. apply Forall_app in B.
      rewrite <- fed_heard. apply B. }
    destruct K as (B1 & Q & K). destruct (IH _ _ B1 SE1 R1) as (evs & tos & S1 & T1 & Se & Rq & Nf & Tf). { intros I. apply NR. apply in_or_app. left. exact I. }
    assert (Z1 : requests (concat (os2 ++ [o])) = requests (concat osp) ++ flat_map (fun m => requests (m_out m)) ms).
    { rewrite concat_app. cbn [concat]. rewrite app_nil_r. unfold requests at 1. rewrite flat_map_app. fold (requests (concat os2)). fold (requests o).
      rewrite Rq, Q, app_nil_r. reflexivity. }
    destruct K as [K|(Nn & now & K)].
    + exists evs, tos. rewrite K. split; [exact S1|]. split; [exact T1|]. split; [|split; [exact Z1|split; [intros N; apply Forall_app in N; apply Nf; apply N|]]].
      * rewrite Se. unfold ts_of in K. injection K as -> _ _. reflexivity.
      * intros N. rewrite app_assoc in N. apply Forall_app in N. apply Tf. apply N.
    + exists (evs ++ [Configure now (cfg_of d)]), (tos ++ [[]]). split; [|split; [|split; [|split; [exact Z1|split]]]].
      * rewrite <- (app_nil_r ms). apply story_app; [exact S1|]. constructor. constructor.
      * rewrite (tic_run_app _ _ _ _ _ _ T1). cbn [tic_run tic_step ts_of ts_cfg ts_ns ts_tm]. rewrite K. reflexivity.
      * rewrite settings_app. reflexivity.
      * intros N. apply Forall_app in N. destruct N as (_ & N). apply Forall_inv in N. destruct (Nn N).
      * intros N. rewrite app_assoc in N. assert (N' := N). apply Forall_app in N'. apply Forall_app. split; [apply Tf; apply N'|].
        constructor; [|constructor]. destruct (boot_pub b d0 acts St Bo) as (_ & _ & _ & Rb).
        assert (Rd := drun_reachable _ _ _ _ _ _ R N Rb). apply reachable_inv in Rd. apply Rd.
Qed.
End Chain.
