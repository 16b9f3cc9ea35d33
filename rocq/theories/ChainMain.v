(** The notifications of the whole module. *)
From Coq Require Import String ZArith List Bool Lia Sorted.
From Verif Require Import Base BaseFacts Teleinfo TeleinfoSpec Publish HistorySpec PublishProofs Config ConfigSpec ConfigProofs ConfigMain Json
  ConfigHist Tic TicSpec Sse Cpu Web Wifi Device WebSpec WebProofs DeviceProofs DeviceMain DeviceFinal DevicePages DeviceSafe
  DecoderProofs NotifMain NotifExact RequestProofs SlotSpec SlotProofs ChainSpec ChainProofs.
Import ListNotations.
Open Scope list_scope.
Open Scope Z_scope.

Lemma sends_sent : forall m o w, requests (m_out m) = flat_map as_sent o -> sends w m = sent w o.
Proof.
  intros m o w H. unfold sends, sent. rewrite H. clear. induction o as [|x o IH]; [reflexivity|].
  destruct x; cbn [flat_map as_sent reasons app existsb fst]; [|exact IH]. unfold reasons in *. cbn [flat_map app existsb]. rewrite IH. reflexivity.
Qed.
Lemma reasons_sent : forall o, reasons o = map fst (flat_map as_sent o).
Proof. induction o as [|x o IH]; [reflexivity|]. destruct x; unfold reasons in *; cbn [flat_map as_sent app map fst]; rewrite IH; reflexivity. Qed.
Lemma value_lookup : forall t gs l, carries t gs -> value_in t l = lookup (str l) gs.
Proof. intros t gs l C. unfold value_in. rewrite C. reflexivity. Qed.

Lemma story_changes : forall s evs tos ms, story s evs tos ms -> forall last,
  map (sent PTEC) tos = changes_7 last (seen s_ptec (fun _ t => value_in t "PTEC") s evs) ->
  map (sends PTEC) ms = changes_7 last (map (watched s_ptec (lookup (str "PTEC"))) ms).
Proof.
  induction 1 as [s|s now c evs tos ms H IH|s k t o m evs tos ms E C T Z P Q H IH]; intros last X; cbn [map seen] in *.
  - reflexivity.
  - cbn [changes_7] in X. injection X as X. auto.
  - rewrite (sends_sent _ _ PTEC Q). unfold watched at 1. rewrite E, <- (value_lookup _ _ "PTEC"%string C).
    destruct (negb (Nat.eqb (length (s_http_host s)) 0) && s_ptec s); [|cbn [changes_7] in *; injection X as -> X; f_equal; auto].
    destruct (value_in t "PTEC") as [v|]; [|cbn [changes_7] in *; injection X as -> X; f_equal; auto].
    cbn [changes_7] in *. destruct last; [injection X as -> X; f_equal; auto|]. destruct v; injection X as -> X; f_equal; auto.
Qed.
Lemma story_edges : forall s evs tos ms, story s evs tos ms -> forall before,
  map (fun o => (sent ADPS o, sent NORM o)) tos =
    edges before (seen s_adps (fun _ t => match value_in t "ADPS" with Some _ => true | None => false end) s evs) ->
  map (fun m => (sends ADPS m, sends NORM m)) ms =
    edges before (map (watched s_adps (fun gs => match lookup (str "ADPS") gs with Some _ => true | None => false end)) ms).
Proof.
  induction 1 as [s|s now c evs tos ms H IH|s k t o m evs tos ms E C T Z P Q H IH]; intros last X; cbn [map seen] in *.
  - reflexivity.
  - cbn [edges] in X. injection X as X. auto.
  - rewrite (sends_sent _ _ ADPS Q), (sends_sent _ _ NORM Q). unfold watched at 1. rewrite E, <- (value_lookup _ _ "ADPS"%string C).
    destruct (negb (Nat.eqb (length (s_http_host s)) 0) && s_adps s); cbn [edges] in *; injection X as -> -> X; f_equal; auto.
Qed.
Lemma story_split : forall ms1 m ms2 s evs tos, story s evs tos (ms1 ++ m :: ms2) ->
  exists e1 t1 k t o e2 t2, evs = e1 ++ Frame (m_now m) k t :: e2 /\ tos = t1 ++ o :: t2 /\ length t1 = length e1 /\ story s e1 t1 ms1 /\
    settings_after s e1 = m_set m /\ carries t (m_groups m) /\ t_ts t = m_date m /\ t_size t <> 0%nat /\ published_ti t /\
    requests (m_out m) = flat_map as_sent o.
Proof.
  intros ms1 m ms2 s evs tos H. remember (ms1 ++ m :: ms2) as ms eqn:Em. revert ms1 Em.
  induction H as [s|s now c evs tos ms H IH|s k t o m' evs tos ms E C T Z P Q H IH]; intros ms1 Em.
  - destruct ms1; discriminate.
  - destruct (IH ms1 Em) as (e1 & t1 & k & t & o & e2 & t2 & -> & -> & L & S1 & Se & R).
    exists (Configure now c :: e1), ([] :: t1), k, t, o, e2, t2. split; [reflexivity|]. split; [reflexivity|]. split; [cbn; rewrite L; reflexivity|]. split; [constructor; exact S1|]. split; [exact Se|exact R].
  - destruct ms1 as [|x ms1]; cbn [app] in Em; injection Em as -> Em.
    + exists [], [], k, t, o, evs, tos. split; [reflexivity|]. split; [reflexivity|]. split; [reflexivity|]. split; [constructor|]. split; [symmetry; exact E|]. auto.
    + destruct (IH ms1 Em) as (e1 & t1 & k' & t' & o' & e2 & t2 & -> & -> & L & S1 & Se & R).
      exists (Frame (m_now x) k t :: e1), (o :: t1), k', t', o', e2, t2. split; [reflexivity|]. split; [reflexivity|].
      split; [cbn; rewrite L; reflexivity|]. split; [constructor; auto|]. split; [exact Se|exact R].
Qed.
Lemma tic_run_split : forall e e1 ev e2 s t1 o t2 st, length t1 = length e1 -> tic_run e (e1 ++ ev :: e2) s = Some (t1 ++ o :: t2, st) ->
  exists s1 s2, tic_run e e1 s = Some (t1, s1) /\ tic_step e ev s1 = Some (o, s2).
Proof.
  intros e. induction e1 as [|x e1 IH]; intros ev e2 s t1 o t2 st L H; destruct t1 as [|y t1]; try discriminate; cbn [app tic_run] in H.
  - destruct (tic_step e ev s) as [[o' s2]|] eqn:E; [|discriminate]. destruct (tic_run e e2 s2) as [[o2 s3]|]; [|discriminate].
    injection H as -> _ _. exists s, s2. split; [reflexivity|exact E].
  - destruct (tic_step e x s) as [[o' s2]|] eqn:E; [|discriminate].
    destruct (tic_run e (e1 ++ ev :: e2) s2) as [[o2 s3]|] eqn:E2; [|discriminate].
    injection H as -> -> <-. injection L as L. destruct (IH _ _ _ _ _ _ _ L E2) as (s4 & s5 & A & B).
    exists s4, s5. split; [cbn [tic_run]; rewrite E, A; reflexivity|exact B].
Qed.
Lemma story_thresholds : forall s evs tos ms, story s evs tos ms -> last_threshold (concat tos) = last_crossing ms.
Proof.
  intros s evs tos ms H. unfold last_threshold, last_crossing, thresholds. do 2 f_equal.
  enough (reasons (concat tos) = map fst (flat_map (fun m => requests (m_out m)) ms)) as -> by reflexivity.
  induction H as [s|s now c evs tos ms H IH|s k t o m evs tos ms E C T Z P Q H IH]; [reflexivity|exact IH|].
  cbn [concat flat_map]. unfold reasons in *. rewrite flat_map_app, map_app, IH. f_equal. rewrite Q. apply reasons_sent.
Qed.

Section Main.
Variables (fuel : nat) (sgn : bool) (b : start) (d0 : device) (acts : list wifi_act) (en : env).
Variables (es : list devent) (d : device) (os : list (list out)) (ms : list moment).
Hypothesis St : start_ok b.
Hypothesis Bo : boot b = Some (d0, acts).
Hypothesis By : Forall is_byte (map snd (heard false es)).
Hypothesis En : Forall (same_env en) es.
Hypothesis Ru : drun fuel sgn es d0 = Done (d, os).
Hypothesis NR : ~ In RestartNow (concat os).
Hypothesis Fr : frames fuel sgn d0 [] es ms.

Lemma booted : ts_of d0 = tic_start (b_now b) (cfg_of d0).
Proof.
  unfold boot in Bo. destruct (config_setup _ _ _ _ _) as [s|]; [|discriminate].
  destruct (sys_wifi_connect _ _ _ _ _) as [[[s' ac] w]|]; [|discriminate]. injection Bo as <- _. reflexivity.
Qed.
Lemma from_start : exists evs tos, story (view (cfg_of d0)) evs tos ms /\
  tic_run en evs (tic_start (b_now b) (cfg_of d0)) = Some (tos, ts_of d) /\ frames_published evs /\
  requests (concat os) = flat_map (fun m => requests (m_out m)) ms /\
  (Forall devent_ok es -> Forall (fun v => match v with Configure _ c => terminated c | _ => True end) evs).
Proof.
  destruct (chain fuel sgn b d0 acts en St Bo [] es ms d0 [] d os By En eq_refl Ru NR Fr) as (evs & tos & S & T & _ & Q & _ & Tf).
  rewrite booted in T. exists evs, tos. split; [exact S|]. split; [exact T|]. split; [exact (story_published _ _ _ _ S)|split; [exact Q|exact Tf]].
Qed.
Lemma c99_only : requests (concat os) = flat_map (fun m => requests (m_out m)) ms.
Proof. destruct from_start as (evs & tos & _ & _ & _ & Q & _). exact Q. Qed.
Lemma c99_tariff : map (sends PTEC) ms = changes_7 None (map (watched s_ptec (lookup (str "PTEC"))) ms).
Proof.
  destruct from_start as (evs & tos & S & T & P & _). apply (story_changes _ _ _ _ S). exact (c14_exact _ _ _ _ _ _ P T).
Qed.
Lemma c99_overload : map (fun m => (sends ADPS m, sends NORM m)) ms =
  edges false (map (watched s_adps (fun gs => match lookup (str "ADPS") gs with Some _ => true | None => false end)) ms).
Proof.
  destruct from_start as (evs & tos & S & T & P & _). apply (story_edges _ _ _ _ S). exact (c16 _ _ _ _ _ _ P T).
Qed.
Lemma at_frame : forall ms1 m ms2, ms = ms1 ++ m :: ms2 -> exists e1 t1 s1 k t o s2,
  story (view (cfg_of d0)) e1 t1 ms1 /\ frames_published e1 /\ published_ti t /\ carries t (m_groups m) /\ t_ts t = m_date m /\ t_size t <> 0%nat /\
  tic_run en e1 (tic_start (b_now b) (cfg_of d0)) = Some (t1, s1) /\ tic_step en (Frame (m_now m) k t) s1 = Some (o, s2) /\
  settings_after (view (cfg_of d0)) e1 = m_set m /\ requests (m_out m) = flat_map as_sent o /\
  (Forall devent_ok es -> Forall (fun v => match v with Configure _ c => terminated c | _ => True end) e1).
Proof.
  intros ms1 m ms2 E. destruct from_start as (evs & tos & S & T & P & _ & Tf). rewrite E in S.
  destruct (story_split _ _ _ _ _ _ S) as (e1 & t1 & k & t & o & e2 & t2 & -> & -> & L & S1 & Se & C & Ts & Sz & Pt & Q).
  destruct (tic_run_split _ _ _ _ _ _ _ _ _ L T) as (s1 & s2 & T1 & T2). exists e1, t1, s1, k, t, o, s2.
  split; [exact S1|]. split; [exact (story_published _ _ _ _ S1)|]. do 8 (split; [assumption|]). intros K. apply Tf in K. apply Forall_app in K. apply K.
Qed.
Lemma c99_thresholds : forall ms1 m ms2, ms = ms1 ++ m :: ms2 ->
  let on := s_http_host (m_set m) <> [] /\ s_seuils (m_set m) = true /\ power (m_groups m) <> 0 in
  (sends HAUT m = true <-> on /\ s_seuil_haut (m_set m) <= power (m_groups m) /\ last_crossing ms1 <> Some HAUT) /\
  (sends BAS m = true <-> on /\ power (m_groups m) <= s_seuil_bas (m_set m) /\ last_crossing ms1 = Some HAUT).
Proof.
  intros ms1 m ms2 E. destruct (at_frame _ _ _ E) as (e1 & t1 & s1 & k & t & o & s2 & S1 & P1 & Pt & C & Ts & Sz & T1 & T2 & Se & Q & Tf).
  assert (X := c15 _ _ _ _ _ _ _ _ _ _ _ P1 Pt T1 T2). rewrite Se in X. cbv zeta in X.
  assert (Pw : papp t = power (m_groups m)). { unfold papp, power. rewrite (value_lookup _ _ "PAPP"%string C). reflexivity. }
  rewrite Pw, (story_thresholds _ _ _ _ S1) in X. rewrite (sends_sent _ _ HAUT Q), (sends_sent _ _ BAS Q). exact X.
Qed.
Lemma in_request : forall w r o, In (w, r) (flat_map as_sent o) <-> In (Request w r) o.
Proof.
  intros w r. induction o as [|x o IH]; [reflexivity|]. cbn [flat_map]. rewrite in_app_iff, IH. destruct x; cbn [as_sent In].
  - split; intros [H|H]; auto; left; [destruct H as [H|[]]; injection H as -> ->; reflexivity|injection H as -> ->; left; reflexivity].
  - split; intros [H|H]; auto; [destruct H|discriminate].
Qed.
Lemma c99_requests : forall m, In m ms ->
  increasing (map rank (map fst (requests (m_out m)))) /\
  forall w r, In (w, r) (requests (m_out m)) ->
    let s := m_set m in
    host_of s w <> [] /\ r_host r = host_of s w /\ r_port r = port_of s w /\ trigger_of s w = true /\
    (periodic w = true -> port_of s w <> 0 /\ freq_of s w <> 0).
Proof.
  intros m I. apply in_split in I. destruct I as (ms1 & ms2 & E).
  destruct (at_frame _ _ _ E) as (e1 & t1 & s1 & k & t & o & s2 & S1 & P1 & Pt & C & Ts & Sz & T1 & T2 & Se & Q & Tf).
  destruct (c19 _ _ _ _ _ _ _ _ _ _ _ P1 Pt T1 T2) as (A & B). rewrite Se in B. cbv zeta in B. split.
  - rewrite Q, <- reasons_sent. exact A.
  - intros w r J. rewrite Q in J. apply in_request in J. exact (B _ _ J).
Qed.
Lemma c99_jeedom : forall m r, In m ms -> In (JEEDOM, r) (requests (m_out m)) -> let s := m_set m in
  r_data r = None /\
  r_url r = (if Nat.eqb (length (s_jdom_url s)) 0 then str "/" else s_jdom_url s) ++ str "?api=" ++ s_jdom_key s ++
            concat (map (jeedom_text (s_jdom_adco s)) (m_groups m)).
Proof.
  intros m r I J. apply in_split in I. destruct I as (ms1 & ms2 & E).
  destruct (at_frame _ _ _ E) as (e1 & t1 & s1 & k & t & o & s2 & S1 & P1 & Pt & C & Ts & Sz & T1 & T2 & Se & Q & Tf).
  rewrite Q in J. apply in_request in J. assert (X := c20_request _ _ _ _ _ _ _ _ _ _ _ _ _ P1 Pt T1 T2 C J). rewrite Se in X. exact X.
Qed.
Lemma c99_emoncms : forall m r, In m ms -> In (EMONCMS, r) (requests (m_out m)) -> let s := m_set m in
  r_data r = None /\
  r_url r = (if Nat.eqb (length (s_emon_url s)) 0 then str "/" else s_emon_url s) ++ str "?" ++
            (if 0 <? s_emon_node s then str "node=" ++ dec (s_emon_node s) ++ str "&" else []) ++
            str "apikey=" ++ s_emon_key s ++ str "&json=" ++ emon_payload (m_groups m).
Proof.
  intros m r I J. apply in_split in I. destruct I as (ms1 & ms2 & E).
  destruct (at_frame _ _ _ E) as (e1 & t1 & s1 & k & t & o & s2 & S1 & P1 & Pt & C & Ts & Sz & T1 & T2 & Se & Q & Tf).
  rewrite Q in J. apply in_request in J. assert (X := c21_request _ _ _ _ _ _ _ _ _ _ _ _ _ P1 Pt T1 T2 C J). rewrite Se in X. exact X.
Qed.
Lemma c99_http : Forall devent_ok es -> forall m w r ps, In m ms -> In (w, r) (requests (m_out m)) -> w <> JEEDOM -> w <> EMONCMS ->
  let s := m_set m in let gs := m_groups m in
  s_http_url s = concat (map written ps) -> Forall piece_ok ps -> separated ps ->
  r_url r = concat (map (meaning en (m_date m) gs (reason_text w)) ps) /\
  (s_use_post s = false -> r_data r = None) /\
  (s_use_post s = true -> exists body, r_data r = Some body /\
     (quotable (iso en (tv_sec (m_date m))) = true -> Forall json_ready gs ->
      json_of body = Some (JObj (
       (str "timestamp", JStr (iso en (tv_sec (m_date m)))) :: (str "seconds", JStr (seconds_text (m_date m))) ::
       (str "notif", JStr (reason_text w)) :: map (fun g => (fst g, json_value (snd g))) gs)))).
Proof.
  intros Ok m w r ps I J N1 N2 s gs U K Sep. apply in_split in I. destruct I as (ms1 & ms2 & E).
  destruct (at_frame _ _ _ E) as (e1 & t1 & s1 & k & t & o & s2 & S1 & P1 & Pt & C & Ts & Sz & T1 & T2 & Se & Q & Tf).
  rewrite Q in J. apply in_request in J.
  destruct (boot_pub b d0 acts St Bo) as (_ & _ & _ & Rb). apply reachable_inv in Rb. destruct Rb as (_ & Tm & _). change (terminated (cfg_of d0)) in Tm.
  assert (X := c17_request _ _ _ _ _ _ _ _ _ _ _ _ w r ps P1 Pt Tm (Tf Ok) T1 T2 C). cbv zeta in X. rewrite Se, Ts in X.
  destruct (X U K Sep J N1 N2) as (X1 & X2 & X3). split; [exact X1|]. split; [exact X2|]. intros Y. destruct (X3 Y) as (body & B1 & B2).
  exists body. split; [exact B1|]. exact (B2 Sz).
Qed.
End Main.

(** ** Periods *)
Lemma story_fs : forall s evs tos ms, story s evs tos ms -> Forall (fun v => match v with Frame _ _ _ => True | _ => False end) evs ->
  forall a ds, map m_now ms = map (fun x => u32 (a + x)) ds ->
  exists fs, evs = frames_from a fs /\ map fst fs = ds /\ Forall (fun f => published_ti (snd (snd f))) fs /\ length tos = length ms /\
    forall w, map (sent w) tos = map (sends w) ms.
Proof.
  induction 1 as [s|s now c evs tos ms H IH|s k t o m evs tos ms E C T Z P Q H IH]; intros F a ds M.
  - destruct ds; [|discriminate]. exists []. split; [reflexivity|]. split; [reflexivity|]. split; [constructor|]. split; reflexivity.
  - apply Forall_inv in F. destruct F.
  - apply Forall_cons_iff in F. destruct F as (_ & F). destruct ds as [|x ds]; [discriminate|]. cbn [map] in M. injection M as Mn M.
    destruct (IH F a ds M) as (fs & -> & <- & Fp & L & Sn). exists ((x, (k, t)) :: fs). unfold frames_from. cbn [map fst snd length].
    rewrite <- Mn. split; [reflexivity|]. split; [reflexivity|]. split; [constructor; [exact P|exact Fp]|]. split; [rewrite L; reflexivity|].
    intros w. rewrite (Sn w), (sends_sent _ _ w Q). reflexivity.
Qed.
Lemma form_step : forall fuel a q d d' o, q_uri q = str "/config_form.json" -> ~ refused q d -> handle fuel a q d = Done (d', o) ->
  ts_of d' = mk_ts (cfg_of d') (d_ns d) (tic_make_timers (a_now a) (cfg_of d') (d_tm d)).
Proof.
  intros fuel a q d d' o U N H. unfold handle in H.
  assert (R : find_route routes (q_method q) (q_uri q) = Some HForm). { rewrite U. destruct (q_method q); vm_compute; reflexivity. }
  rewrite R in H. cbn [serve] in H. unfold if_ok in H.
  assert (W : forall r, handle_form a q r d = Done (d', o) -> ts_of d' = mk_ts (cfg_of d') (d_ns d) (tic_make_timers (a_now a) (cfg_of d') (d_tm d))).
  { intros r E. unfold handle_form in E. destruct (config_handle_form _ _ _ _) as [[s code]|]; [|discriminate]. cbn [lift] in E. injection E as <- <-. reflexivity. }
  destruct (get_auth (cfg_of d) q) eqn:G; [|apply (W _ H)|apply (W _ H)]. exfalso. apply N. unfold get_auth in G. unfold refused.
  destruct (text Username (cfg_of d)) as [|u us]; [discriminate|]. split; [discriminate|].
  destruct (q_accepts q (u :: us) (text Password (cfg_of d))); [destruct (q_forwarded q); discriminate|reflexivity].
Qed.
Lemma booted_at : forall b d0 acts, boot b = Some (d0, acts) -> ts_of d0 = tic_start (b_now b) (cfg_of d0).
Proof.
  intros b d0 acts Bo. unfold boot in Bo. destruct (config_setup _ _ _ _ _) as [s|]; [|discriminate].
  destruct (sys_wifi_connect _ _ _ _ _) as [[[s' ac] w]|]; [|discriminate]. injection Bo as <- _. reflexivity.
Qed.
Section Period.
Variables (fuel : nat) (sgn : bool) (b : start) (d0 : device) (acts : list wifi_act) (en : env).
Hypothesis St : start_ok b.
Hypothesis Bo : boot b = Some (d0, acts).

Lemma period : forall past es dp osp d os ms a st w ds, Forall is_byte (map snd (heard false (past ++ es))) -> Forall (same_env en) es ->
  drun fuel sgn past d0 = Done (dp, osp) -> drun fuel sgn (past ++ es) d0 = Done (d, os) -> ~ In RestartNow (concat os) ->
  frames fuel sgn d0 past es ms -> Forall no_form es -> tic_step en (Configure (u32 a) (cfg_of dp)) st = Some ([], ts_of dp) ->
  let s := view (cfg_of dp) in let p := 1000 * freq_of s w in
  periodic w = true -> map m_now ms = map (fun x => u32 (a + x)) ds ->
  (host_of s w = [] \/ port_of s w = 0 \/ freq_of s w = 0 -> Forall (fun m => sends w m = false) ms) /\
  (host_of s w <> [] -> port_of s w <> 0 -> 0 < freq_of s w -> p <= 4294967294 ->
    (Sorted Z.le (0 :: ds) -> one_per_slot p 0 ds (map (sends w) ms)) /\
    (spaced p 0 ds -> map (sends w) ms = firings p 0 ds)).
Proof.
  intros past es dp osp d os ms a st w ds B SE Rp R NR F NF T s p Pw M.
  destruct (chain fuel sgn b d0 acts en St Bo _ _ _ _ _ _ _ B SE Rp R NR F) as (evs & tos & S & Tr & _ & _ & Nf & _).
  specialize (Nf NF). destruct (story_fs _ _ _ _ S Nf a ds M) as (fs & -> & <- & Fp & L & Sn). rewrite <- (Sn w). split.
  - intros Off. assert (X := c52_disabled _ _ _ _ _ _ _ _ _ w T (story_published _ _ _ _ S) Nf Tr Pw Off).
    rewrite Forall_forall in X |- *. intros m I. apply (in_map (sends w)) in I. rewrite <- (Sn w) in I. apply in_map_iff in I.
    destruct I as (o & <- & I). exact (X _ I).
  - intros H1 H2 H3 H4. split.
    + intros So. exact (c52_slots _ _ _ _ _ _ _ _ _ w T Fp Tr Pw H1 H2 H3 H4 So).
    + intros Sp. exact (c52 _ _ _ _ _ _ _ _ _ w T Fp Tr Pw H1 H2 H3 H4 Sp).
Qed.
Lemma c99_period : forall past es dp osp d os ms a w ds, Forall is_byte (map snd (heard false (past ++ es))) -> Forall (same_env en) es ->
  configured_at fuel sgn b d0 past (u32 a) ->
  drun fuel sgn past d0 = Done (dp, osp) -> drun fuel sgn (past ++ es) d0 = Done (d, os) -> ~ In RestartNow (concat os) ->
  frames fuel sgn d0 past es ms -> Forall no_form es ->
  let s := view (cfg_of dp) in let p := 1000 * freq_of s w in
  periodic w = true -> map m_now ms = map (fun x => u32 (a + x)) ds ->
  (host_of s w = [] \/ port_of s w = 0 \/ freq_of s w = 0 -> Forall (fun m => sends w m = false) ms) /\
  (host_of s w <> [] -> port_of s w <> 0 -> 0 < freq_of s w -> p <= 4294967294 ->
    (Sorted Z.le (0 :: ds) -> one_per_slot p 0 ds (map (sends w) ms)) /\
    (spaced p 0 ds -> map (sends w) ms = firings p 0 ds)).
Proof.
  intros past es dp osp d os ms a w ds B SE C Rp R NR F NF s p Pw M.
  assert (T : exists st, tic_step en (Configure (u32 a) (cfg_of dp)) st = Some ([], ts_of dp)).
  { remember (u32 a) as n eqn:En. clear En. destruct C as [|es1 d1 os1 a1 q R1 U N].
    - assert (d0 = dp) by (cbn in Rp; congruence). subst dp. rewrite (booted_at b d0 acts Bo). exists (mk_ts (cfg_of d0) ns_init timers_init). reflexivity.
    - destruct (drun_snoc _ _ _ _ _ _ _ Rp) as (d2 & os2 & o & R2 & S2 & _). rewrite R1 in R2.
      assert (d1 = d2) by congruence. subst d2. cbn [dstep] in S2. rewrite (form_step _ _ _ _ _ _ U N S2).
      exists (ts_of d1). reflexivity. }
  destruct T as (st & T). exact (period past es dp osp d os ms a st w ds B SE Rp R NR F NF T Pw M).
Qed.
End Period.
