(** Lives used in the examples. *)
From Coq Require Import ZArith List Bool Lia String.
From Verif Require Import Base BaseFacts Teleinfo TeleinfoSpec Publish HistorySpec DecoderProofs GroupProofs PublishProofs Config ConfigSpec ConfigProofs
  ConfigMain ConfigHist ConfigFinal Json JsonBuild Tic TicSpec Pages PagesSpec Sse SseSpec SseProofs Cpu Web Wifi Device WebSpec WebProofs
  DeviceProofs DeviceMain DeviceSafe DeviceFinal DevicePages Samples SamplesFacts TicSamples WebSamples
  Cli CliSpec CliProofs Life LifeSpec LifeProofs LifeMain LifeFinal.
From Verif Require ConfigSamples.
Import ListNotations.
Open Scope Z_scope.

(** Programs that understand "tic" only, or also "esp restart" and "set wifi". *)
Definition only_tic : build := mk_build true true (fun l => if beq l (str "tic" ++ [13]) then CTic else CBad).
Definition talkative : build :=
  mk_build true true (fun l => if beq l (str "tic" ++ [13]) then CTic
                               else if beq l (str "esp restart" ++ [13]) then CEsp (str "restart")
                               else if beq l (str "set wifi a b" ++ [13]) then CSet [str "wifi"; str "a"; str "b"]
                               else CBad).
Lemma str_is_byte : forall l, bytesb l = true -> bytes l.
Proof. intros l H. apply bytesb_spec. exact H. Qed.
Lemma only_tic_ok : build_ok only_tic.
Proof. intros l _. cbn [bd_parse only_tic]. destruct (beq l (str "tic" ++ [13])); exact I. Qed.
Lemma talkative_ok : build_ok talkative.
Proof.
  intros l _. cbn [bd_parse talkative]. destruct (beq l _); [exact I|]. destruct (beq l _); [apply str_is_byte; reflexivity|].
  destruct (beq l _); [|exact I]. cbn [command_bytes]. constructor; [apply str_is_byte; reflexivity|]. constructor; [apply str_is_byte; reflexivity|].
  constructor; [apply str_is_byte; reflexivity|constructor].
Qed.

Definition raw0 : list Z := repeat 85 350.
Definition with_raw (es : list devent) : list (devent * list Z) := map (fun e => (e, raw0)) es.
Lemma fst_with_raw : forall es, map fst (with_raw es) = es.
Proof. intros es. unfold with_raw. rewrite map_map. apply map_id. Qed.
Lemma with_raw_ordinary : forall es, Forall ordinary_event es -> Forall ordinary_life (map (fun p => Event (fst p) (snd p)) (with_raw es)).
Proof. intros es H. induction H; cbn [map with_raw]; constructor; auto. split; [exact H|reflexivity]. Qed.

(** The first start of a new module. *)
Lemma first_start : forall fuel bd, lstep fuel bd (PowerOn start0) (Off ConfigSamples.blank) = Done (On dev0 cli_init, map Radio acts0).
Proof.
  intros fuel bd. cbn [lstep flash_of].
  change (mk_start (b_chip start0) (b_mem start0) ConfigSamples.blank (b_o1 start0) (b_o2 start0) (b_o3 start0) (b_status start0) (b_ssid start0)
    (b_psk start0) (b_now start0) (b_g1 start0) (b_g2 start0)) with start0.
  rewrite boot0. reflexivity.
Qed.

(** Without requests, nor commands that write the settings or restart the module, it keeps running with its settings. *)
Lemma quiet_life : forall fuel bd, (forall l, ~ restarter (bd_parse bd l)) ->
  forall evs d cl m os, Forall ordinary_event (map fst evs) -> Forall no_request (map fst evs) ->
  lrun fuel bd (map (fun p => Event (fst p) (snd p)) evs) (On d cl) = Done (m, os) ->
  exists d' cl', m = On d' cl' /\ d_cs d' = d_cs d.
Proof.
  intros fuel bd W. induction evs as [|[e raw] evs IH]; intros d cl m os O N H; cbn [map lrun fst snd] in *; [injection H as <- <-; eauto|].
  apply Forall_cons_iff in O. destruct O as (O & Os). apply Forall_cons_iff in N. destruct N as (N & Ns).
  destruct (lstep fuel bd (Event e raw) (On d cl)) as [[m1 o]| |] eqn:S; try discriminate.
  destruct (lrun fuel bd (map (fun p => Event (fst p) (snd p)) evs) m1) as [[m2 os2]| |] eqn:R; try discriminate. injection H as <- <-.
  destruct m1 as [f|d1 cl1].
  - exfalso. destruct (c67_restarts _ _ _ _ _ _ _ _ O S) as [(a & q & -> & _)|(l & _ & C)]; [exact N|exact (W l C)].
  - destruct (IH _ _ _ _ Os Ns R) as (d' & cl' & -> & E). exists d', cl'. split; [reflexivity|]. rewrite E.
    destruct (event_effect _ _ _ _ _ _ _ _ O S) as (d2 & cl2 & A & [C|[(a & q & -> & _)|(l & _ & C)]]); [|destruct N|destruct (W l); left; exact C].
    destruct (after_cases _ _ _ _ _ A) as (_ & [X|X]); [|discriminate]. injection X as -> _. exact C.
Qed.
Lemma only_tic_quiet : forall l, ~ restarter (bd_parse only_tic l).
Proof. intros l [H|H]; cbn [bd_parse only_tic] in H; destruct (beq l (str "tic" ++ [13])); try discriminate H; exact H. Qed.
Lemma run_cons : forall fuel bd e es m m1 o m2 os, lstep fuel bd e m = Done (m1, o) -> lrun fuel bd es m1 = Done (m2, os) ->
  lrun fuel bd (e :: es) m = Done (m2, o :: os).
Proof. intros. cbn [lrun]. rewrite H, H0. reflexivity. Qed.
Lemma one_step : forall fuel bd e m m1 o, lstep fuel bd e m = Done (m1, o) -> lrun fuel bd [e] m = Done (m1, [o]).
Proof. intros. cbn [lrun]. rewrite H. reflexivity. Qed.
Lemma run_inv : forall fuel bd e es m m1 o m2 os, lstep fuel bd e m = Done (m1, o) -> lrun fuel bd (e :: es) m = Done (m2, os) ->
  exists os', lrun fuel bd es m1 = Done (m2, os') /\ os = o :: os'.
Proof.
  intros fuel bd e es m m1 o m2 os S R. cbn [lrun] in R. rewrite S in R. destruct (lrun fuel bd es m1) as [[m3 os3]| |]; try discriminate.
  injection R as <- <-. eauto.
Qed.
Lemma quiet_start : forall es, Forall ordinary_event es -> Forall no_request es ->
  exists d cl os, lrun 256 only_tic (started start0 (with_raw es)) (Off ConfigSamples.blank) = Done (On d cl, os) /\
    text Username (cfg_of d) = [] /\ mod_ok true (On d cl) /\ unterminated (text HUrl (cfg_of d)) = false.
Proof.
  intros es O N. destruct (lrun_some 256 only_tic (started start0 (with_raw es)) (Off ConfigSamples.blank) only_tic_ok) as [(m & os & R & M)|(es1 & es2 & d & cl & os & E & R & U)].
  - apply ConfigSamples.blank_ok.
  - constructor; [exact start0_ok|apply with_raw_ordinary; exact O].
  - apply le_n.
  - destruct (run_inv _ _ _ _ _ _ _ _ _ (first_start 256 only_tic) R) as (o1 & Q & ->).
    destruct (quiet_life 256 only_tic only_tic_quiet (with_raw es) dev0 cli_init m o1) as (d & cl & X & C); try (rewrite fst_with_raw; assumption); [exact Q|].
    clear Q. rewrite X in *. clear X. exists d, cl, (map Radio acts0 :: o1). split; [exact R|]. clear R. assert (D := dev0_cs). assert (T := fresh_texts).
    revert M C D T. generalize dev0. generalize ConfigSamples.fresh. intros fr d0 M C D (_ & T & T2 & _). unfold cfg_of. rewrite C, D. auto.
  - exfalso. unfold started in E. destruct es1 as [|e es1]; [discriminate R|]. cbn [app] in E. injection E as <- E. destruct (run_inv _ _ _ _ _ _ _ _ _ (first_start 256 only_tic) R) as (o1 & Q & _). clear R.
    assert (D := dev0_cs). assert (T := fresh_texts). revert Q D T. generalize dev0. generalize ConfigSamples.fresh. intros fr d0 Q D T.
    assert (exists p1 p2, with_raw es = p1 ++ p2 /\ es1 = map (fun p => Event (fst p) (snd p)) p1) as (p1 & p2 & P & ->).
    { clear - E. revert es1 E. induction (with_raw es) as [|p l IH]; intros es1 E.
      - destruct es1; [|discriminate]. exists [], []. auto.
      - destruct es1 as [|e es1]; [exists [], (p :: l); auto|]. cbn [map app] in E. injection E as <- E. destruct (IH _ E) as (p1 & p2 & -> & ->).
        exists (p :: p1), p2. auto. }
    assert (F : es = map fst p1 ++ map fst p2) by (rewrite <- map_app, <- P, fst_with_raw; reflexivity).
    rewrite F in O, N. apply Forall_app in O. apply Forall_app in N.
    destruct (quiet_life 256 only_tic only_tic_quiet p1 d0 cli_init (On d cl) o1 (proj1 O) (proj1 N) Q) as (d' & cl' & X & C).
    injection X as <- <-. destruct T as (_ & _ & T & _). unfold cfg_of in U. rewrite C, D in U. congruence.
Qed.

(** A form, then a restart by the owner and another start. *)
Definition post_form : hreq := mk_hreq POST (str "/config_form.json") form_a (fun _ _ => false) false.
Definition owner_restarts : list levent := [Event (DHttp around0 (ask_in "/reset")) raw0; PowerOn start0; Event (DTurn (at_ms 2000)) raw0].
Lemma ask_ordinary : forall q, form_bytes (q_args q) -> (List.length (q_args q) < 256)%nat -> cstr (q_uri q) <> [] -> ordinary_life (Event (DHttp around0 q) raw0).
Proof. intros q A B C. split; [|reflexivity]. split; [split; [exact A|cbn; lia]|]. cbn. split; [exact B|]. split; [exact C|lia]. Qed.
Lemma owner_ordinary : Forall ordinary_life (Event (DHttp around0 post_form) raw0 :: owner_restarts).
Proof.
  constructor; [apply ask_ordinary; [apply forms_ok|cbn; lia|discriminate]|]. constructor; [apply ask_ordinary; [constructor|cbn; lia|discriminate]|].
  constructor; [exact start0_ok|]. constructor; [|constructor]. split; [split; exact I|reflexivity].
Qed.
Lemma owner_settings : forall v r, r = false -> let s := after_form r form_a v in
  s_ssid s = str "home" /\ s_username s = str "me" /\ s_password s = str "pw" /\ s_http_url s = [].
Proof. intros v r ->. repeat split. Qed.
Lemma kept_url : forall bd r flash m, s_http_url r = [] -> keeps_using r flash m -> mod_ok bd m -> url_ok m.
Proof.
  intros bd r flash m U (_ & K) _. destruct m as [f|d cl]; [exact I|]. cbn. destruct (view_texts _ _ K) as (_ & _ & X & _). rewrite X, U. reflexivity.
Qed.
Lemma owner_life : forall d cl, dev_ok true d -> Forall is_byte (cl_input cl) -> text Username (cfg_of d) = [] -> unterminated (text HUrl (cfg_of d)) = false ->
  exists d' cl' o os2, lrun 256 talkative (Event (DHttp around0 post_form) raw0 :: owner_restarts) (On d cl) = Done (On d' cl', o :: os2) /\
    Forall2 (leaves_settings talkative) owner_restarts os2 /\
    e_flash (c_ee (d_cs d')) = flash_of (On d' cl') /\ text Ssid (cfg_of d') = str "home" /\ text Username (cfg_of d') = str "me" /\
    map (fun o => existsb restarts o) os2 = [true; false; false].
Proof.
  intros d cl D Hc U T. assert (O := owner_ordinary). apply Forall_cons_iff in O. destruct O as (O & Os).
  assert (M : mod_ok (bd_signed talkative) (On d cl)) by (split; assumption).
  destruct (lstep_some 256 talkative (Event (DHttp around0 post_form) raw0) (On d cl) talkative_ok M O (le_n _) T) as (m1 & o & E1 & M1).
  destruct (form_step 256 talkative around0 post_form raw0 d cl m1 o D (proj1 O) eq_refl (not_refused_open _ _ U) eq_refl eq_refl E1) as (r & fl & R & _ & S & K).
  assert (Rf : r = false).
  { destruct r; [|reflexivity]. destruct (proj1 R eq_refl) as (X & _). congruence. }
  destruct (owner_settings (view (cfg_of d)) r Rf) as (V1 & V2 & V3 & V4). cbn [q_args post_form] in *.
  revert S K V1 V2 V3 V4. generalize (after_form r form_a (view (cfg_of d))). intros s S K V1 V2 V3 V4.
  destruct m1 as [f|d1 cl1].
  { exfalso. destruct (c67_restarts _ _ _ _ _ _ _ _ (proj1 O) E1) as [(a & q & X & [(Y & _)|(Y & _)])|(l & I & _)].
    - injection X as _ <-. discriminate Y.
    - injection X as _ <-. discriminate Y.
    - cbn [lstep] in E1. destruct (dstep 256 (bd_signed talkative) (DHttp around0 post_form) d) as [[d' o1]| |]; try discriminate. injection E1 as E1.
      destruct (after_cases _ _ _ _ _ E1) as (-> & _). apply in_map_iff in I. destruct I as (x & X & _). discriminate X. }
  assert (K1 := K). destruct K1 as (K1 & K2). destruct (view_texts _ _ K2) as (W1 & W2 & W3 & _ & _ & W6).
  (* the restart *)
  assert (E2 : lstep 256 talkative (Event (DHttp around0 (ask_in "/reset")) raw0) (On d1 cl1) = Done (Off fl, [Did (Reply 200 Text (str "Restart")); Did RestartNow])).
  { assert (G : get_auth (cfg_of d1) (ask_in "/reset") = Full) by (unfold get_auth; rewrite W2, W6, V2, V3; reflexivity).
    cbn [lstep dstep]. unfold handle. replace (find_route routes (q_method (ask_in "/reset")) (q_uri (ask_in "/reset"))) with (Some HReset) by reflexivity.
    cbn [serve]. unfold if_ok. rewrite G. cbn [map]. unfold after. cbn [existsb restarts orb]. rewrite K1. reflexivity. }
  apply Forall_cons_iff in Os. destruct Os as (O1 & Os). apply Forall_cons_iff in Os. destruct Os as (O2 & Os). apply Forall_cons_iff in Os. destruct Os as (O3 & _).
  assert (M2 : mod_ok (bd_signed talkative) (Off fl)) by (eapply lstep_ok; [exact talkative_ok|exact M1|exact O1|exact E2]).
  destruct (lstep_some 256 talkative (PowerOn start0) (Off fl) talkative_ok M2 O2 (le_n _) I) as (m3 & o3 & E3 & M3).
  assert (N : s_ssid s <> []) by (rewrite V1; discriminate).
  assert (L3 : leaves_settings talkative (PowerOn start0) o3).
  { split; [exact I|]. intros l J. cbn [lstep] in E3. destruct (boot _) as [[x acts]|]; [|discriminate]. cbn [lift] in E3. injection E3 as _ <-.
    apply in_map_iff in J. destruct J as (y & Y & _). discriminate Y. }
  assert (K3 : keeps_using s fl m3).
  { eapply keeps_step; [exact M2|exact O2|exact S|exact N|exact L3| |exact E3]. split; [reflexivity|exact I]. }
  assert (P3 : exists d3, m3 = On d3 cli_init).
  { destruct (poweron_stored _ _ _ _ _ _ M2 O2 E3) as (d3 & -> & _). eauto. }
  destruct P3 as (d3 & ->).
  destruct (lstep_some 256 talkative (Event (DTurn (at_ms 2000)) raw0) (On d3 cli_init) talkative_ok M3 O3 (le_n _)) as (m4 & o4 & E4 & M4).
  { eapply kept_url; eauto. }
  assert (X4 : exists d4, m4 = On d4 cli_init /\ o4 = []).
  { cbn [lstep dstep] in E4. destruct (cpuload_loop _ _); [|discriminate]. cbn [lift map] in E4. unfold after in E4. cbn [existsb] in E4.
    injection E4 as <- <-. eexists. split; reflexivity. }
  destruct X4 as (d4 & -> & ->).
  assert (L4 : leaves_settings talkative (Event (DTurn (at_ms 2000)) raw0) []) by (split; [exact I|intros l []]).
  assert (K4 : keeps_using s fl (On d4 cli_init)).
  { eapply keeps_step; [exact M3|exact O3|exact S|exact N|exact L4|exact K3|exact E4]. }
  assert (B3 : existsb restarts o3 = false).
  { cbn [lstep] in E3. destruct (boot _) as [[x acts]|]; [|discriminate]. cbn [lift] in E3. injection E3 as _ <-.
    clear. induction acts; [reflexivity|exact IHacts]. }
  exists d4, cli_init, o. eexists. unfold owner_restarts. split; [cbn [lrun]; rewrite E1, E2, E3, E4; reflexivity|].
  split.
  { constructor; [|constructor; [exact L3|constructor; [exact L4|constructor]]]. split; [split; discriminate|].
    intros l [J|[J|[]]]; discriminate J. }
  split; [reflexivity|]. destruct K4 as (_ & K4). destruct (view_texts _ _ K4) as (Y1 & Y2 & _). rewrite Y1, Y2, V1, V2.
  split; [reflexivity|]. split; [reflexivity|]. cbn [map existsb restarts orb]. rewrite B3. reflexivity.
Qed.

(** The state of the command line after a life. *)
Lemma typed_so_far : forall es d cl os s data cmds, Forall ordinary_event es ->
  lrun 256 only_tic (started start0 (with_raw es)) (Off ConfigSamples.blank) = Done (On d cl, os) ->
  cli_listen (arrivals false es) cli_init = (s, data, cmds) -> cl = s.
Proof.
  intros es d cl os s data cmds O R L. destruct (run_inv _ _ _ _ _ _ _ _ _ (first_start 256 only_tic) R) as (o1 & Q & ->). clear R. revert Q. generalize dev0. intros d0 Q.
  assert (Oe : Forall (fun p : devent * list Z => ordinary_event (fst p)) (with_raw es)).
  { clear - O. induction O; constructor; auto. }
  destruct (life_pub _ _ _ _ _ _ _ _ false Oe Q) as (pes & data' & cmds' & X & _). rewrite fst_with_raw in X. unfold listen in X. cbn [bd_cli only_tic] in X.
  rewrite L in X. injection X as <- _ _. reflexivity.
Qed.
Lemma end_of_tic : forall d, dev_ok true d ->
  exists o, lstep 256 only_tic (Event (DByte around0 (fun _ => true) now0 13) raw0) (On d (mk_cli true (str "tic"))) = Done (On d cli_init, Command (str "tic" ++ [13]) :: o).
Proof.
  intros d D. destruct (dump_some true (a_env around0) raw0 d D eq_refl) as (t & T). exists [Printed t]. cbn [lstep]. unfold serial_byte. cbn [bd_cli only_tic].
  replace (cli_loop_read 13 (mk_cli true (str "tic"))) with (cli_init, -1, Some (str "tic" ++ [13])) by reflexivity.
  replace (bd_parse _ (str "tic" ++ [13])) with CTic by reflexivity. cbn [run_command]. rewrite T. reflexivity.
Qed.
