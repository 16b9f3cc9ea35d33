(** Proofs about the whole module, continued: configuration, streams, uploads. *)
From Coq Require Import ZArith List Bool Lia.
From Verif Require Import Base BaseFacts Teleinfo TeleinfoSpec Publish HistorySpec PublishProofs Config ConfigSpec ConfigProofs ConfigMain ConfigHist Tic Pages PagesSpec Sse SseSpec SseProofs Cpu Web Wifi Device WebSpec WebProofs DeviceProofs.
Import ListNotations.
Open Scope Z_scope.

(** ** The configuration *)
Lemma csteps_app : forall es1 es2 s, csteps (es1 ++ es2) s = (s' <- csteps es1 s ;; csteps es2 s').
Proof. induction es1 as [|e es1 IH]; intros; cbn [app csteps]; [reflexivity|]. destruct (cstep e s); auto. Qed.
Lemma reachable_step : forall e s s', reachable s -> event_ok e -> cstep e s = Some s' -> reachable s'.
Proof.
  intros e s s' (chip & o1 & o2 & mem & flash & s0 & es & A & B & C & D & E & F) K H.
  exists chip, o1, o2, mem, flash, s0, (es ++ [e]). split; [exact A|split; [exact B|split; [exact C|split; [|split; [exact E|]]]]].
  - apply Forall_app. split; auto.
  - rewrite csteps_app, F. cbn [csteps]. rewrite H. reflexivity.
Qed.
Lemma happened_reachable : forall a q d d' os, happened a q d d' os -> devent_ok (DHttp a q) -> reachable (d_cs d) -> reachable (d_cs d').
Proof.
  intros a q d d' os H [K1 K2] R. destruct H as [-> _|_ _ -> _|r s code _ _ F -> _|s _ _ F -> _]; cbn [with_sse with_tm with_cs d_cs]; auto.
  - apply (reachable_step (Post (a_flash a) r (q_args q)) (d_cs d)); auto. cbn [cstep]. rewrite F. reflexivity.
  - apply (reachable_step (FactoryReset (chip_id (a_env a)) (a_flash a)) (d_cs d)); auto.
Qed.
Lemma upload_keeps : forall a u d, d_cs (fst (handle_upload a u d)) = d_cs d /\ d_sse (fst (handle_upload a u d)) = d_sse d /\
  (forall e, ~ In (Streaming e) (snd (handle_upload a u d))) /\
  d_ns (fst (handle_upload a u d)) = d_ns d /\ d_tm (fst (handle_upload a u d)) = d_tm d /\ d_perf (fst (handle_upload a u d)) = d_perf d.
Proof.
  intros a u d. destruct u as [n l [|] en|dt [|] en|en|en]; cbn; repeat split; try reflexivity; intros e; intuition discriminate.
Qed.
Lemma dstep_reachable : forall fuel sgn e d d' os, dstep fuel sgn e d = Done (d', os) -> devent_ok e -> reachable (d_cs d) -> reachable (d_cs d').
Proof.
  intros fuel sgn e d d' os H K R. destruct e; cbn [dstep] in H.
  - destruct (cpuload_loop _ _); [|discriminate]. cbn [lift] in H. injection H as <- <-. exact R.
  - destruct (receive sgn a up tv c d) as [[d1 o1]|] eqn:E; [|discriminate]. cbn [lift] in H. injection H as <- <-.
    apply receive_keeps in E. destruct E as (_ & -> & _). exact R.
  - apply handle_happened in H. eapply happened_reachable; eauto.
  - injection H as H. destruct (upload_keeps a u d) as (U & _). rewrite H in U. cbn in U. rewrite U. exact R.
  - destruct (handle_clients up None (d_sse d)) as [[s o]|]; [|discriminate]. cbn [lift] in H. injection H as <- <-. exact R.
Qed.
Lemma drun_reachable : forall fuel sgn es d d' os, drun fuel sgn es d = Done (d', os) -> Forall devent_ok es -> reachable (d_cs d) -> reachable (d_cs d').
Proof.
  intros fuel sgn. induction es as [|e es IH]; intros d d' os H K R; cbn [drun] in H.
  - injection H as <- <-. exact R.
  - apply Forall_cons_iff in K. destruct K as [K1 K2]. destruct (dstep fuel sgn e d) as [[d1 o]| |] eqn:E; try discriminate.
    destruct (drun fuel sgn es d1) as [[d2 o2]| |] eqn:E2; try discriminate. injection H as <- <-.
    eapply IH; eauto. eapply dstep_reachable; eauto.
Qed.

(** ** Start *)
Lemma wifi_total : forall o st ssid psk s, Inv s -> bytes ssid -> bytes psk ->
  exists s' acts r, sys_wifi_connect o st ssid psk s = Some (s', acts, r) /\ adopt_sdk o ssid psk s = Some s' /\ Inv s'.
Proof.
  intros o st ssid psk s I A B. destruct (step_inv (Adopt o ssid psk) s (conj A B) I) as (s' & E & I'). cbn [cstep] in E.
  unfold sys_wifi_connect. rewrite E. destruct (text Ssid (c_cfg s')).
  - do 3 eexists. split; [reflexivity|split; [reflexivity|exact I']].
  - destruct (wait_loop 50 st 1) as [[r k] w]. do 3 eexists. split; [reflexivity|split; [reflexivity|exact I']].
Qed.
Lemma boot_ok : forall b, start_ok b -> exists d acts, boot b = Some (d, acts) /\ reachable (d_cs d) /\
  d_pub d = pub_init (b_g1 b) (b_g2 b) /\ d_sse d = sse_init /\ d_upd d = false /\ d_ns d = ns_init /\
  d_tm d = tic_make_timers (b_now b) (cfg_of d) timers_init /\ d_perf d = perf_init (b_now b).
Proof.
  intros b (A & B & C & D & E & _). unfold boot.
  destruct (setup_inv (b_chip b) (b_o1 b) (b_o2 b) (b_mem b) (b_flash b) C) as (s & S & I). rewrite S.
  destruct (wifi_total (b_o3 b) (b_status b) (b_ssid b) (b_psk b) s I D E) as (s' & acts & r & W & T & I'). rewrite W.
  do 2 eexists. split; [reflexivity|]. cbn [d_cs d_pub d_sse d_upd d_ns d_tm d_perf cfg_of]. split; [|auto 10].
  exists (b_chip b), (b_o1 b), (b_o2 b), (b_mem b), (b_flash b), s, [Adopt (b_o3 b) (b_ssid b) (b_psk b)].
  split; [exact A|split; [exact B|split; [exact C|split; [|split; [exact S|]]]]].
  - constructor; [|constructor]. split; assumption.
  - cbn [csteps cstep]. rewrite T. reflexivity.
Qed.

(** ** Who can change the configuration *)
Lemma dstep_cs : forall fuel sgn e d d' os, dstep fuel sgn e d = Done (d', os) ->
  d_cs d' = d_cs d \/
  exists a q, e = DHttp a q /\
    (q_uri q = str "/config_form.json" /\ ~ refused q d \/ q_uri q = str "/factory_reset" /\ fully_allowed q d).
Proof.
  intros fuel sgn e d d' os H. destruct e; cbn [dstep] in H.
  - destruct (cpuload_loop _ _); [|discriminate]. cbn [lift] in H. injection H as <- <-. left. reflexivity.
  - destruct (receive sgn a up tv c d) as [[d1 o1]|] eqn:E; [|discriminate]. cbn [lift] in H. injection H as <- <-.
    apply receive_keeps in E. destruct E as (_ & E & _). left. exact E.
  - apply handle_happened in H.
    destruct H as [-> _|_ _ -> _|r s code U G F -> _|s U G F -> _]; [left; reflexivity|left; reflexivity|right|right]; exists a, q; (split; [reflexivity|]).
    + left. split; [exact U|]. apply not_refused. rewrite G. destruct r; discriminate.
    + right. split; [exact U|exact G].
  - injection H as H. destruct (upload_keeps a u d) as (U & _). rewrite H in U. left. exact U.
  - destruct (handle_clients up None (d_sse d)) as [[s o]|]; [|discriminate]. cbn [lift] in H. injection H as <- <-. left. reflexivity.
Qed.
Lemma dstep_config : forall fuel sgn e d d' os, dstep fuel sgn e d = Done (d', os) -> d_cs d' <> d_cs d ->
  exists a q, e = DHttp a q /\
    (q_uri q = str "/config_form.json" /\ ~ refused q d \/ q_uri q = str "/factory_reset" /\ fully_allowed q d).
Proof. intros fuel sgn e d d' os H N. destruct (dstep_cs _ _ _ _ _ _ H); [contradiction|assumption]. Qed.

(** ** Restarts *)
Ltac no_restart := cbn; intros; intuition (try discriminate; auto).
Lemma handle_restart : forall fuel a q d d' os, handle fuel a q d = Done (d', os) ->
  (In RestartSoon os -> q_uri q = str "/update" /\ q_method q = POST /\ fully_allowed q d /\ d_upd d = true) /\
  (In RestartNow os -> q_uri q = str "/reset" /\ ~ refused q d \/ q_uri q = str "/factory_reset" /\ fully_allowed q d) /\
  (In EraseSdk os -> q_uri q = str "/factory_reset" /\ fully_allowed q d) /\
  (forall fs n, ~ In (UpdateBegin fs n) os) /\ (forall x, ~ In (UpdateWrite x) os) /\ (forall x, ~ In (UpdateEnd x) os) /\
  (forall w r, ~ In (Sent w r) os).
Proof.
  intros fuel a q d d' os H. unfold handle in H. destruct (find_route routes (q_method q) (q_uri q)) as [h|] eqn:R.
  - apply route_uri in R. destruct h; cbn [serve] in H; unfold send_json, if_ok, if_full in H;
      (destruct (get_auth (cfg_of d) q) eqn:G; [try (injection H as <- <-; no_restart; fail)| |]).
    all: try match type of H with lift ?x = _ => destruct x as [[d1 o1]|] eqn:L; [cbn [lift] in H; injection H as <- <-|discriminate] end.
    all: try match type of L with (match ?x with Some _ => _ | None => _ end) = _ => destruct x eqn:L1; [|discriminate]; injection L as <- <- end.
    all: try (no_restart; fail).
    all: try (injection H as <- <-; no_restart; fail).
    all: try (destruct (a_site a (str "/version")); injection H as <- <-; no_restart; fail).
    all: try (match type of H with context [handle_read ?x ?y] => destruct (handle_read x y) as [o|] eqn:L end;
       [apply handle_read_file in L; destruct L as (p & c & ->)|]; injection H as <- <-; no_restart; fail).
    all: try (unfold handle_sse, handle_sse_data in H; destruct (Nat.ltb _ 2); injection H as <- <-; no_restart; fail).
    all: try (unfold handle_form in H;
       destruct (config_handle_form (a_flash a) _ (q_args q) (d_cs d)) as [[s code]|] eqn:E; [|discriminate];
       cbn [lift] in H; injection H as <- <-; no_restart; fail).
    all: try (injection L as <- <-; no_restart; fail).
    + unfold factory_reset in H. destruct (config_reset (chip_id (a_env a)) (a_flash a) (d_cs d)) as [s|] eqn:E; [|discriminate].
      cbn [lift] in H. injection H as <- <-. apply full_iff in G. no_restart.
    + injection H as <- <-. assert (~ refused q d) by (apply not_refused; congruence). no_restart.
    + injection H as <- <-. assert (~ refused q d) by (apply not_refused; congruence). no_restart.
    + injection H as <- <-. apply full_iff in G. destruct R. destruct (d_upd d); no_restart.
  - destruct (static_file a q) as [o|] eqn:S.
    + unfold static_file in S. injection H as <- <-.
      repeat match type of S with (if ?x then _ else _) = _ => destruct x | match ?x with _ => _ end = _ => destruct x eqn:? end;
        try discriminate; try (injection S as <-; no_restart; fail).
      all: try (apply handle_read_file in S; destruct S as (p & c & ->); no_restart; fail).
    + unfold not_found in H.
      repeat match type of H with (if ?x then _ else _) = _ => destruct x | match ?x with _ => _ end = _ => destruct x end;
        try discriminate; injection H as <- <-; no_restart.
Qed.
