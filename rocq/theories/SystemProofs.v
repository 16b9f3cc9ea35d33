(** The page of the system and the load, in the running module. *)
From Coq Require Import ZArith List Bool Lia.
From Verif Require Import Base BaseFacts Teleinfo TeleinfoSpec Publish Config ConfigSpec ConfigProofs Json JsonFacts JsonBuildFacts
  Tic TicSpec Pages PagesSpec PagesProofs Sse SseSpec SseProofs Cpu CpuSpec CpuProofs Web Wifi Device WebSpec WebProofs DeviceProofs DeviceMain DevicePages
  ScreenSpec ScreenProofs SystemSpec.
From Verif Require FormMain.
Import ListNotations.
Open Scope Z_scope.

(** ** Texts *)
Lemma zeros_quotable : forall n, quotable (repeat 48 n) = true.
Proof. intros n. apply ascii_quotable, Forall_forall. intros x H. apply repeat_spec in H. lia. Qed.
Lemma pad0_quotable : forall k t, quotable t = true -> quotable (pad0 k t) = true.
Proof. intros k t H. unfold pad0. apply quotable_app; [apply zeros_quotable|exact H]. Qed.
Lemma hex_aux_quotable : forall f n acc, quotable acc = true -> quotable (hex_aux f n acc) = true.
Proof.
  induction f as [|f IH]; intros n acc H; [exact H|]. cbn [hex_aux].
  assert (X : quotable (hex_digit (n mod 16) :: acc) = true).
  { change (hex_digit (n mod 16) :: acc) with ([hex_digit (n mod 16)] ++ acc). apply quotable_app; [|exact H].
    apply ascii_quotable. constructor; [|constructor]. unfold hex_digit. assert (M := Z.mod_pos_bound n 16 ltac:(lia)).
    destruct (n mod 16 <? 10) eqn:E; [apply Z.ltb_lt in E|apply Z.ltb_ge in E]; lia. }
  destruct (n <? 16); [exact X|]. apply IH, X.
Qed.
Lemma hex6_quotable : forall n, quotable (hex6 n) = true.
Proof. intros n. unfold hex6, Config.hex. apply pad0_quotable, hex_aux_quotable. reflexivity. Qed.
Lemma decs_quotable : forall n, quotable (decs n) = true.
Proof.
  intros n. unfold decs. destruct (n <? 0); [|apply FormMain.dec_quotable].
  change (45 :: dec (- n)) with ([45] ++ dec (- n)). apply quotable_app; [reflexivity|apply FormMain.dec_quotable].
Qed.
Ltac quot := repeat (apply zeros_quotable || apply pad0_quotable || apply hex6_quotable || apply quotable_app || apply FormMain.dec_quotable || apply decs_quotable || apply hex6_quotable || reflexivity || assumption).
Lemma size_says : forall n, 0 <= n < 4294967296 -> size_text n (sys_format_size n) /\ quotable (sys_format_size n) = true.
Proof.
  intros n N. split; [exact (c54 n N)|]. destruct (c54 n N) as [(-> & _)|(u & unit & h & I & _ & -> & _)]; quot.
  destruct I as [I|[I|[I|[]]]]; injection I as _ <-; reflexivity.
Qed.
Lemma uptime_says : forall us, 0 <= us < 2147483648 * 1000000 -> exists t, sys_uptime us = Some t /\ duration_text (us / 1000000) t /\ quotable t = true.
Proof.
  intros us U. destruct (c46 us U) as (d & h & m & s & E & X). eexists. split; [exact E|]. split; [exists d, h, m, s; tauto|]. quot.
Qed.

(** ** The rows *)
Lemma rows_items : forall c i clients load r, info_ok i -> quotable (text Ssid c) = true -> 0 <= clients ->
  (match load with Some l => 0 <= l | None => True end) ->
  let j := mk_info (i_micros i) (i_now i) (i_connected i) (i_rssi i) (i_mac i) (i_reconnects i) (i_version i) (i_date i)
    (i_flags i) (i_sdk i) (i_chip i) (i_flash i) (i_sketch i) (i_free i) (i_heap i) load (i_total i) (i_used i) clients (i_remotes i) in
  exists items, info_items c j r = Some items /\ Forall item_ready items /\
    Forall2 row_tells ((if r then public_rows else fun l => l) (system_rows (view c) i clients load)) (map item_json items).
Proof.
  intros c i clients load r (T & N & U & Us & To) Q C L.
  assert (Tt : 0 <= i_total i < 4294967296) by lia. assert (Uu : 0 <= i_used i < 4294967296) by lia.
  assert (P : u32 (100 * i_used i) = 100 * i_used i) by (unfold u32; apply Z.mod_small; lia). assert (Z0 : (i_total i =? 0) = false) by (apply Z.eqb_neq; lia). intros j.
  assert (T1 := Forall_inv T); apply Forall_inv_tail in T. assert (T2 := Forall_inv T); apply Forall_inv_tail in T. assert (T3 := Forall_inv T); apply Forall_inv_tail in T. assert (T4 := Forall_inv T); apply Forall_inv_tail in T. assert (T5 := Forall_inv T); apply Forall_inv_tail in T. assert (T6 := Forall_inv T); apply Forall_inv_tail in T. assert (T7 := Forall_inv T); apply Forall_inv_tail in T.
  assert (N1 := Forall_inv N); apply Forall_inv_tail in N. assert (N2 := Forall_inv N); apply Forall_inv_tail in N. assert (N3 := Forall_inv N); apply Forall_inv_tail in N. assert (N4 := Forall_inv N); apply Forall_inv_tail in N. assert (N5 := Forall_inv N); apply Forall_inv_tail in N. assert (N6 := Forall_inv N); apply Forall_inv_tail in N.
  cbv beta in T1, T2, T3, T4, T5, T6, T7, N1, N2, N3, N4, N5, N6. clear T N.
  destruct (uptime_says _ U) as (up & Eu & Du & Qu).
  destruct (size_says _ N1) as (S1 & Q1), (size_says _ N2) as (S2 & Q2), (size_says _ N3) as (S3 & Q3), (size_says _ N4) as (S4 & Q4).
  destruct (size_says _ Tt) as (S5 & Q5), (size_says _ Uu) as (S6 & Q6).
  unfold info_items. subst j. cbn [i_micros i_now i_connected i_rssi i_mac i_reconnects i_version i_date i_flags i_sdk i_chip i_flash i_sketch i_free i_heap i_cpu i_total i_used i_clients i_remotes].
  rewrite Eu, P, Z0.
  eexists. split; [reflexivity|].
  assert (RS : forall p n t, row_tells (p, n, Says t) (item_json (IText n t))) by (intros; eexists; split; reflexivity).
  assert (RC : forall p n k, row_tells (p, n, Counts k) (item_json (INum n k))) by (intros; eexists; split; reflexivity).
  assert (RW : forall p n k t, size_text k t -> row_tells (p, n, Weighs k) (item_json (IText n t))) by (intros; eexists; split; [reflexivity|eexists; split; [reflexivity|assumption]]).
  assert (RL : forall p n k t, duration_text k t -> row_tells (p, n, Lasts k) (item_json (IText n t))) by (intros; eexists; split; [reflexivity|eexists; split; [reflexivity|assumption]]).
  assert (D : match load with Some l => decs l = dec l | None => True end).
  { destruct load as [l|]; [|exact Logic.I]. unfold decs. replace (l <? 0) with false by (symmetry; apply Z.ltb_ge; exact L). reflexivity. }
  assert (RT : forall n v, quotable n = true -> quotable v = true -> item_ready (IText n v)) by (intros; split; assumption).
  assert (RN : forall n k, quotable n = true -> 0 <= k -> item_ready (INum n k)) by (intros; split; assumption).
  split.
  - destruct r, (i_connected i), load as [l|]; cbn [negb andb app]; repeat (apply Forall_cons; [first [apply RT; [reflexivity|first [assumption|apply quotable_app; [reflexivity|apply hex6_quotable]|solve [quot]]]|apply RN; [reflexivity|first [assumption|exact (proj1 N5)]]]|]); apply Forall_nil.
  - unfold system_rows, public_rows. destruct r, (i_connected i), load as [l|]; cbn [negb andb app filter fst snd map s_ssid view];
      try rewrite D; repeat (constructor; [first [apply RS|apply RC|apply RW; assumption|apply RL; assumption]|]); constructor.
Qed.

(** ** In the module *)
Lemma effects_perf : forall up es d d' os, effects_out up es d = Some (d', os) -> d_perf d' = d_perf d.
Proof.
  intros up. induction es as [|e es IH]; intros d d' os H; cbn [effects_out] in H; [congruence|].
  destruct (effect_out up e d) as [[d1 o1]|] eqn:E1; [|discriminate]. destruct (effects_out up es d1) as [[d2 o2]|] eqn:E2; [|discriminate].
  assert (d2 = d') by congruence. subst d2. rewrite (IH _ _ _ E2). unfold effect_out in E1. destruct e; [congruence|].
  destruct (handle_clients _ _ _) as [[s o]|]; [|discriminate]. injection E1 as <- _. reflexivity.
Qed.
Lemma drun_perf : forall fuel sgn es d d' os, drun fuel sgn es d = Done (d', os) -> cpuload_run (turn_times es) (d_perf d) = Some (d_perf d').
Proof.
  intros fuel sgn. induction es as [|e es IH]; intros d d' os H; cbn [drun] in H; [injection H as -> _; reflexivity|].
  destruct (dstep fuel sgn e d) as [[d1 o]| |] eqn:E; try discriminate. destruct (drun fuel sgn es d1) as [[d2 os2]| |] eqn:R; try discriminate.
  assert (d2 = d') by congruence. subst d2. specialize (IH _ _ _ R). destruct e as [a|a up tv c|a q|a u|up]; cbn [turn_times dstep] in *.
  - cbn [cpuload_run]. destruct (cpuload_loop (a_now a) (d_perf d)) as [p|]; [|discriminate]. cbn [lift] in E. injection E as <- _. exact IH.
  - replace (d_perf d) with (d_perf d1); [exact IH|]. destruct (receive sgn a up tv c d) as [[d3 o3]|] eqn:Rc; [|discriminate]. cbn [lift] in E.
    assert (d3 = d1) by congruence. subst d3. unfold receive in Rc. destruct (tic_decode _ _ _ _) as [[p fresh]|]; [|discriminate]. destruct fresh.
    + destruct (tic_notifs _ _ _ _ _ _ _) as [[[es1 n] t]|]; [|discriminate]. exact (effects_perf _ _ _ _ _ Rc).
    + injection Rc as <- _. reflexivity.
  - replace (d_perf d) with (d_perf d1); [exact IH|]. apply handle_happened in E. destruct E as [-> _|_ _ -> _|r s code _ _ _ -> _|s _ _ _ -> _]; reflexivity.
  - replace (d_perf d) with (d_perf d1); [exact IH|]. destruct (upload_keeps a u d) as (_ & _ & _ & _ & _ & P). assert (d1 = fst (handle_upload a u d)) by (injection E as E; rewrite E; reflexivity). subst d1. exact P.
  - replace (d_perf d) with (d_perf d1); [exact IH|]. destruct (handle_clients up None (d_sse d)) as [[s o3]|]; [|discriminate]. cbn [lift] in E. injection E as <- _. reflexivity.
Qed.

Lemma system_route : forall fuel a q d, q_uri q = str "/system.json" ->
  handle fuel a q d = send_json q d (sys_get_info_json (cfg_of d) (with_state d (a_info a))).
Proof. intros fuel a q d U. unfold handle. rewrite U. destruct (q_method q); reflexivity. Qed.
Lemma cpuload_route : forall fuel a q d, q_uri q = str "/cpuload" ->
  handle fuel a q d = if_ok q d (fun _ => Done (d, [Reply 200 Text (cpuload_text (a_now a) (d_perf d))])).
Proof. intros fuel a q d U. unfold handle. rewrite U. destruct (q_method q); reflexivity. Qed.

Lemma boot_perf : forall b d0 acts, start_ok b -> boot b = Some (d0, acts) -> d_perf d0 = perf_init (b_now b).
Proof.
  intros b d0 acts S H. destruct (boot_ok b S) as (d & a & E & _ & _ & _ & _ & _ & _ & P). rewrite H in E.
  assert (d0 = d) by congruence. subst d. exact P.
Qed.
Lemma load_nonneg : forall p, 0 <= cpuload_cpu p.
Proof. intros p. unfold cpuload_cpu. apply Z.div_pos; [apply Z.mod_pos_bound; lia|unfold MAX_COUNTER; lia]. Qed.

(** ** The pages *)
Section Pages.
Variables (fuel : nat) (sgn : bool) (b : start) (d0 : device) (acts : list wifi_act) (es : list devent) (d : device) (os : list (list out)).
Hypotheses (St : start_ok b) (Bo : boot b = Some (d0, acts)) (R : drun fuel sgn es d0 = Done (d, os)).

Lemma load_shown : forall a, load_is (b_now b) es (a_info a) (i_cpu (with_state d (a_info a))).
Proof.
  intros a. unfold load_is, with_state. cbn [i_cpu]. destruct (i_cpu (a_info a)); [|reflexivity].
  eexists. split; [reflexivity|]. intros ds N T Sp C. assert (P := drun_perf _ _ _ _ _ _ R). rewrite (boot_perf _ _ _ St Bo), T in P.
  destruct (c47 _ _ N Sp C) as (p & P' & E & _). rewrite P in P'. injection P' as <-. exact E.
Qed.
Lemma clients_shown : forall a, live_streams (concat os) (i_clients (with_state d (a_info a))).
Proof.
  intros a. destruct (streams_run _ _ _ _ _ _ _ _ St Bo R) as [Ok Op _]. exists (sse_list (d_sse d)).
  split; [exact (so_list _ Ok)|]. split; [exact Op|reflexivity].
Qed.
Lemma page_shown : forall a r, info_ok (a_info a) -> quotable (text Ssid (cfg_of d)) = true ->
  exists n load body vs, live_streams (concat os) n /\ load_is (b_now b) es (a_info a) load /\
    sys_get_info_json (cfg_of d) (with_state d (a_info a)) r = Some body /\ body <> [] /\ json_of body = Some (JArr vs) /\
    Forall2 row_tells ((if r then public_rows else fun l => l) (system_rows (view (cfg_of d)) (a_info a) n load)) vs.
Proof.
  intros a r I Q. exists (i_clients (with_state d (a_info a))), (i_cpu (with_state d (a_info a))).
  destruct (rows_items (cfg_of d) (a_info a) (i_clients (with_state d (a_info a))) (i_cpu (with_state d (a_info a))) r I Q) as (items & E & F & G).
  - cbn [with_state i_clients]. lia.
  - cbn [with_state i_cpu]. destruct (i_cpu (a_info a)); [apply load_nonneg|exact Logic.I].
  - destruct (info_page (cfg_of d) (with_state d (a_info a)) r items E F) as (body & B & J). exists body, (map item_json items).
    split; [apply clients_shown|]. split; [apply load_shown|]. split; [exact B|]. split; [eapply json_of_nonempty; eauto|]. split; [exact J|exact G].
Qed.
Lemma c103_full : forall a q, q_uri q = str "/system.json" -> fully_allowed q d -> info_ok (a_info a) -> quotable (text Ssid (cfg_of d)) = true ->
  exists body n load vs, dstep fuel sgn (DHttp a q) d = Done (d, [Reply 200 Json body]) /\ json_of body = Some (JArr vs) /\
    live_streams (concat os) n /\ load_is (b_now b) es (a_info a) load /\
    Forall2 row_tells (system_rows (view (cfg_of d)) (a_info a) n load) vs.
Proof.
  intros a q U A I Q. destruct (page_shown a false I Q) as (n & load & body & vs & L & Lo & B & N & J & F). exists body, n, load, vs.
  split; [|auto]. cbn [dstep]. rewrite system_route by exact U. apply full_iff in A. unfold send_json, if_ok. rewrite A, B. cbn [lift].
  destruct body; [congruence|reflexivity].
Qed.
Lemma c103_restricted : forall a q, q_uri q = str "/system.json" -> restricted q d -> info_ok (a_info a) -> quotable (text Ssid (cfg_of d)) = true ->
  exists body n load vs, dstep fuel sgn (DHttp a q) d = Done (d, [Reply 200 Json body]) /\ json_of body = Some (JArr vs) /\
    live_streams (concat os) n /\ load_is (b_now b) es (a_info a) load /\
    Forall2 row_tells (public_rows (system_rows (view (cfg_of d)) (a_info a) n load)) vs.
Proof.
  intros a q U A I Q. destruct (page_shown a true I Q) as (n & load & body & vs & L & Lo & B & N & J & F). exists body, n, load, vs.
  split; [|auto]. cbn [dstep]. rewrite system_route by exact U. apply restricted_yes in A. unfold send_json, if_ok. rewrite A, B. cbn [lift].
  destruct body; [congruence|reflexivity].
Qed.
Lemma c47_page : forall a q ds, q_uri q = str "/cpuload" -> ~ refused q d -> 0 <= b_now b < 4294967296 ->
  turn_times es = times (b_now b) ds -> spaced 1000 0 ds -> Forall (fun n => n <= 85000) (counted 0 (firings 1000 0 ds)) ->
  dstep fuel sgn (DHttp a q) d = Done (d, [Reply 200 Text (
    str "PERF: millis=" ++ right 10 (dec (a_now a)) ++ str " counter=" ++ right 6 (dec (average (counted 0 (firings 1000 0 ds)))) ++
    str "/sec load=" ++ dec (100 * (85000 - average (counted 0 (firings 1000 0 ds))) / 85000) ++ str " %" ++ [10])]).
Proof.
  intros a q ds U A N T Sp C. assert (P := drun_perf _ _ _ _ _ _ R). rewrite (boot_perf _ _ _ St Bo), T in P.
  destruct (c47 _ _ N Sp C) as (p & P' & E & B). rewrite P in P'. injection P' as <-.
  destruct (c47_average _ _ N Sp C) as (p & P' & E2). rewrite P in P'. injection P' as <-.
  assert (D : decs (cpuload_cpu (d_perf d)) = dec (100 * (85000 - average (counted 0 (firings 1000 0 ds))) / 85000)).
  { unfold decs. replace (cpuload_cpu (d_perf d) <? 0) with false by (symmetry; apply Z.ltb_ge; lia). rewrite E. reflexivity. }
  cbn [dstep]. rewrite cpuload_route by exact U. unfold if_ok. destruct (get_auth (cfg_of d) q) eqn:G.
  - exfalso. apply A. unfold get_auth in G. unfold refused. destruct (text Username (cfg_of d)); [discriminate|].
    destruct (q_accepts q _ _); [destruct (q_forwarded q); discriminate|]. split; [discriminate|reflexivity].
  - unfold cpuload_text. rewrite E2, D. reflexivity.
  - unfold cpuload_text. rewrite E2, D. reflexivity.
Qed.
End Pages.
