(** Exactly which requests are undefined (C55). *)
From Coq Require Import ZArith List Bool Lia.
From Verif Require Import Base BaseFacts Teleinfo TeleinfoSpec Publish HistorySpec PublishProofs Config ConfigSpec ConfigProofs ConfigMain ConfigHist
  JsonBuild JsonBuildFacts Tic TicSpec PageProofs TemplateProofs RequestProofs Pages PagesSpec PagesProofs Sse SseSpec SseProofs Cpu Web Wifi Device WebSpec WebProofs
  DeviceProofs DeviceMain DeviceSafe.
Import ListNotations.
Open Scope Z_scope.

(** ** The state stays good as long as the module runs *)
Lemma effects_keep : forall sgn up es d d' o, dev_ok sgn d -> effects_out up es d = Some (d', o) -> dev_ok sgn d'.
Proof. intros sgn up es d d' o H E. destruct (effects_some sgn up es d H) as (d2 & o2 & E2 & H2). rewrite E2 in E. injection E as <- _. exact H2. Qed.
Lemma dstep_keeps : forall fuel sgn e d d' o, dev_ok sgn d -> devent_ok e -> dstep fuel sgn e d = Done (d', o) -> dev_ok sgn d'.
Proof.
  intros fuel sgn e d d' o H K S. destruct e as [a|a up tv c|a q|a u|up]; cbn [dstep] in S.
  - destruct H as [A B C D E]. unfold cpuload_loop in S. destruct (tm_expired (a_now a) (pf_timer (d_perf d))) as [f tm]. destruct f.
    + rewrite upd_lt in S by (rewrite D; exact E). cbn [lift] in S. match type of S with Done (?x, _) = _ => assert (Y : d' = x) by congruence end. rewrite Y. constructor; cbn [d_cs d_pub d_sse d_perf pf_vals pf_index]; auto.
      * rewrite app_length, firstn_length. cbn [length]. rewrite skipn_length, D. lia.
      * apply Nat.mod_upper_bound. discriminate.
    + cbn [lift] in S. injection S as <- _. constructor; auto.
  - destruct (receive sgn a up tv c d) as [[d1 o1]|] eqn:R; [|discriminate]. injection S as <- _. unfold receive in R.
    destruct H as [A B C D E]. destruct (decode_some sgn tv c (d_pub d) B K) as (p & f & Dc & P). rewrite Dc in R. destruct f.
    + destruct (tic_notifs _ _ _ _ _ _ _) as [[[es n] t]|]; [|discriminate]. eapply effects_keep; [|exact R]. constructor; assumption.
    + injection R as <- _. constructor; assumption.
  - eapply happened_ok; eauto. eapply handle_happened; eauto.
  - destruct H as [A B C D E].
    destruct u as [n l [|] en|dt [|] en|en|en]; cbn [handle_upload update_finish] in S; injection S as <- _; constructor;
      cbn [with_upload d_cs d_pub d_sse d_perf]; auto;
      cbn [p_dec p_ti]; apply pause_ok; auto.
  - destruct H as [A B C D E]. destruct (clients_some up None (d_sse d) C) as (s & o1 & X & S'). rewrite X in S. cbn [lift] in S. injection S as <- _.
    constructor; auto.
Qed.
Lemma drun_keeps : forall fuel sgn es d d' os, dev_ok sgn d -> Forall devent_ok es -> drun fuel sgn es d = Done (d', os) -> dev_ok sgn d'.
Proof.
  induction es as [|e es IH]; intros d d' os H K R; cbn [drun] in R; [injection R as <- _; exact H|].
  destruct (dstep fuel sgn e d) as [[d1 o]| |] eqn:S; try discriminate. destruct (drun fuel sgn es d1) as [[d2 os2]| |] eqn:R2; try discriminate.
  injection R as <- _. apply Forall_cons_iff in K. eapply IH; [|apply K|exact R2]. eapply dstep_keeps; [exact H|apply K|exact S].
Qed.

(** ** Requests *)
Lemma info_none : forall c i r, i_total i = 0 -> sys_get_info_json c i r = None.
Proof.
  intros c i r H. unfold sys_get_info_json, info_items. destruct (sys_uptime (i_micros i)); [|reflexivity]. rewrite H. reflexivity.
Qed.
Lemma system_route : forall m, find_route routes m (str "/system.json") = Some HSystem.
Proof. intros []; reflexivity. Qed.
Lemma empty_route : forall m uri, cstr uri = [] -> find_route routes m uri = None.
Proof.
  intros m uri H. apply find_route_none. intros I. unfold page_uris in I.
  repeat (destruct I as [I|I]; [subst uri; vm_compute in H; discriminate H|]). destruct I.
Qed.
Lemma empty_static : forall a q, cstr (q_uri q) = [] -> static_file a q = None.
Proof.
  intros a q H. unfold static_file. destruct (q_uri q) as [|c r]; [destruct (method_fits _ _); reflexivity|].
  assert (c = 0). { cbn [cstr] in H. destruct (Z.eqb_spec c 0); [assumption|discriminate]. }
  subst c. destruct (method_fits _ _); reflexivity.
Qed.

Definition reads_outside (a : around) (q : hreq) (d : device) : Prop :=
  cstr (q_uri q) = [] /\ q_accepts q (text Username (cfg_of d)) (text Password (cfg_of d)) = true \/
  q_uri q = str "/system.json" /\ ~ refused q d /\ i_total (a_info a) = 0.

Lemma handle_undefined : forall fuel sgn a q d, dev_ok sgn d -> devent_ok (DHttp a q) ->
  (handle fuel a q d = Undefined <-> reads_outside a q d).
Proof.
  intros fuel sgn a q d H K. split.
  2: { intros [[E Ac]|(E & R & T)]; unfold handle.
       - rewrite empty_route, empty_static by exact E. unfold not_found. rewrite Ac. unfold after_slash. rewrite E. reflexivity.
       - rewrite E, system_route. cbn [serve]. unfold send_json, if_ok. rewrite !info_none by exact T.
         destruct (get_auth (cfg_of d) q) eqn:G; [|reflexivity|reflexivity]. destruct R. unfold refused. unfold get_auth in G.
         destruct (text Username (cfg_of d)); [discriminate|]. destruct (q_accepts _ _ _); [destruct (q_forwarded q); discriminate|]. split; [discriminate|reflexivity]. }
  assert (P := do_ti _ _ H). destruct H as [A B C D E]. assert (I := reachable_inv _ A).
  destruct (published_facts _ P) as (gs & w & _ & G & W & _ & V).
  unfold handle. destruct (find_route routes (q_method q) (q_uri q)) as [h|] eqn:RT.
  - assert (RU : h = HSystem -> q_uri q = str "/system.json").
    { intros ->. apply find_route_uri in RT. destruct RT as (w0 & J & _). unfold routes in J.
      repeat (destruct J as [J|J]; [try discriminate J; injection J as _ <-; reflexivity|]). destruct J. }
    destruct h; cbn [serve]; unfold send_json, if_ok, if_full; destruct (get_auth (cfg_of d) q) eqn:GA; try discriminate;
      try (unfold handle_sse; destruct (handle_sse_data (d_sse d)); discriminate);
      try (destruct (c11 (a_env a) (ti_of d) None P) as (gs' & body & _ & X & _); unfold tic_get_json_dict; rewrite X; discriminate);
      try (destruct (c12 (a_env a) (ti_of d) P) as (gs' & w' & body & _ & _ & X & _); rewrite X; discriminate);
      try (rewrite (emoncms_data _ _ [] G); discriminate);
      try (edestruct files_some as [b X]; rewrite X; discriminate);
      try (edestruct scan_some as [b X]; rewrite X; discriminate);
      try (destruct (handle_read _ _); discriminate).
    + unfold handle_form. destruct (step_inv (Post (a_flash a) true (q_args q)) (d_cs d) (proj1 K) I) as (s & X & _). cbn [cstep] in X.
      destruct (config_handle_form _ _ _ _) as [[s' code]|]; [|discriminate]. discriminate.
    + unfold handle_form. destruct (step_inv (Post (a_flash a) false (q_args q)) (d_cs d) (proj1 K) I) as (s & X & _). cbn [cstep] in X.
      destruct (config_handle_form _ _ _ _) as [[s' code]|]; [|discriminate]. discriminate.
    + intros U. right. split; [auto|]. split; [apply not_refused; congruence|]. destruct (Z.eq_dec (i_total (a_info a)) 0) as [T|T]; [exact T|].
      exfalso. match type of U with context [sys_get_info_json ?c ?i ?r] => destruct (info_some c i r T) as [b X]; rewrite X in U; discriminate end.
    + intros U. right. split; [auto|]. split; [apply not_refused; congruence|]. destruct (Z.eq_dec (i_total (a_info a)) 0) as [T|T]; [exact T|].
      exfalso. match type of U with context [sys_get_info_json ?c ?i ?r] => destruct (info_some c i r T) as [b X]; rewrite X in U; discriminate end.
    + unfold factory_reset. destruct (step_inv (FactoryReset (chip_id (a_env a)) (a_flash a)) (d_cs d) (proj2 K) I) as (s & X & _). cbn [cstep] in X.
      rewrite X. discriminate.
  - destruct (static_file a q); [discriminate|]. unfold not_found.
    destruct (q_accepts q (text Username (cfg_of d)) (text Password (cfg_of d))) eqn:Ac.
    + destruct (cstr (q_uri q)) as [|x l] eqn:CU; [intros _; left; auto|]. unfold after_slash. rewrite CU.
      destruct (value_some (a_env a) (ti_of d) l P) as [[v|] X]; rewrite X; [discriminate|]. destruct (args_loop _ _ _ _); discriminate.
    + destruct (args_loop _ _ _ _); discriminate.
Qed.
Lemma c55 : forall fuel sgn b d0 acts es d os a q, start_ok b -> boot b = Some (d0, acts) ->
  Forall devent_ok es -> drun fuel sgn es d0 = Done (d, os) -> devent_ok (DHttp a q) ->
  (handle fuel a q d = Undefined <->
   cstr (q_uri q) = [] /\ q_accepts q (text Username (cfg_of d)) (text Password (cfg_of d)) = true \/
   q_uri q = str "/system.json" /\ ~ refused q d /\ i_total (a_info a) = 0).
Proof.
  intros fuel sgn b d0 acts es d os a q S B K R O. destruct (boot_dev_ok sgn b S) as (d1 & acts1 & E & H).
  assert (d1 = d0) by congruence. subst d1. apply (handle_undefined fuel sgn a q d); [|exact O]. eapply drun_keeps; eauto.
Qed.
