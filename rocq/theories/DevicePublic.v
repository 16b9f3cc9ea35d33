(** Non-interference: what restricted clients, unauthenticated clients and the rest of the world see does not depend on the
    secrets of the configuration. *)
From Coq Require Import ZArith List Bool Lia.
From Verif Require Import Base BaseFacts Teleinfo TeleinfoSpec Publish Config ConfigSpec ConfigProofs ConfigMain ConfigHist JsonBuild Tic Pages PagesSpec PagesProofs Sse Cpu Web Wifi Device WebSpec WebProofs DeviceProofs DeviceMain.
Import ListNotations.
Open Scope Z_scope.

Lemma form_public : forall o fm s1 s2, Inv s1 -> Inv s2 -> form_bytes fm -> same_public (c_cfg s1) (c_cfg s2) ->
  exists s1' s2' code, config_handle_form o true fm s1 = Some (s1', code) /\ config_handle_form o true fm s2 = Some (s2', code) /\
    same_public (c_cfg s1') (c_cfg s2').
Proof.
  intros o fm s1 s2 I1 I2 Hf P. destruct (ticked fm "save") eqn:T.
  - unfold config_handle_form. rewrite has_arg_ticked, T.
    destruct I1 as (W1 & _ & E1), I2 as (W2 & _ & E2).
    destruct (form_object true fm (c_cfg s1) Hf W1) as (a1 & b1 & A1 & B1 & J1). injection A1 as <-. rewrite B1.
    destruct (form_object true fm (c_cfg s2) Hf W2) as (a2 & b2 & A2 & B2 & J2). injection A2 as <-. rewrite B2.
    destruct (config_save_spec o (mk_cs b1 (c_ee s1)) (proj1 J1) E1) as (s1' & -> & C1 & _).
    destruct (config_save_spec o (mk_cs b2 (c_ee s2)) (proj1 J2) E2) as (s2' & -> & C2 & _).
    exists s1', s2', 200. split; [reflexivity|split; [reflexivity|]].
    intros f F. rewrite C1, C2, !get_secured. cbn [c_cfg]. unfold sealed.
    rewrite !get_set_other by (intros <-; discriminate F).
    destruct J1 as [_ J1], J2 as [_ J2]. rewrite J1, J2.
    replace (form_field true fm (fun x => get x (c_cfg s1)) f) with (form_field true fm (fun x => get x (c_cfg s2)) f); [reflexivity|].
    unfold form_field. destruct f; cbn [form_common_field]; try reflexivity; try discriminate F; rewrite P by reflexivity; reflexivity.
  - unfold config_handle_form. rewrite has_arg_ticked, T. exists s1, s2, 400. auto.
Qed.
Lemma form_login : forall o fm s s' code, Inv s -> form_bytes fm -> config_handle_form o true fm s = Some (s', code) ->
  text Username (c_cfg s') = text Username (c_cfg s) /\ text Password (c_cfg s') = text Password (c_cfg s).
Proof.
  intros o fm s s' code I Hf H. destruct (ticked fm "save") eqn:T.
  - destruct (handle_form_spec o true fm s I Hf T) as (s1 & E & _ & V & _). rewrite H in E. injection E as <- _.
    split; [exact (f_equal s_username V)|exact (f_equal s_password V)].
  - unfold config_handle_form in H. rewrite has_arg_ticked, T in H. injection H as <- _. auto.
Qed.

Lemma same_get : forall c1 c2 f, same_public c1 c2 -> secret f = false -> get f c1 = get f c2.
Proof. intros c1 c2 f H F. exact (H f F). Qed.
Lemma timers_public : forall now c1 c2 t, same_public c1 c2 -> tic_make_timers now c1 t = tic_make_timers now c2 t.
Proof.
  intros now c1 c2 t H. unfold tic_make_timers.
  repeat match goal with
  | |- context [text ?f c1] => rewrite (same_text c1 c2 f H eq_refl)
  | |- context [num ?f c1] => rewrite (same_num c1 c2 f H eq_refl)
  end. reflexivity.
Qed.

Definition rank (q : hreq) (d : device) : access := get_auth (cfg_of d) q.
Lemma refused_accepts : forall q d, refused q d -> q_accepts q (text Username (cfg_of d)) (text Password (cfg_of d)) = false.
Proof. intros q d [_ H]. exact H. Qed.

Lemma handle_public : forall fuel a q d1 d2, same_but_secrets d1 d2 -> Inv (d_cs d1) -> Inv (d_cs d2) -> form_bytes (q_args q) ->
  outsider d1 d2 (DHttp a q) -> same_outcome (handle fuel a q d1) (handle fuel a q d2).
Proof.
  intros fuel a q d1 d2 S I1 I2 Hf O.
  assert (P : exists g b, get_auth (cfg_of d1) q = g /\ get_auth (cfg_of d2) q = g /\ g <> Full /\
      q_accepts q (text Username (cfg_of d1)) (text Password (cfg_of d1)) = b /\
      q_accepts q (text Username (cfg_of d2)) (text Password (cfg_of d2)) = b).
  { destruct O as [[A B]|[A B]].
    - exists Restricted, true. rewrite !restricted_yes by assumption. destruct A as (_ & A & _), B as (_ & B & _). repeat split; auto. discriminate.
    - exists NoAccess, false. rewrite !refused_no by assumption. destruct A as (_ & A), B as (_ & B). repeat split; auto. discriminate. }
  destruct P as (g & b & G1 & G2 & NF & A1 & A2).
  assert (S' := S). destruct S' as (SP & S1 & S2 & S3 & S4 & S5 & S6).
  unfold handle. destruct (find_route routes (q_method q) (q_uri q)) as [h|].
  - destruct h; cbn [serve]; unfold send_json, if_ok, if_full; rewrite ?G1, ?G2; destruct g; try congruence;
      try (split; [reflexivity|exact S]; fail).
    + unfold handle_sse. rewrite S4. destruct (handle_sse_data (d_sse d2)) as [s o]. split; [reflexivity|].
      repeat split; cbn [with_sse d_cs d_pub d_ns d_tm d_sse d_perf d_upd cfg_of]; auto.
    + rewrite S5. split; [reflexivity|exact S].
    + unfold handle_form. destruct (form_public (a_flash a) (q_args q) (d_cs d1) (d_cs d2) I1 I2 Hf SP) as (s1 & s2 & code & -> & -> & Q).
      cbn [lift same_outcome]. split; [reflexivity|].
      repeat split; cbn [with_tm with_cs d_cs d_pub d_ns d_tm d_sse d_perf d_upd cfg_of]; auto.
      rewrite S3. apply timers_public. exact Q.
    + unfold ti_of. rewrite S1. destruct (tic_get_json_dict _ _); cbn; auto.
    + unfold ti_of. rewrite S1. destruct (tic_get_json_array _ _); cbn; auto.
    + unfold ti_of. rewrite S1. destruct (tic_emoncms_data _ _); cbn; auto.
    + unfold with_state. rewrite S4, S5, (info_page_public (cfg_of d1) (cfg_of d2)). destruct (sys_get_info_json _ _ _); cbn; auto.
    + rewrite (config_page_public (cfg_of d1) (cfg_of d2) SP). cbn; auto.
    + destruct (handle_read _ _); split; auto.
  - destruct (static_file a q); [split; auto|]. unfold not_found. rewrite A1, A2. unfold ti_of. rewrite S1.
    destruct (if b then _ else _) as [[v|]|]; [split; auto|destruct (args_loop _ _ _ _); cbn; auto|exact I].
Qed.
Lemma handle_login : forall fuel a q d d' os, Inv (d_cs d) -> form_bytes (q_args q) -> get_auth (cfg_of d) q <> Full ->
  handle fuel a q d = Done (d', os) ->
  text Username (cfg_of d') = text Username (cfg_of d) /\ text Password (cfg_of d') = text Password (cfg_of d).
Proof.
  intros fuel a q d d' os I Hf G H. apply handle_happened in H.
  destruct H as [-> _|_ _ -> _|r s code _ E F -> _|s _ E F -> _]; auto.
  - destruct r; [|contradiction]. apply (form_login _ _ _ _ _ I Hf F).
  - apply full_iff in E. contradiction.
Qed.

(** *** The notifications do not look at the secrets *)
Ltac publicly H := repeat match goal with
  | |- context [text ?f ?c1] => match type of H with same_public c1 ?c2 => rewrite (same_text c1 c2 f H eq_refl) end
  | |- context [num ?f ?c1] => match type of H with same_public c1 ?c2 => rewrite (same_num c1 c2 f H eq_refl) end
  | |- context [bit ?n ?f ?c1] => match type of H with same_public c1 ?c2 => rewrite (same_bit c1 c2 n f H eq_refl) end
  | |- context [get ?f ?c1] => match type of H with same_public c1 ?c2 => rewrite (same_get c1 c2 f H eq_refl) end
  end.
Lemma http_notif_public : forall e c1 c2 t w, same_public c1 c2 -> http_notif e c1 t w = http_notif e c2 t w.
Proof. intros e c1 c2 t w H. unfold http_notif. publicly H. reflexivity. Qed.
Lemma seuils_public : forall c1 c2 t s, same_public c1 c2 -> notif_seuils c1 t s = notif_seuils c2 t s.
Proof. intros c1 c2 t s H. unfold notif_seuils. publicly H. reflexivity. Qed.
Lemma jeedom_public : forall c1 c2 t, same_public c1 c2 -> jeedom_notif c1 t = jeedom_notif c2 t.
Proof. intros c1 c2 t H. unfold jeedom_notif, jeedom_group. publicly H. reflexivity. Qed.
Lemma emoncms_public : forall c1 c2 t, same_public c1 c2 -> emoncms_notif c1 t = emoncms_notif c2 t.
Proof. intros c1 c2 t H. unfold emoncms_notif. publicly H. reflexivity. Qed.
Lemma send_public : forall e c1 c2 t w, same_public c1 c2 -> send e c1 t w = send e c2 t w.
Proof. intros e c1 c2 t [w|] H; [|reflexivity]. unfold send. rewrite (http_notif_public e c1 c2 t w H). reflexivity. Qed.
Lemma notifs_http_public : forall e c1 c2 now t s tm, same_public c1 c2 -> notifs_http e c1 now t s tm = notifs_http e c2 now t s tm.
Proof.
  intros e c1 c2 now t s tm H. unfold notifs_http. publicly H. destruct (text HHost c2); [reflexivity|].
  destruct (if bit 1 HFlags c2 then _ else _) as [[s1 w1]|]; [|reflexivity]. rewrite (send_public e c1 c2 t w1 H).
  destruct (send e c2 t w1); [|reflexivity]. rewrite (seuils_public c1 c2 t s1 H).
  destruct (if bit 2 HFlags c2 then _ else _) as [[s2 w2]|]; [|reflexivity]. rewrite (send_public e c1 c2 t w2 H).
  destruct (send e c2 t w2); [|reflexivity].
  destruct (if bit 0 HFlags c2 then _ else _) as [[s3 w3]|]; [|reflexivity]. rewrite (send_public e c1 c2 t w3 H).
  destruct (send e c2 t w3); [|reflexivity]. destruct (tm_expired now tm) as [f tm']. rewrite (send_public e c1 c2 t _ H). reflexivity.
Qed.
Lemma notifs_public : forall e c1 c2 now n t s tm, same_public c1 c2 -> tic_notifs e c1 now n t s tm = tic_notifs e c2 now n t s tm.
Proof.
  intros e c1 c2 now n t s tm H. unfold tic_notifs. rewrite (notifs_http_public e c1 c2 _ _ _ _ H).
  destruct (notifs_http e c2 now t s (t_http tm)) as [[[o s'] th]|]; [|reflexivity].
  destruct (tm_expired now (t_jeedom tm)) as [fj tj]. rewrite (jeedom_public c1 c2 t H).
  destruct (if fj then _ else _); [|reflexivity].
  destruct (tm_expired now (t_emoncms tm)) as [fe te]. rewrite (emoncms_public c1 c2 t H). reflexivity.
Qed.

Lemma effects_public : forall up es d1 d2, same_but_secrets d1 d2 ->
  match effects_out up es d1, effects_out up es d2 with
  | Some (d1', o1), Some (d2', o2) => o1 = o2 /\ same_but_secrets d1' d2' /\ d_cs d1' = d_cs d1 /\ d_cs d2' = d_cs d2
  | None, None => True
  | _, _ => False
  end.
Proof.
  intros up. induction es as [|e es IH]; intros d1 d2 S; cbn [effects_out]; [auto|].
  destruct e as [w r|dt]; cbn [effect_out].
  - specialize (IH d1 d2 S). destruct (effects_out up es d1) as [[x1 y1]|], (effects_out up es d2) as [[x2 y2]|]; try tauto.
    destruct IH as (-> & IH). auto.
  - assert (S' := S). destruct S' as (SP & S1 & S2 & S3 & S4 & S5 & S6). rewrite S4.
    destruct (handle_clients up (Some dt) (d_sse d2)) as [[s o]|]; [|exact I].
    assert (S' : same_but_secrets (with_sse s d1) (with_sse s d2)).
    { repeat split; cbn [with_sse d_cs d_pub d_ns d_tm d_sse d_perf d_upd cfg_of]; auto. }
    specialize (IH _ _ S'). cbn [with_sse d_cs] in IH.
    destruct (effects_out up es (with_sse s d1)) as [[x1 y1]|], (effects_out up es (with_sse s d2)) as [[x2 y2]|]; try tauto.
    destruct IH as (-> & IH). auto.
Qed.
Definition same_login (d d' : device) : Prop :=
  text Username (cfg_of d') = text Username (cfg_of d) /\ text Password (cfg_of d') = text Password (cfg_of d).
Lemma same_login_cs : forall d d', d_cs d' = d_cs d -> same_login d d'.
Proof. intros d d' H. unfold same_login, cfg_of. rewrite H. auto. Qed.
Lemma dstep_public : forall fuel sgn e d1 d2, same_but_secrets d1 d2 -> Inv (d_cs d1) -> Inv (d_cs d2) -> devent_ok e ->
  outsider d1 d2 e -> same_outcome (dstep fuel sgn e d1) (dstep fuel sgn e d2) /\
  (forall d1' o, dstep fuel sgn e d1 = Done (d1', o) -> same_login d1 d1') /\
  (forall d2' o, dstep fuel sgn e d2 = Done (d2', o) -> same_login d2 d2').
Proof.
  intros fuel sgn e d1 d2 S I1 I2 K O. assert (S' := S). destruct S' as (SP & S1 & S2 & S3 & S4 & S5 & S6). destruct e; cbn [dstep].
  - rewrite S5. destruct (cpuload_loop (a_now a) (d_perf d2)); cbn [lift same_outcome].
    + repeat split; auto; injection H as <- _; reflexivity.
    + repeat split; auto; discriminate.
  - assert (Q : match receive sgn a up tv c d1, receive sgn a up tv c d2 with
               | Some (d1', o1), Some (d2', o2) => o1 = o2 /\ same_but_secrets d1' d2' /\ d_cs d1' = d_cs d1 /\ d_cs d2' = d_cs d2
               | None, None => True | _, _ => False end).
    { unfold receive. rewrite S1, S2, S3, S4. destruct (tic_decode sgn tv c (d_pub d2)) as [[p f]|]; [|exact I]. destruct f.
      - rewrite (notifs_public _ _ _ _ _ _ _ _ SP).
        destruct (tic_notifs (a_env a) (cfg_of d2) (a_now a) (length (sse_list (d_sse d2))) (p_ti p) (d_ns d2) (d_tm d2)) as [[[es n] t]|]; [|exact I].
        apply (effects_public up es (mk_dev (d_cs d1) p n t (d_sse d2) (d_perf d1) (d_upd d1)) (mk_dev (d_cs d2) p n t (d_sse d2) (d_perf d2) (d_upd d2))).
        repeat split; cbn [d_cs d_pub d_ns d_tm d_sse d_perf d_upd cfg_of]; auto.
      - split; [reflexivity|]. repeat split; cbn [d_cs d_pub d_ns d_tm d_sse d_perf d_upd cfg_of]; auto. }
    destruct (receive sgn a up tv c d1) as [[x1 y1]|], (receive sgn a up tv c d2) as [[x2 y2]|]; try tauto; cbn [lift same_outcome].
    + destruct Q as (-> & Q & Q1 & Q2). split; [auto|]. split; intros d' o H; injection H as <- _; apply same_login_cs; auto.
    + split; [auto|]. split; discriminate.
  - assert (N : get_auth (cfg_of d1) q <> Full /\ get_auth (cfg_of d2) q <> Full).
    { destruct O as [[A B]|[A B]]; [rewrite !restricted_yes by assumption|rewrite !refused_no by assumption]; split; discriminate. }
    destruct K as [K _]. split; [apply handle_public; assumption|].
    split; intros d' o H; eapply handle_login; eauto; apply N.
  - assert (Q : snd (handle_upload a u d1) = snd (handle_upload a u d2) /\ same_but_secrets (fst (handle_upload a u d1)) (fst (handle_upload a u d2))).
    { destruct u as [n l [|] en|dt [|] en|en|en]; cbn [handle_upload update_finish fst snd]; (split; [reflexivity|]);
        try exact S; repeat split; cbn [with_upload d_cs d_pub d_ns d_tm d_sse d_perf d_upd cfg_of p_dec p_ti p_pause]; auto; rewrite S1; reflexivity. }
    destruct (upload_keeps a u d1) as (U1 & _), (upload_keeps a u d2) as (U2 & _).
    destruct (handle_upload a u d1) as [x1 y1], (handle_upload a u d2) as [x2 y2]. cbn [fst snd] in *. cbn [same_outcome].
    split; [exact Q|]. split; intros d' o H; injection H as <- _; apply same_login_cs; auto.
  - rewrite S4. destruct (handle_clients up None (d_sse d2)) as [[s o]|]; cbn [lift same_outcome].
    + repeat split; cbn [with_sse d_cs d_pub d_ns d_tm d_sse d_perf d_upd cfg_of]; auto; injection H as <- _; reflexivity.
    + repeat split; auto; discriminate.
Qed.
Lemma outsider_login : forall d1 d2 d1' d2' e, same_login d1 d1' -> same_login d2 d2' -> outsider d1 d2 e -> outsider d1' d2' e.
Proof.
  intros d1 d2 d1' d2' e [A1 B1] [A2 B2] H. destruct e; auto. unfold outsider, restricted, refused in *. rewrite A1, B1, A2, B2. exact H.
Qed.
Lemma drun_public : forall fuel sgn es d1 d2, same_but_secrets d1 d2 -> reachable (d_cs d1) -> reachable (d_cs d2) -> Forall devent_ok es ->
  Forall (outsider d1 d2) es -> same_outcome (drun fuel sgn es d1) (drun fuel sgn es d2).
Proof.
  intros fuel sgn. induction es as [|e es IH]; intros d1 d2 S R1 R2 K O; cbn [drun]; [split; auto|].
  apply Forall_cons_iff in K. destruct K as [K Ks]. apply Forall_cons_iff in O. destruct O as [O Os].
  destruct (dstep_public fuel sgn e d1 d2 S (reachable_inv _ R1) (reachable_inv _ R2) K O) as (P & L1 & L2).
  assert (Q1 := fun d' o H => dstep_reachable fuel sgn e d1 d' o H K R1).
  assert (Q2 := fun d' o H => dstep_reachable fuel sgn e d2 d' o H K R2).
  destruct (dstep fuel sgn e d1) as [[x1 y1]| |], (dstep fuel sgn e d2) as [[x2 y2]| |]; cbn [same_outcome] in P; try tauto; try exact I.
  destruct P as [-> P].
  assert (T : same_outcome (drun fuel sgn es x1) (drun fuel sgn es x2)).
  { apply IH; eauto. revert Os. apply Forall_impl. intros e'. eapply outsider_login; eauto. }
  destruct (drun fuel sgn es x1) as [[z1 w1]| |], (drun fuel sgn es x2) as [[z2 w2]| |]; cbn [same_outcome] in *; try tauto.
  destruct T as [-> T]. auto.
Qed.
