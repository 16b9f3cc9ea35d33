(** Proofs: what the commands typed on the serial port may change. *)
From Coq Require Import ZArith List Bool Lia ZifyBool.
From Verif Require Import Base BaseFacts Teleinfo TeleinfoSpec Publish HistorySpec PublishProofs Config ConfigSpec ConfigProofs ConfigMain ConfigHist
  Json JsonBuild Tic TicSpec Pages PagesSpec Sse SseSpec SseProofs Cpu Web Wifi Device WebSpec WebProofs
  DeviceProofs DeviceMain DeviceSafe DeviceFinal DevicePages Cli CliSpec CliProofs Life LifeSpec LifeProofs LifeMain LifeFinal
  SlotSpec ChainSpec ChainProofs ChainMain SessionSpec SessionProofs MeddleSpec.
Import ListNotations.
Open Scope Z_scope.

Lemma core_refl : forall d, same_core d d.
Proof. intros d. repeat split. Qed.
Lemma core_trans : forall a b c, same_core a b -> same_core b c -> same_core a c.
Proof. unfold same_core. intuition congruence. Qed.
Lemma core_shape : forall d d', same_core d d' -> d = mk_dev (d_cs d') (d_pub d') (d_ns d') (d_tm d) (d_sse d) (d_perf d') (d_upd d').
Proof. intros [] [] H. unfold same_core in H. cbn in *. intuition congruence. Qed.

Lemma streams_drop : forall o, filter essential (map Streaming o) = [].
Proof. induction o as [|x o IH]; [reflexivity|exact IH]. Qed.
Lemma streams_drop_out : forall o, filter essential (map sse_out o) = [].
Proof. induction o as [|x o IH]; [reflexivity|]. cbn [map filter]. destruct x; exact IH. Qed.

Definition lasts (x : effect) : bool := match x with Request w _ => negb (periodic w) | SseData _ => false end.
Definition as_out (x : effect) : list out := match x with Request w r => [Sent w r] | SseData _ => [] end.
Lemma effects_core : forall up es d d' o, effects_out up es d = Some (d', o) ->
  same_core d' d /\ filter essential o = flat_map as_out (filter lasts es).
Proof.
  intros up. induction es as [|x es IH]; intros d d' o H; cbn [effects_out] in H; [injection H as <- <-; split; [apply core_refl|reflexivity]|].
  destruct (effect_out up x d) as [[d1 o1]|] eqn:E; [|discriminate]. destruct (effects_out up es d1) as [[d2 o2]|] eqn:E2; [|discriminate].
  injection H as <- <-. destruct (IH _ _ _ E2) as (C & F). rewrite filter_app, F. destruct x as [w r|t]; cbn [effect_out] in E.
  - injection E as <- <-. split; [exact C|]. cbn [filter essential lasts]. destruct (periodic w); reflexivity.
  - destruct (handle_clients up (Some t) (d_sse d)) as [[s e]|]; [|discriminate]. injection E as <- <-. split.
    + eapply core_trans; [exact C|]. repeat split.
    + rewrite streams_drop. reflexivity.
Qed.
Lemma send_periodic : forall e c t (f : bool) o, send e c t (if f then Some MAJ else None) = Some o -> filter lasts o = [].
Proof.
  intros e c t [|] o H; cbn [send] in H; [|injection H as <-; reflexivity]. destruct (http_notif e c t MAJ); [|discriminate]. injection H as <-. reflexivity.
Qed.
Lemma http_core : forall e c now t s tm1 tm2 o1 o2 n1 n2 t1 t2, notifs_http e c now t s tm1 = Some (o1, n1, t1) ->
  notifs_http e c now t s tm2 = Some (o2, n2, t2) -> n1 = n2 /\ filter lasts o1 = filter lasts o2.
Proof.
  intros e c now t s tm1 tm2 o1 o2 n1 n2 t1 t2 A B. unfold notifs_http in A, B. destruct (text HHost c) as [|h hs]; [injection A as <- <- <-; injection B as <- <- <-; auto|].
  destruct (if bit 1 HFlags c then notif_ptec t s else Some (s, None)) as [[s1 w1]|]; [|discriminate].
  destruct (send e c t w1) as [p1|]; [|discriminate].
  destruct (if bit 2 HFlags c then notif_seuils c t s1 else Some (s1, None)) as [[s2 w2]|]; [|discriminate].
  destruct (send e c t w2) as [p2|]; [|discriminate].
  destruct (if bit 0 HFlags c then notif_adps t s2 else Some (s2, None)) as [[s3 w3]|]; [|discriminate].
  destruct (send e c t w3) as [p3|]; [|discriminate].
  destruct (tm_expired now tm1) as [f1 u1], (tm_expired now tm2) as [f2 u2].
  destruct (send e c t (if f1 then Some MAJ else None)) as [q1|] eqn:E1; [|discriminate].
  destruct (send e c t (if f2 then Some MAJ else None)) as [q2|] eqn:E2; [|discriminate].
  injection A as <- <- <-. injection B as <- <- <-. split; [reflexivity|]. rewrite !filter_app, (send_periodic _ _ _ _ _ E1), (send_periodic _ _ _ _ _ E2). reflexivity.
Qed.
Lemma jeedom_drop : forall r, filter lasts (as_effect JEEDOM r) = [].
Proof. intros [|]; reflexivity. Qed.
Lemma emoncms_drop : forall r, filter lasts (as_effect EMONCMS r) = [].
Proof. intros [|]; reflexivity. Qed.
Lemma notifs_core : forall e c now k1 k2 t s tm1 tm2 o1 o2 n1 n2 t1 t2, tic_notifs e c now k1 t s tm1 = Some (o1, n1, t1) ->
  tic_notifs e c now k2 t s tm2 = Some (o2, n2, t2) -> n1 = n2 /\ filter lasts o1 = filter lasts o2.
Proof.
  assert (P : forall e c now k t s tm o n t1, tic_notifs e c now k t s tm = Some (o, n, t1) ->
    exists oh th, notifs_http e c now t s (t_http tm) = Some (oh, n, th) /\ filter lasts o = filter lasts oh).
  { intros e c now k t s tm o n t1 A. unfold tic_notifs in A. destruct (notifs_http e c now t s (t_http tm)) as [[[oh n'] th]|]; [|discriminate].
    destruct (tm_expired now (t_jeedom tm)) as [fj tj]. destruct (if fj then jeedom_notif c t else Some None) as [rj|]; [|discriminate].
    destruct (tm_expired now (t_emoncms tm)) as [fe te]. destruct (if fe then emoncms_notif c t else Some None) as [re|]; [|discriminate].
    destruct (tm_expired now (t_sse tm)) as [fs ts].
    assert (D : forall ds, (if fs && negb (Nat.eqb k 0) then d <- tic_get_json_dict e t ;; Some [SseData d] else Some []) = Some ds -> filter lasts ds = []).
    { intros ds X. destruct (fs && negb (Nat.eqb k 0)); [|injection X as <-; reflexivity]. destruct (tic_get_json_dict e t); [|discriminate]. injection X as <-. reflexivity. }
    destruct (if fs && negb (Nat.eqb k 0) then d <- tic_get_json_dict e t ;; Some [SseData d] else Some []) as [ds|]; [|discriminate].
    injection A as <- <- <-. exists oh, th. split; [reflexivity|]. rewrite !filter_app, jeedom_drop, emoncms_drop, (D _ eq_refl), !app_nil_r. reflexivity. }
  intros e c now k1 k2 t s tm1 tm2 o1 o2 n1 n2 t1 t2 A B. destruct (P _ _ _ _ _ _ _ _ _ _ A) as (oh1 & th1 & A1 & ->).
  destruct (P _ _ _ _ _ _ _ _ _ _ B) as (oh2 & th2 & B1 & ->). exact (http_core _ _ _ _ _ _ _ _ _ _ _ _ _ A1 B1).
Qed.
Lemma receive_core : forall sgn a up tv c d d' e1 e2 o1 o2, same_core d d' -> receive sgn a up tv c d = Some (e1, o1) ->
  receive sgn a up tv c d' = Some (e2, o2) -> same_core e1 e2 /\ filter essential o1 = filter essential o2.
Proof.
  intros sgn a up tv c d d' e1 e2 o1 o2 C A B. unfold receive in A, B. destruct C as (C1 & C2 & C3 & C4 & C5). unfold cfg_of in *.
  rewrite C1, C2, C3, C4, C5 in A. destruct (tic_decode sgn tv c (d_pub d')) as [[p fresh]|]; [|discriminate]. destruct fresh.
  - destruct (tic_notifs (a_env a) (c_cfg (d_cs d')) (a_now a) (length (sse_list (d_sse d))) (p_ti p) (d_ns d') (d_tm d)) as [[[es1 n1] t1]|] eqn:N1; [|discriminate].
    destruct (tic_notifs (a_env a) (c_cfg (d_cs d')) (a_now a) (length (sse_list (d_sse d'))) (p_ti p) (d_ns d') (d_tm d')) as [[[es2 n2] t2]|] eqn:N2; [|discriminate].
    destruct (notifs_core _ _ _ _ _ _ _ _ _ _ _ _ _ _ _ N1 N2) as (-> & F).
    destruct (effects_core _ _ _ _ _ A) as (X1 & Y1). destruct (effects_core _ _ _ _ _ B) as (X2 & Y2). rewrite Y1, Y2, F. split; [|reflexivity].
    unfold same_core in *. cbn in *. intuition congruence.
  - injection A as <- <-. injection B as <- <-. split; [repeat split; auto|reflexivity].
Qed.

(** ** Pages *)
Lemma page_core : forall fuel a q d d' e1 o1, same_core d d' -> ~ about_streams (q_uri q) -> handle fuel a q d = Done (e1, o1) ->
  exists e2, handle fuel a q d' = Done (e2, o1) /\ same_core e1 e2.
Proof.
  intros fuel a q d d' e1 o1 C N H. rewrite (core_shape _ _ C) in H. unfold handle in *.
  assert (K : find_route routes (q_method q) (q_uri q) <> Some HStream /\ find_route routes (q_method q) (q_uri q) <> Some HSystem).
  { clear H. unfold routes. cbn [find_route method_fits andb].
    destruct (beq (str "/sse/json") (q_uri q)) eqn:E1; [apply beq_true in E1; destruct N; rewrite <- E1; right; left; reflexivity|].
    destruct (beq (str "/tic") (q_uri q)) eqn:E2; [apply beq_true in E2; destruct N; rewrite <- E2; left; reflexivity|].
    destruct (beq (str "/system.json") (q_uri q)) eqn:E3; [apply beq_true in E3; destruct N; rewrite <- E3; right; right; left; reflexivity|].
    repeat match goal with |- context [if ?b then Some _ else _] => destruct b; [split; discriminate|] end. split; discriminate. }
  destruct (find_route routes (q_method q) (q_uri q)) as [h|].
  - destruct K as (K1 & K2). destruct h; try congruence; clear K1 K2;
      cbn [serve] in *; unfold send_json, if_ok, if_full, handle_form, factory_reset, cfg_of, ti_of in *; cbn [d_cs d_pub d_ns d_perf d_upd] in *;
      destruct (get_auth (c_cfg (d_cs d')) q);
      repeat match type of H with
      | Done _ = Done _ => fail 1
      | match ?x with _ => _ end = _ => destruct x; cbn [lift] in H |- *
      | lift (match ?x with _ => _ end) = _ => destruct x; cbn [lift] in H |- *
      end; cbn [lift] in *; try discriminate H;
      try (injection H as <- <-; eexists; split; [reflexivity|]; repeat split; fail).
  - destruct (static_file a q) as [o|]; [injection H as <- <-; eexists; split; [reflexivity|]; repeat split|].
    unfold not_found, cfg_of, ti_of in *. cbn [d_cs d_pub d_ns d_perf d_upd] in *.
    repeat match type of H with match ?x with _ => _ end = _ => destruct x; try discriminate H end;
      injection H as <- <-; eexists; split; try reflexivity; repeat split.
Qed.

Lemma system_core : forall q d f e o, send_json q d f = Done (e, o) -> e = d /\ filter essential o = [].
Proof.
  intros q d f e o H. unfold send_json, if_ok in H. destruct (get_auth (cfg_of d) q); try (injection H as <- <-; split; reflexivity).
  all: match type of H with lift (match ?x with _ => _ end) = _ => destruct x end; cbn [lift] in H; try discriminate H; injection H as <- <-; split; reflexivity.
Qed.
Lemma stream_core : forall q d e o, if_ok q d (fun _ => handle_sse d) = Done (e, o) -> same_core e d /\ filter essential o = [].
Proof.
  intros q d e o H. unfold if_ok, handle_sse in H. destruct (handle_sse_data (d_sse d)) as [s x].
  destruct (get_auth (cfg_of d) q); injection H as <- <-; (split; [repeat split|]); try reflexivity; apply streams_drop_out.
Qed.
Lemma http_step_core : forall fuel a q d d' e1 e2 o1 o2, same_core d d' -> handle fuel a q d = Done (e1, o1) -> handle fuel a q d' = Done (e2, o2) ->
  same_core e1 e2 /\ filter essential o1 = filter essential o2.
Proof.
  intros fuel a q d d' e1 e2 o1 o2 C A B.
  assert (D : about_streams (q_uri q) \/ ~ about_streams (q_uri q)).
  { unfold about_streams. destruct (in_dec (list_eq_dec Z.eq_dec) (q_uri q) [str "/tic"; str "/sse/json"; str "/system.json"]); auto. }
  destruct D as [D|D].
  - assert (G : forall d e o, handle fuel a q d = Done (e, o) -> same_core e d /\ filter essential o = []).
    { clear - D. intros d e o H. unfold handle in H.
      assert (R : exists h, find_route routes (q_method q) (q_uri q) = Some h /\ (h = HStream \/ h = HSystem)).
      { destruct D as [<-|[<-|[<-|[]]]]; destruct (q_method q); eexists; (split; [reflexivity|auto]). }
      destruct R as (h & Eh & Hh). rewrite Eh in H. destruct Hh as [-> | ->]; cbn [serve] in H; [exact (stream_core _ _ _ _ H)|].
      destruct (system_core _ _ _ _ _ H) as (-> & E). split; [apply core_refl|exact E]. }
    destruct (G _ _ _ A) as (A1 & ->). destruct (G _ _ _ B) as (B1 & ->). split; [|reflexivity].
    unfold same_core in *. intuition congruence.
  - destruct (page_core _ _ _ _ _ _ _ C D A) as (e & B' & S). rewrite B in B'. assert (e2 = e /\ o2 = o1) as (-> & ->) by (split; congruence). auto.
Qed.
Lemma upload_core : forall a u d d', same_core d d' -> same_core (fst (handle_upload a u d)) (fst (handle_upload a u d')) /\
  snd (handle_upload a u d) = snd (handle_upload a u d').
Proof.
  intros a u d d' (C1 & C2 & C3 & C4 & C5). unfold same_core.
  destruct u as [n l [|] en|dt [|] en|en|en]; cbn [handle_upload update_finish with_upload fst snd d_cs d_pub d_ns d_perf d_upd p_dec p_ti p_pause];
    rewrite ?C1, ?C2, ?C3, ?C4, ?C5; auto 10.
Qed.
Lemma step_core : forall fuel sgn e d d' e1 e2 o1 o2, same_core d d' -> dstep fuel sgn e d = Done (e1, o1) -> dstep fuel sgn e d' = Done (e2, o2) ->
  same_core e1 e2 /\ filter essential o1 = filter essential o2.
Proof.
  intros fuel sgn e d d' e1 e2 o1 o2 C A B. destruct e; cbn [dstep] in A, B.
  - destruct C as (C1 & C2 & C3 & C4 & C5). rewrite C4 in A. destruct (cpuload_loop (a_now a) (d_perf d')); [|discriminate]. cbn [lift] in A, B.
    injection A as <- <-. injection B as <- <-. split; [repeat split; assumption|reflexivity].
  - destruct (receive sgn a up tv c d) as [[x1 y1]|] eqn:E1; [|discriminate]. destruct (receive sgn a up tv c d') as [[x2 y2]|] eqn:E2; [|discriminate].
    cbn [lift] in A, B. injection A as <- <-. injection B as <- <-. exact (receive_core _ _ _ _ _ _ _ _ _ _ _ C E1 E2).
  - exact (http_step_core _ _ _ _ _ _ _ _ _ C A B).
  - destruct (upload_core a u d d' C) as (U1 & U2). destruct (handle_upload a u d) as [x1 y1], (handle_upload a u d') as [x2 y2]. cbn [fst snd] in *.
    injection A as <- <-. injection B as <- <-. subst y2. auto.
  - destruct (handle_clients up None (d_sse d)) as [[s1 x1]|]; [|discriminate]. destruct (handle_clients up None (d_sse d')) as [[s2 x2]|]; [|discriminate].
    cbn [lift] in A, B. injection A as <- <-. injection B as <- <-. rewrite !streams_drop. split; [|reflexivity]. exact C.
Qed.

Definition dids (o : list happening) : list out := flat_map (fun h => match h with Did x => [x] | _ => [] end) o.
(** A command that does not restart the module. *)
Lemma command_core : forall a up raw c d d' o, run_command a up raw c d = Some (d', o) -> existsb restarts o = false ->
  same_core d' d /\ filter essential (dids o) = [].
Proof.
  intros a up raw c d d' o H N. assert (X : ~ meddles c \/ meddles c).
  { destruct c; cbn [meddles]; auto. destruct args as [|w args]; auto. destruct (list_eq_dec Z.eq_dec w (str "timers")); auto. }
  destruct X as [X|X].
  { destruct (idle_command _ _ _ _ _ _ _ H X N) as (-> & E). unfold dids. rewrite E. split; [apply core_refl|reflexivity]. }
  destruct c; cbn [meddles] in X; try contradiction.
  - revert H. cbn [run_command]. destruct (handle_clients up (Some data) (d_sse d)) as [[s e]|]; [|discriminate]. intros H. injection H as <- <-.
    split; [repeat split|]. clear. induction e as [|x e IH]; [reflexivity|exact IH].
  - destruct args as [|w args]; [contradiction|]. subst w. revert H. cbn [run_command]. rewrite beq_refl. intros H. injection H as <- <-.
    split; [repeat split|reflexivity].
Qed.

Lemma essential_app : forall o os, filter essential (effects_of (o :: os)) = filter essential (dids o) ++ filter essential (effects_of os).
Proof. intros. rewrite effects_cons, filter_app. reflexivity. Qed.
Lemma meddled_run : forall fuel bd evs d cl d' cl' os n, Forall (fun p => ordinary_event (fst p)) evs ->
  lrun fuel bd (map (fun p => Event (fst p) (snd p)) evs) (On d cl) = Done (On d' cl', os) ->
  exists data cmds, listen_at bd (serial_at n (map fst evs)) cl = (cl', data, cmds) /\ commands_of os = cmds /\
    forall d0 d0' os', same_core d d0 -> drun fuel (bd_signed bd) (only data n (map fst evs)) d0 = Done (d0', os') ->
      same_core d' d0' /\ filter essential (effects_of os) = filter essential (concat os').
Proof.
  intros fuel bd. induction evs as [|[e raw] evs IH]; intros d cl d' cl' os n O H; cbn [map lrun fst snd] in H.
  - injection H as <- <- <-. exists [], []. unfold listen_at. cbn [map serial_at cli_listen only drun]. destruct (bd_cli bd); (split; [reflexivity|]; split; [reflexivity|]);
      intros d0 d0' os' C X; injection X as <- <-; auto.
  - apply Forall_cons_iff in O. destruct O as (O & Os). cbn [fst] in O.
    destruct (lstep fuel bd (Event e raw) (On d cl)) as [[m1 o]| |] eqn:S; try discriminate.
    destruct (lrun fuel bd (map (fun p => Event (fst p) (snd p)) evs) m1) as [[m2 os2]| |] eqn:R; try discriminate. injection H as -> <-.
    destruct m1 as [f|d1 cl1]; [apply off_stays in R; discriminate|].
    destruct (IH _ _ _ _ _ (Datatypes.S n) Os R) as (data & cmds & L & C & K).
    assert (Ob : Forall is_byte (map snd (serial_at (Datatypes.S n) (map fst evs)))).
    { apply serial_bytes. clear - Os. induction Os; cbn [map]; constructor; auto. }
    assert (G : forall p, In p (map fst data) -> (Datatypes.S n <= p)%nat) by (intros p I; apply (serial_ge (map fst evs)); apply (listen_incl _ _ _ _ _ _ Ob L); exact I).
    assert (W : forall e0, e = e0 -> (forall a up tv c, e0 <> DByte a up tv c) ->
      exists data cmds, listen_at bd (serial_at n (map fst ((e, raw) :: evs))) cl = (cl', data, cmds) /\ commands_of (o :: os2) = cmds /\
        forall d0 d0' os', same_core d d0 -> drun fuel (bd_signed bd) (only data n (map fst ((e, raw) :: evs))) d0 = Done (d0', os') ->
          same_core d' d0' /\ filter essential (effects_of (o :: os2)) = filter essential (concat os')).
    { intros e0 -> X. destruct (LifeFinal.other_event _ _ _ _ _ _ _ _ X S) as (d2 & o1 & D1 & Af & ->).
      destruct (after_on _ _ _ _ _ _ Af) as (-> & -> & _ & NR). exists data, cmds. cbn [map fst].
      assert (Sx : serial_at n (e0 :: map fst evs) = serial_at (Datatypes.S n) (map fst evs)) by (destruct e0; try reflexivity; exfalso; eapply X; reflexivity).
      assert (Ox : only data n (e0 :: map fst evs) = e0 :: only data (Datatypes.S n) (map fst evs)) by (destruct e0; try reflexivity; exfalso; eapply X; reflexivity).
      rewrite Sx, Ox. split; [exact L|]. split; [rewrite commands_cons, LifeFinal.no_command; exact C|].
      intros d0 d0' os' Co D. cbn [drun] in D. destruct (dstep fuel (bd_signed bd) e0 d0) as [[d3 o3]| |] eqn:D3; try discriminate D.
      destruct (drun fuel (bd_signed bd) (only data (Datatypes.S n) (map fst evs)) d3) as [[d4 os4]| |] eqn:D4; try discriminate D. injection D as <- <-.
      destruct (step_core _ _ _ _ _ _ _ _ _ Co D1 D3) as (Co' & Eo). destruct (K _ _ _ Co' D4) as (Co4 & E4). split; [exact Co4|].
      rewrite essential_app. unfold dids. rewrite did_all. cbn [concat]. rewrite filter_app, Eo, E4. reflexivity. }
    destruct e; try (eapply (W _ eq_refl); discriminate). clear W.
    cbn [lstep] in S. destruct (serial_byte bd a up tv c raw d cl) as [[[d2 cl2] o1]|] eqn:Sb; [|discriminate].
    cbn [lift] in S. assert (S' : after d2 cl2 o1 = (On d1 cl1, o)) by congruence. destruct (after_on _ _ _ _ _ _ S') as (-> & -> & -> & NR).
    destruct O as (O & _). destruct (serial_effect _ _ _ _ _ _ _ _ _ _ _ O Sb) as (r & line & Rd & T).
    cbn [map fst serial_at]. rewrite listen_at_cons by exact O. rewrite Rd, L. rewrite commands_cons, C. destruct line as [l|].
    + destruct T as (-> & o' & -> & T). destruct (command_effect _ _ _ _ _ _ _ T) as (_ & _ & _ & Tc).
      destruct (command_core _ _ _ _ _ _ _ T) as (Cd & De); [exact NR|].
      exists data, (l :: cmds). cbn [Z.eqb negb]. split; [reflexivity|]. split; [cbn [flat_map app]; rewrite few_commands by (intros x I; exact (Tc _ I)); reflexivity|].
      cbn [only]. rewrite not_here by exact G. intros d0 d0' os' Co D. destruct (K d0 d0' os' (core_trans _ _ _ Cd Co) D) as (K1 & K2). split; [exact K1|].
      rewrite essential_app. change (dids (Command l :: o')) with (dids o'). rewrite De. exact K2.
    + destruct T as [(-> & -> & ->)|(-> & o' & -> & T)].
      * exists data, cmds. split; [reflexivity|]. split; [reflexivity|]. cbn [only]. rewrite not_here by exact G. exact K.
      * replace (negb (c =? -1)) with true by (cbn [devent_ok] in O; unfold is_byte in O; lia).
        exists ((n, c) :: data), cmds. split; [reflexivity|]. split; [rewrite LifeFinal.no_command; reflexivity|].
        cbn [only existsb fst]. rewrite Nat.eqb_refl. cbn [orb]. rewrite only_cons by lia. intros d0 d0' os' Co D. cbn [drun dstep] in D.
        destruct (receive (bd_signed bd) a up tv c d0) as [[d3 o3]|] eqn:D3; [|discriminate D]. cbn [lift] in D.
        destruct (drun fuel (bd_signed bd) (only data (Datatypes.S n) (map fst evs)) d3) as [[d4 os4]| |] eqn:D4; try discriminate D. injection D as <- <-.
        destruct (receive_core _ _ _ _ _ _ _ _ _ _ _ Co T D3) as (Co' & Eo). destruct (K _ _ _ Co' D4) as (Co4 & E4). split; [exact Co4|].
        rewrite essential_app. unfold dids. rewrite did_all. cbn [concat]. rewrite filter_app, Eo, E4. reflexivity.
Qed.
Lemma c111_session : forall fuel bd flash es b evs d cl os, build_ok bd -> flash_ok flash -> Forall ordinary_life (es ++ started b evs) ->
  lrun fuel bd (es ++ started b evs) (Off flash) = Done (On d cl, os) ->
  let since := skipn (Datatypes.S (length es)) os in
  exists m os1 d0 acts rest, lrun fuel bd es (Off flash) = Done (m, os1) /\ start_ok (on_flash (flash_of m) b) /\
    boot (on_flash (flash_of m) b) = Some (d0, acts) /\ keyboard_removed (bd_cli bd) (map fst evs) rest (commands_of since) /\
    Forall ordinary_event rest /\ incl rest (map fst evs) /\
    forall d' outs, drun fuel (bd_signed bd) rest d0 = Done (d', outs) ->
      same_core d d' /\ filter essential (effects_of since) = filter essential (concat outs).
Proof.
  intros fuel bd flash es b evs d cl os B F O H. apply Forall_app in O. destruct O as (O1 & O2). apply Forall_cons_iff in O2. destruct O2 as (Ob & O2).
  destruct (lrun_app _ _ _ _ _ _ _ H) as (m & os1 & os2 & R1 & R2 & ->).
  assert (M : mod_ok (bd_signed bd) m) by (eapply lrun_ok; [exact B| |exact O1|exact R1]; exact F).
  assert (L := lrun_length _ _ _ _ _ _ R1).
  unfold started in R2. cbn [lrun] in R2. cbn [lstep] in R2. fold (on_flash (flash_of m) b) in R2.
  assert (S : start_ok (on_flash (flash_of m) b)) by (apply with_flash_ok; [exact Ob|eapply mod_flash; eauto]).
  destruct (boot (on_flash (flash_of m) b)) as [[d0 acts]|] eqn:E; [|discriminate]. cbn [lift] in R2.
  destruct (lrun fuel bd (map (fun p => Event (fst p) (snd p)) evs) (On d0 cli_init)) as [[m2 os3]| |] eqn:R3; try discriminate.
  injection R2 as -> <-. cbv zeta.
  replace (skipn (Datatypes.S (length es)) (os1 ++ map Radio acts :: os3)) with os3.
  2:{ rewrite <- L. rewrite skipn_app. replace (Datatypes.S (length os1) - length os1)%nat with 1%nat by lia. rewrite skipn_all2 by lia. reflexivity. }
  assert (Oe : Forall (fun p : devent * list Z => ordinary_event (fst p)) evs).
  { clear - O2. induction evs as [|p evs IH]; [constructor|]. cbn [map] in O2. apply Forall_cons_iff in O2. destruct O2 as (O & O2).
    constructor; [exact (proj1 O)|auto]. }
  assert (Om : Forall ordinary_event (map fst evs)) by (clear - Oe; induction Oe; cbn [map]; constructor; auto).
  destruct (meddled_run _ _ _ _ _ _ _ _ 0%nat Oe R3) as (data & cmds & Ls & C & K).
  exists m, os1, d0, acts, (only data 0 (map fst evs)). split; [exact R1|]. split; [exact S|]. split; [exact E|].
  assert (I : forall xs n, incl (only data n xs) xs).
  { clear. induction xs as [|e xs IH]; intros n x I; [exact I|]. cbn [only] in I. specialize (IH (Datatypes.S n)). destruct e; try (destruct I as [<-|I]; [left; reflexivity|right; auto]).
    destruct (existsb _ data); [destruct I as [<-|I]; [left; reflexivity|right; auto]|right; auto]. }
  split; [rewrite C; eapply session_removed; eauto|]. split; [|split; [apply I|intros d' outs D; exact (K _ _ _ (core_refl d0) D)]].
  apply Forall_forall. intros x J. apply I in J. rewrite Forall_forall in Om. auto.
Qed.
