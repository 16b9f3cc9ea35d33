(** Proofs about the life of a module, end: settings that last, who writes and restarts, frames heard. *)
From Coq Require Import ZArith List Bool Lia ZifyBool.
From Verif Require Import Base BaseFacts Teleinfo TeleinfoSpec Publish HistorySpec DecoderProofs GroupProofs PublishProofs Config ConfigSpec ConfigProofs ConfigMain ConfigHist
  ConfigFinal Json JsonBuild Tic TicSpec Pages PagesSpec Sse SseSpec SseProofs Cpu Web Wifi Device WebSpec WebProofs
  DeviceProofs DeviceMain DeviceSafe DeviceFinal DevicePages Cli CliSpec CliProofs Life LifeSpec LifeProofs LifeMain.
Import ListNotations.
Open Scope Z_scope.

(** ** Settings *)
Lemma poweron_stored : forall fuel bd b m m' o, mod_ok (bd_signed bd) m -> start_ok b -> lstep fuel bd (PowerOn b) m = Done (m', o) ->
  exists d, m' = On d cli_init /\
    ((flash_of m' = flash_of m /\ forall r, settings_at_start (b_chip b) (flash_of m) r -> view (cfg_of d) = r) \/
     forall r, settings_at_start (b_chip b) (flash_of m) r -> s_ssid r = []).
Proof.
  intros fuel bd b m m' o H S E. cbn [lstep] in E. fold (with_flash (flash_of m) b) in E.
  destruct (boot (with_flash (flash_of m) b)) as [[d acts]|] eqn:B; [|discriminate]. cbn [lift] in E. injection E as <- <-. exists d.
  split; [reflexivity|]. apply (boot_stored (with_flash (flash_of m) b) d acts); [|exact B].
  apply with_flash_ok; [exact S|eapply mod_flash; eauto].
Qed.
Lemma written_by : forall fuel bd e m m' o, mod_ok (bd_signed bd) m -> ordinary_life e ->
  lstep fuel bd e m = Done (m', o) ->
  flash_of m' = flash_of m \/
  (exists a q raw d cl, e = Event (DHttp a q) raw /\ m = On d cl /\
     (q_uri q = str "/config_form.json" /\ ~ refused q d \/ q_uri q = str "/factory_reset" /\ fully_allowed q d)) \/
  (exists line, In (Command line) o /\ writer (bd_parse bd line)) \/
  (exists b, e = PowerOn b /\ forall r, settings_at_start (b_chip b) (flash_of m) r -> s_ssid r = []).
Proof.
  intros fuel bd e m m' o H O E. destruct e as [b|e raw].
  - destruct (poweron_stored _ _ _ _ _ _ H O E) as (d & _ & [(F & _)|F]); [auto|]. right. right. right. exists b. auto.
  - destruct m as [f|d cl]; [injection E as <- <-; auto|]. destruct O as (O & _).
    destruct (event_effect _ _ _ _ _ _ _ _ O E) as (d' & cl' & A & [C|[(a & q & -> & C)|C]]); [left| |auto].
    + change m' with (fst (m', o)). rewrite <- A, after_flash, C. reflexivity.
    + right. left. exists a, q, raw, d, cl. auto.
Qed.

(** Settings [r] are in use and stored as [flash]. *)
Definition keeps_using (r : settings) (flash : list Z) (m : module) : Prop :=
  flash_of m = flash /\ match m with On d _ => view (cfg_of d) = r | Off _ => True end.
Lemma keeps_step : forall fuel bd r flash e m m' o, mod_ok (bd_signed bd) m -> ordinary_life e ->
  (forall chip, settings_at_start chip flash r) -> s_ssid r <> [] -> leaves_settings bd e o ->
  keeps_using r flash m -> lstep fuel bd e m = Done (m', o) -> keeps_using r flash m'.
Proof.
  intros fuel bd r flash e m m' o H O S N (L & W) (K1 & K2) E. destruct e as [b|e raw].
  - destruct (poweron_stored _ _ _ _ _ _ H O E) as (d & -> & [(F & V)|F]).
    + split; [congruence|]. apply V. rewrite K1. apply S.
    + destruct N. apply (F r). rewrite K1. apply S.
  - destruct m as [f|d cl]; [injection E as <- <-; split; auto|]. destruct O as (O & _).
    destruct (event_effect _ _ _ _ _ _ _ _ O E) as (d' & cl' & A & [C|[(a & q & -> & C)|(l & I & C)]]).
    + destruct (after_cases _ _ _ _ _ A) as (_ & [-> | ->]); (split; [cbn [flash_of] in *; congruence|]); [|exact Logic.I].
      unfold cfg_of in *. rewrite C. exact K2.
    + destruct L as (L1 & L2). destruct C as [(C & _)|(C & _)]; contradiction.
    + destruct (W l I C).
Qed.
Lemma keeps_run : forall fuel bd r flash, build_ok bd -> (forall chip, settings_at_start chip flash r) -> s_ssid r <> [] ->
  forall es m m' os, mod_ok (bd_signed bd) m -> Forall ordinary_life es -> Forall2 (leaves_settings bd) es os ->
  keeps_using r flash m -> lrun fuel bd es m = Done (m', os) -> keeps_using r flash m'.
Proof.
  intros fuel bd r flash B S N. induction es as [|e es IH]; intros m m' os H O L K E; cbn [lrun] in E; [injection E as <- <-; exact K|].
  apply Forall_cons_iff in O. destruct O as (O & Os). destruct (lstep fuel bd e m) as [[m1 o]| |] eqn:E1; try discriminate.
  destruct (lrun fuel bd es m1) as [[m2 os2]| |] eqn:R; try discriminate. injection E as <- <-. inversion L; subst.
  apply (IH m1 m2 os2); auto; [eapply lstep_ok; eauto|eapply keeps_step; eauto].
Qed.
Lemma form_route : forall fuel a q d, q_uri q = str "/config_form.json" -> handle fuel a q d = if_ok q d (fun r => handle_form a q r d).
Proof. intros fuel a q d U. unfold handle. rewrite U. destruct (q_method q); reflexivity. Qed.
Lemma form_step : forall fuel bd a q raw d cl m o, dev_ok (bd_signed bd) d -> ordinary_event (DHttp a q) ->
  q_uri q = str "/config_form.json" -> ~ refused q d -> ticked (q_args q) "save" = true -> a_flash a = Stored ->
  lstep fuel bd (Event (DHttp a q) raw) (On d cl) = Done (m, o) ->
  exists r flash, (r = true <-> restricted q d) /\ o = [Did (Reply 200 Text (str "OK"))] /\
    (forall chip, settings_at_start chip flash (after_form r (q_args q) (view (cfg_of d)))) /\
    keeps_using (after_form r (q_args q) (view (cfg_of d))) flash m.
Proof.
  intros fuel bd a q raw d cl m o H O U R T F E. cbn [lstep dstep] in E. rewrite form_route in E by exact U.
  destruct O as ((O & _) & _).
  assert (G : exists r, (r = true <-> restricted q d) /\ forall act, if_ok q d act = act r).
  { unfold if_ok. destruct (get_auth (cfg_of d) q) eqn:G.
    - exfalso. apply R. unfold get_auth in G. unfold refused. destruct (text Username (cfg_of d)); [discriminate|].
      destruct (q_accepts q _ _); [destruct (q_forwarded q); discriminate|]. split; [discriminate|reflexivity].
    - exists true. split; [|auto]. split; [intros _|auto]. unfold get_auth in G. unfold restricted. destruct (text Username (cfg_of d)); [discriminate|].
      destruct (q_accepts q _ _); [|discriminate]. destruct (q_forwarded q); [|discriminate]. repeat split; auto. discriminate.
    - exists false. split; [|auto]. split; [discriminate|]. intros X. apply restricted_yes in X. congruence. }
  destruct G as (r & G1 & G2). rewrite G2 in E. clear G2. exists r. unfold handle_form in E. rewrite F in E.
  destruct (c29_stored r (q_args q) (d_cs d) (do_cs _ _ H) O T) as (s' & X & S).
  destruct (handle_form_spec Stored r (q_args q) (d_cs d) (reachable_inv _ (do_cs _ _ H)) O T) as (s2 & X2 & _ & V & _).
  rewrite X in X2. apply some_pair in X2. subst s2. rewrite X in E. cbn [lift] in E. exists (e_flash (c_ee s')).
  split; [exact G1|]. change (form_answer 200) with (str "OK") in E. cbn [map] in E.
  assert (E' : after (with_tm (tic_make_timers (a_now a) (c_cfg s') (d_tm d)) (with_cs s' d)) cl [Did (Reply 200 Text (str "OK"))] = (m, o)) by congruence.
  unfold after in E'. cbn [existsb restarts orb] in E'. assert (o = [Did (Reply 200 Text (str "OK"))]) by congruence.
  match type of E' with (?x, _) = _ => assert (Y : m = x) by congruence end. subst m. clear E E'.
  split; [assumption|]. split; [exact S|]. split; [reflexivity|]. exact V.
Qed.

Lemma lrun_app : forall fuel bd es1 es2 m m' os, lrun fuel bd (es1 ++ es2) m = Done (m', os) ->
  exists m1 os1 os2, lrun fuel bd es1 m = Done (m1, os1) /\ lrun fuel bd es2 m1 = Done (m', os2) /\ os = os1 ++ os2.
Proof.
  intros fuel bd. induction es1 as [|e es1 IH]; intros es2 m m' os H; cbn [app lrun] in *.
  - exists m, [], os. auto.
  - destruct (lstep fuel bd e m) as [[m1 o]| |]; try discriminate. destruct (lrun fuel bd (es1 ++ es2) m1) as [[m2 os2]| |] eqn:E; try discriminate.
    injection H as <- <-. destruct (IH _ _ _ _ E) as (m3 & o1 & o2 & -> & E2 & ->). exists m3, (o :: o1), o2. auto.
Qed.
Lemma c66 : forall fuel bd flash es1 d cl os1 a q raw es2 m o os2, build_ok bd -> flash_ok flash ->
  Forall ordinary_life (es1 ++ Event (DHttp a q) raw :: es2) ->
  lrun fuel bd es1 (Off flash) = Done (On d cl, os1) ->
  q_uri q = str "/config_form.json" -> ~ refused q d -> ticked (q_args q) "save" = true -> a_flash a = Stored ->
  lrun fuel bd (Event (DHttp a q) raw :: es2) (On d cl) = Done (m, o :: os2) ->
  Forall2 (leaves_settings bd) es2 os2 ->
  exists r, (r = true <-> restricted q d) /\ o = [Did (Reply 200 Text (str "OK"))] /\
    let s := after_form r (q_args q) (view (cfg_of d)) in
    (s_ssid s <> [] -> (forall chip, settings_at_start chip (flash_of m) s) /\
       match m with On d' _ => view (cfg_of d') = s | Off _ => True end).
Proof.
  intros fuel bd flash es1 d cl os1 a q raw es2 m o os2 B F O E1 U R T S E2 L.
  apply Forall_app in O. destruct O as (O1 & O2). apply Forall_cons_iff in O2. destruct O2 as (O & O2).
  assert (H : mod_ok (bd_signed bd) (On d cl)) by (eapply lrun_ok; [exact B| |exact O1|exact E1]; exact F).
  cbn [lrun] in E2. destruct (lstep fuel bd (Event (DHttp a q) raw) (On d cl)) as [[m1 o1]| |] eqn:E; try discriminate.
  destruct (lrun fuel bd es2 m1) as [[m2 os]| |] eqn:E3; try discriminate. injection E2 as <- <- <-.
  destruct (form_step fuel bd a q raw d cl m1 o1 (proj1 H) (proj1 O) U R T S E) as (r & fl & G & -> & X & K).
  exists r. split; [exact G|]. split; [reflexivity|]. intros s N.
  destruct (keeps_run fuel bd _ fl B X N es2 m1 m2 os) as (K1 & K2); auto; [eapply lstep_ok; eauto|].
  split; [rewrite K1; exact X|exact K2].
Qed.

(** ** Restarts *)
Lemma event_restart : forall fuel bd e raw d cl m o, ordinary_event e -> lstep fuel bd (Event e raw) (On d cl) = Done (m, o) ->
  In (Did RestartNow) o ->
  (exists a q, e = DHttp a q /\ (q_uri q = str "/reset" /\ ~ refused q d \/ q_uri q = str "/factory_reset" /\ fully_allowed q d)) \/
  exists line, In (Command line) o /\ restarter (bd_parse bd line).
Proof.
  intros fuel bd e raw d cl m o O H I. cbn [lstep] in H. destruct e.
  - destruct (dstep fuel (bd_signed bd) (DTurn a) d) as [[d' o1]| |] eqn:D; try discriminate. injection H as H.
    destruct (after_cases _ _ _ _ _ H) as (-> & _). apply in_map_iff in I. destruct I as (x & X & I). injection X as ->.
    cbn [dstep] in D. destruct (cpuload_loop _ _); [|discriminate]. cbn [lift] in D. injection D as _ <-. destruct I.
  - destruct (serial_byte bd a up tv c raw d cl) as [[[d' cl'] o1]|] eqn:E; [|discriminate]. cbn [lift] in H. injection H as H.
    destruct (after_cases _ _ _ _ _ H) as (-> & _). destruct O as (O & _).
    destruct (serial_effect _ _ _ _ _ _ _ _ _ _ _ O E) as (r & line & _ & S). destruct line as [l|].
    + destruct S as (_ & o' & -> & R). destruct I as [I|I]; [discriminate|]. right. exists l. split; [left; reflexivity|].
      destruct (command_effect _ _ _ _ _ _ _ R) as (_ & _ & _ & C). exact (C _ I).
    + destruct S as [(_ & _ & ->)|(_ & o' & -> & R)]; [destruct I|]. apply in_map_iff in I. destruct I as (x & X & I). injection X as ->.
      destruct (receive_outs _ _ _ _ _ _ _ _ R _ I).
  - destruct (dstep fuel (bd_signed bd) (DHttp a q) d) as [[d' o1]| |] eqn:D; try discriminate. injection H as H.
    destruct (after_cases _ _ _ _ _ H) as (-> & _). apply in_map_iff in I. destruct I as (x & X & I). injection X as ->.
    cbn [dstep] in D. left. exists a, q. split; [reflexivity|]. apply (handle_restart _ _ _ _ _ _ D). exact I.
  - destruct (dstep fuel (bd_signed bd) (DUpload a u) d) as [[d' o1]| |] eqn:D; try discriminate. injection H as H.
    destruct (after_cases _ _ _ _ _ H) as (-> & _). apply in_map_iff in I. destruct I as (x & X & I). injection X as ->.
    cbn [dstep] in D. exfalso. destruct u as [n l [|] en|dt [|] en|en|en]; cbn [handle_upload update_finish] in D; injection D as _ <-;
      cbn in I; repeat (destruct I as [I|I]; [discriminate I|]); exact I.
  - destruct (dstep fuel (bd_signed bd) (DPoll up) d) as [[d' o1]| |] eqn:D; try discriminate. injection H as H.
    destruct (after_cases _ _ _ _ _ H) as (-> & _). apply in_map_iff in I. destruct I as (x & X & I). injection X as ->.
    cbn [dstep] in D. destruct (handle_clients up None (d_sse d)) as [[s os]|]; [|discriminate]. cbn [lift] in D. injection D as _ <-.
    apply in_map_iff in I. destruct I as (y & Y & _). discriminate Y.
Qed.

(** ** Frames and commands *)
Definition listen (bd : build) (l : list ((timeval * bool) * Z)) (cl : cli) : cli * list ((timeval * bool) * Z) * list (list Z) :=
  if bd_cli bd then cli_listen l cl else (cl, l, []).
Lemma listen_cons : forall bd t c l cl, is_byte c -> listen bd ((t, c) :: l) cl =
  let '(cl1, r, cmd) := read_if bd c cl in let '(cl2, out, cmds) := listen bd l cl1 in
  (cl2, (if negb (r =? -1) then (t, r) :: out else out), match cmd with Some x => x :: cmds | None => cmds end).
Proof.
  intros bd t c l cl B. unfold listen, read_if. destruct (bd_cli bd); [reflexivity|].
  replace (negb (c =? -1)) with true by (unfold is_byte in B; lia). reflexivity.
Qed.
Lemma off_stays : forall fuel bd evs f m os, lrun fuel bd (map (fun p => Event (fst p) (snd p)) evs) (Off f) = Done (m, os) -> m = Off f.
Proof.
  intros fuel bd. induction evs as [|e evs IH]; intros f m os H; cbn [map lrun lstep] in H; [injection H as <- <-; reflexivity|].
  destruct (lrun fuel bd (map (fun p => Event (fst p) (snd p)) evs) (Off f)) as [[m2 os2]| |] eqn:E; try discriminate.
  injection H as <- <-. eapply IH; eauto.
Qed.
Lemma not_lost_cons : forall tv off c l, not_lost (((tv, off), c) :: l) = (if off then [] else [(tv, c)]) ++ not_lost l.
Proof. reflexivity. Qed.
Lemma commands_cons : forall o os, commands_of (o :: os) = flat_map (fun h => match h with Command l => [l] | _ => [] end) o ++ commands_of os.
Proof. intros. unfold commands_of. cbn [concat]. apply flat_map_app. Qed.
Lemma no_command : forall (o : list out), flat_map (fun h => match h with Command l => [l] | _ => [] end) (map Did o) = [].
Proof. induction o; [reflexivity|exact IHo]. Qed.
Lemma few_commands : forall o, (forall l, ~ In (Command l) o) -> flat_map (fun h => match h with Command l => [l] | _ => [] end) o = [].
Proof.
  induction o as [|h o IH]; intros N; [reflexivity|]. cbn [flat_map]. rewrite IH by (intros l I; apply (N l); right; exact I).
  destruct h; auto. destruct (N line). left. reflexivity.
Qed.
Lemma other_event : forall fuel bd e raw d cl m o, (forall a up tv c, e <> DByte a up tv c) -> lstep fuel bd (Event e raw) (On d cl) = Done (m, o) ->
  exists d' o1, dstep fuel (bd_signed bd) e d = Done (d', o1) /\ after d' cl o = (m, o) /\ o = map Did o1.
Proof.
  intros fuel bd e raw d cl m o N H. cbn [lstep] in H.
  destruct e; try (exfalso; eapply N; reflexivity);
    match type of H with match ?x with _ => _ end = _ => destruct x as [[d' o1]| |]; try discriminate end;
    injection H as H; destruct (after_cases _ _ _ _ _ H) as (-> & _); exists d', o1; auto.
Qed.
Lemma life_pub : forall fuel bd evs d cl d' cl' os off, Forall (fun p => ordinary_event (fst p)) evs ->
  lrun fuel bd (map (fun p => Event (fst p) (snd p)) evs) (On d cl) = Done (On d' cl', os) ->
  exists pes data cmds, listen bd (arrivals off (map fst evs)) cl = (cl', data, cmds) /\
    pub_run (bd_signed bd) pes (d_pub d) = Some (d_pub d') /\ fed off pes = not_lost data /\ commands_of os = cmds.
Proof.
  intros fuel bd. induction evs as [|[e raw] evs IH]; intros d cl d' cl' os off O H; cbn [map lrun fst snd] in H.
  - injection H as <- <- <-. exists [], [], []. unfold listen. cbn [map arrivals cli_listen]. destruct (bd_cli bd); auto.
  - apply Forall_cons_iff in O. destruct O as (O & Os). cbn [fst] in O.
    destruct (lstep fuel bd (Event e raw) (On d cl)) as [[m1 o]| |] eqn:S; try discriminate.
    destruct (lrun fuel bd (map (fun p => Event (fst p) (snd p)) evs) m1) as [[m2 os2]| |] eqn:R; try discriminate. injection H as -> <-.
    destruct m1 as [f|d1 cl1]; [apply off_stays in R; discriminate|].
    assert (W : forall e0, e = e0 -> (forall a up tv c, e0 <> DByte a up tv c) -> forall off', (forall l, arrivals off (e0 :: l) = arrivals off' l) ->
      (forall l, fed off (as_pub e0 ++ l) = fed off' l) -> 
      exists pes data cmds, listen bd (arrivals off (map fst ((e, raw) :: evs))) cl = (cl', data, cmds) /\
        pub_run (bd_signed bd) pes (d_pub d) = Some (d_pub d') /\ fed off pes = not_lost data /\ commands_of (o :: os2) = cmds).
    { intros e0 -> N off' A F. destruct (other_event _ _ _ _ _ _ _ _ N S) as (d2 & o1 & D & Af & ->).
      destruct (after_cases _ _ _ _ _ Af) as (_ & [X|X]); [|discriminate]. injection X as <- <-.
      destruct (IH _ _ _ _ _ off' Os R) as (pes & data & cmds & L & P & Fe & C). exists (as_pub e0 ++ pes), data, cmds.
      cbn [map fst]. rewrite A. split; [exact L|]. rewrite pub_run_app, (dstep_pub _ _ _ _ _ _ D). split; [exact P|]. rewrite F.
      split; [exact Fe|]. rewrite commands_cons, no_command. exact C. }
    destruct e.
    + eapply (W _ eq_refl); [discriminate|reflexivity|reflexivity].
    + clear W. cbn [lstep] in S. destruct (serial_byte bd a up tv c raw d cl) as [[[d2 cl2] o1]|] eqn:E; [|discriminate].
      cbn [lift] in S. injection S as S. destruct (after_cases _ _ _ _ _ S) as (-> & [X|X]); [|discriminate]. injection X as <- <-.
      destruct O as (O & _). destruct (serial_effect _ _ _ _ _ _ _ _ _ _ _ O E) as (r & line & Rd & T).
      destruct (IH _ _ _ _ _ off Os R) as (pes & data & cmds & L & P & Fe & C).
      cbn [map fst arrivals]. rewrite listen_cons by exact O. rewrite Rd, L. rewrite commands_cons, C. destruct line as [l|].
      * destruct T as (-> & o' & -> & T). destruct (command_effect _ _ _ _ _ _ _ T) as (Tp & _ & _ & Tc).
        exists pes, data, (l :: cmds). cbn [Z.eqb negb]. rewrite <- Tp. split; [reflexivity|]. split; [exact P|]. split; [exact Fe|].
        cbn [flat_map app]. rewrite few_commands by (intros x I; exact (Tc _ I)). reflexivity.
      * destruct T as [(-> & -> & ->)|(-> & o' & -> & T)].
        { exists pes, data, cmds. auto. }
        { apply receive_keeps in T. destruct T as ((fr & T) & _). replace (negb (c =? -1)) with true by (cbn [devent_ok] in O; unfold is_byte in O; lia).
          exists (Byte tv c :: pes), (((tv, off), c) :: data), cmds. split; [reflexivity|]. cbn [pub_run pub_step]. rewrite T.
          split; [exact P|]. rewrite not_lost_cons, no_command. split; [|reflexivity]. cbn [fed]. destruct off; cbn [app]; rewrite Fe; reflexivity. }
    + eapply (W _ eq_refl); [discriminate|reflexivity|reflexivity].
    + eapply (W _ eq_refl); [discriminate|reflexivity|]. intros l. cbn [as_pub]. unfold pauses. destruct (upload_over u); [reflexivity|]. destruct u; reflexivity.
    + eapply (W _ eq_refl); [discriminate|reflexivity|reflexivity].
Qed.
Lemma arrivals_bytes : forall es off, Forall ordinary_event es -> Forall is_byte (map snd (arrivals off es)).
Proof.
  induction es as [|e es IH]; intros off O; [constructor|]. apply Forall_cons_iff in O. destruct O as (O & Os). destruct e; cbn [arrivals map snd]; auto.
  constructor; [exact (proj1 O)|auto].
Qed.
Lemma session_in : forall T (es data : list (T * Z)) cmds, session es data cmds -> incl data es.
Proof.
  intros T es data cmds S. induction S; intros x I; [exact I| | |destruct I].
  - destruct I as [<-|I]; [left; reflexivity|right; auto].
  - right. apply in_or_app. right. right. apply IHS. exact I.
Qed.
Lemma not_lost_bytes : forall l, Forall is_byte (map snd l) -> Forall is_byte (map snd (not_lost l)).
Proof.
  induction l as [|[[tv off] c] l IH]; intros H; [constructor|]. rewrite not_lost_cons. cbn [map snd] in H. apply Forall_cons_iff in H. destruct H as (H & Hs).
  rewrite map_app. apply Forall_app. split; [destruct off; constructor; auto|auto].
Qed.
Lemma life_hears : forall fuel bd b d0 acts evs d cl os, start_ok b -> boot b = Some (d0, acts) ->
  Forall (fun p => ordinary_event (fst p)) evs ->
  lrun fuel bd (map (fun p => Event (fst p) (snd p)) evs) (On d0 cli_init) = Done (On d cl, os) ->
  exists data, hears (bd_cli bd) (map fst evs) data (commands_of os) /\
    published_ti (ti_of d) /\ exists r, last_valid data r /\ groups_are (ti_of d) r.
Proof.
  intros fuel bd b d0 acts evs d cl os S B O H. destruct (boot_pub b d0 acts S B) as (P & _). destruct S as (_ & _ & _ & _ & _ & G1 & G2).
  destruct (life_pub _ _ _ _ _ _ _ _ false O H) as (pes & data & cmds & L & R & F & C).
  assert (A : Forall is_byte (map snd (arrivals false (map fst evs)))).
  { apply arrivals_bytes. clear - O. induction O; cbn [map]; constructor; auto. }
  exists (not_lost data). rewrite P in R. rewrite C. unfold listen in L. unfold hears. destruct (bd_cli bd).
  - assert (S := proj1 (listen_spec _ A) _ _ _ L). split; [exists data; auto|]. rewrite <- F. apply (pub_groups (bd_signed bd) (b_g1 b) (b_g2 b) _ _ G1 G2); [|exact R].
    rewrite F. apply not_lost_bytes. rewrite Forall_forall in *. intros x I. apply in_map_iff in I. destruct I as (y & <- & I).
    apply A. apply in_map. eapply session_in; eauto.
  - injection L as <- <- <-. split; [auto|]. rewrite <- F. apply (pub_groups (bd_signed bd) (b_g1 b) (b_g2 b) _ _ G1 G2); [|exact R]. rewrite F. apply not_lost_bytes. exact A.
Qed.

Lemma life_split : forall fuel bd flash es b evs d cl os, build_ok bd -> flash_ok flash -> Forall ordinary_life (es ++ started b evs) ->
  lrun fuel bd (es ++ started b evs) (Off flash) = Done (On d cl, os) ->
  exists data r, hears (bd_cli bd) (map fst evs) data (commands_of (skipn (S (length es)) os)) /\
    last_valid data r /\ published_ti (ti_of d) /\ groups_are (ti_of d) r.
Proof.
  intros fuel bd flash es b evs d cl os B F O H. apply Forall_app in O. destruct O as (O1 & O2). apply Forall_cons_iff in O2. destruct O2 as (Ob & O2).
  destruct (lrun_app _ _ _ _ _ _ _ H) as (m & os1 & os2 & R1 & R2 & ->).
  assert (M : mod_ok (bd_signed bd) m) by (eapply lrun_ok; [exact B| |exact O1|exact R1]; exact F).
  assert (L : length os1 = length es).
  { clear - R1. revert R1. generalize (Off flash). revert os1. induction es as [|e es IH]; intros os1 m0 R; cbn [lrun] in R; [injection R as _ <-; reflexivity|].
    destruct (lstep fuel bd e m0) as [[m1 o]| |]; try discriminate. destruct (lrun fuel bd es m1) as [[m2 os2]| |] eqn:E; try discriminate.
    injection R as -> <-. cbn [length]. f_equal. eapply IH; eauto. }
  unfold started in R2. cbn [lrun] in R2. cbn [lstep] in R2. fold (with_flash (flash_of m) b) in R2.
  assert (S : start_ok (with_flash (flash_of m) b)) by (apply with_flash_ok; [exact Ob|eapply mod_flash; eauto]).
  destruct (boot (with_flash (flash_of m) b)) as [[d0 acts]|] eqn:E; [|discriminate]. cbn [lift] in R2.
  destruct (lrun fuel bd (map (fun p => Event (fst p) (snd p)) evs) (On d0 cli_init)) as [[m2 os3]| |] eqn:R3; try discriminate.
  injection R2 as -> <-.
  assert (Oe : Forall (fun p : devent * list Z => ordinary_event (fst p)) evs).
  { clear - O2. induction evs as [|p evs IH]; [constructor|]. cbn [map] in O2. apply Forall_cons_iff in O2. destruct O2 as (O & O2).
    constructor; [exact (proj1 O)|auto]. }
  destruct (life_hears fuel bd _ d0 acts evs d cl os3 S E Oe R3) as (data & Hh & P & r & Lv & G).
  exists data, r. replace (skipn (Datatypes.S (length es)) (os1 ++ map Radio acts :: os3)) with os3; [auto|].
  rewrite <- L. rewrite skipn_app. replace (Datatypes.S (length os1) - length os1)%nat with 1%nat by lia.
  rewrite skipn_all2 by lia. reflexivity.
Qed.
Lemma c68 : forall fuel bd flash es b evs d cl os a q, build_ok bd -> flash_ok flash -> Forall ordinary_life (es ++ started b evs) ->
  lrun fuel bd (es ++ started b evs) (Off flash) = Done (On d cl, os) -> ~ refused q d -> q_uri q = str "/json" ->
  exists data r, hears (bd_cli bd) (map fst evs) data (commands_of (skipn (S (length es)) os)) /\ last_valid data r /\
    match r with
    | None => handle fuel a q d = Done (d, [Reply 200 Json (str "{}")])
    | Some (t0, bodies) => quotable (iso (a_env a) (tv_sec t0)) = true -> Forall json_ready (pairs_of (content bodies)) ->
        exists body, handle fuel a q d = Done (d, [Reply 200 Json body]) /\
          json_of body = Some (JObj ((str "timestamp", JStr (iso (a_env a) (tv_sec t0))) :: (str "seconds", JStr (seconds_text t0)) ::
            map (fun g => (fst g, json_value (snd g))) (pairs_of (content bodies))))
    end.
Proof.
  intros fuel bd flash es b evs d cl os a q B F O H R U. destruct (life_split _ _ _ _ _ _ _ _ _ B F O H) as (data & r & Hh & L & P & G).
  exists data, r. split; [exact Hh|]. split; [exact L|]. eapply json_page; eauto.
Qed.
Lemma c67_writes : forall fuel bd flash es e m os m' o, build_ok bd -> flash_ok flash -> Forall ordinary_life (es ++ [e]) ->
  lrun fuel bd es (Off flash) = Done (m, os) -> lstep fuel bd e m = Done (m', o) ->
  flash_of m' = flash_of m \/
  (exists a q raw d cl, e = Event (DHttp a q) raw /\ m = On d cl /\
     (q_uri q = str "/config_form.json" /\ ~ refused q d \/ q_uri q = str "/factory_reset" /\ fully_allowed q d)) \/
  (exists line, In (Command line) o /\ writer (bd_parse bd line)) \/
  (exists b, e = PowerOn b /\ forall r, settings_at_start (b_chip b) (flash_of m) r -> s_ssid r = []).
Proof.
  intros fuel bd flash es e m os m' o B F O H E. apply Forall_app in O. destruct O as (O1 & O2). inversion O2; subst.
  eapply written_by; [|eassumption|exact E]. eapply lrun_ok; [exact B| |exact O1|exact H]; exact F.
Qed.
Lemma c67_restarts : forall fuel bd e raw d cl flash o, ordinary_event e -> lstep fuel bd (Event e raw) (On d cl) = Done (Off flash, o) ->
  (exists a q, e = DHttp a q /\ (q_uri q = str "/reset" /\ ~ refused q d \/ q_uri q = str "/factory_reset" /\ fully_allowed q d)) \/
  exists line, In (Command line) o /\ restarter (bd_parse bd line).
Proof.
  intros fuel bd e raw d cl flash o O H. eapply event_restart; [exact O|exact H|].
  destruct (event_effect _ _ _ _ _ _ _ _ O H) as (d' & cl' & A & _). unfold after in A. destruct (existsb restarts o) eqn:X; [|discriminate].
  apply existsb_exists in X. destruct X as (h & I & X). destruct h as [h| | |]; try discriminate. destruct h; try discriminate. exact I.
Qed.

(** ** The command "tic" *)
Lemma fits_content : forall gs used, Forall good_t gs -> gs <> [] -> fits used (map enc_t gs) -> (used + length (content (map enc_t gs)) < 348)%nat.
Proof.
  induction gs as [|x gs IH]; intros used G N F; [congruence|]. apply Forall_cons_iff in G. destruct G as (G & Gs). cbn [map fits] in F. destruct F as (F1 & F2).
  assert (K : (length (kept (enc_t x)) < length (enc_t x))%nat).
  { unfold enc_t. rewrite kept_enc_group by exact G. unfold enc_group. destruct (rstrip_prefix (snd (snd x))) as (r & E).
    assert (L : length (snd (snd x)) = (length (rstrip (snd (snd x))) + length r)%nat) by (rewrite E at 1; apply app_length).
    rewrite !app_length. cbn [length]. lia. }
  unfold content. cbn [map concat]. rewrite app_length. fold (content (map enc_t gs)). destruct gs as [|y gs].
  - unfold content. cbn [map concat length]. lia.
  - assert (I := IH _ Gs ltac:(discriminate) F2). lia.
Qed.
Lemma cstr_at : forall l j, (j < length l)%nat -> nth j l 1 = 0 -> Forall (fun c => c <> 0) (firstn j l) -> cstr l = firstn j l.
Proof.
  induction l as [|c l IH]; intros j J Z N; [cbn in J; lia|]. destruct j as [|j]; cbn [nth firstn cstr] in *.
  - subst c. reflexivity.
  - apply Forall_cons_iff in N. destruct N as (N & Ns). destruct (Z.eqb_spec c 0); [contradiction|]. f_equal. apply IH; auto. cbn [length] in J. lia.
Qed.
Lemma tic_prints : forall a raw t t0 gs h, published_ti t -> length raw = 350%nat -> last_valid h (Some (t0, map enc_t gs)) ->
  groups_are t (Some (t0, map enc_t gs)) -> Forall good_t gs ->
  tic_dump a raw t = Some (iso a (tv_sec t0) ++ eol ++ concat (map (fun x => line (shown (snd x))) gs) ++ eol).
Proof.
  intros a raw t t0 gs h P L V (G1 & _ & G3 & R & E) G. destruct V as (h1 & h2 & _ & _ & (N & _ & F) & _).
  assert (N' : gs <> []) by (intros ->; apply N; reflexivity).
  destruct (TeleinfoMain.c09_full gs R raw N' G F) as (dst & j & D1 & D2 & D3 & D4).
  { assert (X := fits_content gs 0 G N' F). lia. }
  unfold tic_dump. rewrite E, G1, D1, G3. rewrite (cstr_at dst j D2 D3), D4; [reflexivity|]. rewrite D4.
  clear - G. apply Forall_forall. intros c I. apply in_concat in I. destruct I as (l & I1 & I2). apply in_map_iff in I1. destruct I1 as (x & <- & I1).
  rewrite Forall_forall in G. destruct (G x I1) as (_ & A & B & _). apply char7_nz in A. apply char7_nz in B. unfold AccessProofs.nz in *.
  apply rstrip_Forall in B. rewrite Forall_forall in A, B. unfold line, shown in I2. cbn [fst snd] in I2.
  apply in_app_or in I2. destruct I2 as [I2|I2]; [auto|]. apply in_app_or in I2. destruct I2 as [[<-|[]]|I2]; [discriminate|].
  apply in_app_or in I2. destruct I2 as [I2|[<-|[]]]; [auto|discriminate].
Qed.
Lemma tic_command : forall fuel bd a up tv c raw d cl m l o, is_byte c -> lstep fuel bd (Event (DByte a up tv c) raw) (On d cl) = Done (m, Command l :: o) ->
  bd_parse bd l = CTic -> exists t, tic_dump (a_env a) raw (ti_of d) = Some t /\ o = [Printed t] /\ exists cl', m = On d cl'.
Proof.
  intros fuel bd a up tv c raw d cl m l o B H P. cbn [lstep] in H.
  destruct (serial_byte bd a up tv c raw d cl) as [[[d' cl'] o1]|] eqn:E; [|discriminate]. cbn [lift] in H. injection H as H.
  destruct (after_cases _ _ _ _ _ H) as (X & _). subst o1.
  destruct (serial_effect _ _ _ _ _ _ _ _ _ _ _ B E) as (r & line & _ & S). destruct line as [l'|].
  - destruct S as (_ & o' & X & R). injection X as <- <-. rewrite P in R. cbn [run_command] in R.
    destruct (tic_dump (a_env a) raw (ti_of d)) as [t|]; [|discriminate]. injection R as <- <-. exists t. split; [reflexivity|]. split; [reflexivity|].
    exists cl'. unfold after in H. cbn [existsb restarts orb] in H. injection H as <-. reflexivity.
  - destruct S as [(_ & _ & S)|(_ & o' & S & _)]; [discriminate|]. destruct o'; discriminate.
Qed.
Lemma c69 : forall fuel bd flash es b evs d cl os a up tv c raw m l o, build_ok bd -> flash_ok flash -> Forall ordinary_life (es ++ started b evs) ->
  lrun fuel bd (es ++ started b evs) (Off flash) = Done (On d cl, os) ->
  is_byte c -> length raw = 350%nat -> lstep fuel bd (Event (DByte a up tv c) raw) (On d cl) = Done (m, Command l :: o) -> bd_parse bd l = CTic ->
  exists data r, hears (bd_cli bd) (map fst evs) data (commands_of (skipn (S (length es)) os)) /\ last_valid data r /\
    forall t0 gs, r = Some (t0, map enc_t gs) -> Forall good_t gs ->
    o = [Printed (iso (a_env a) (tv_sec t0) ++ [13; 10] ++ concat (map (fun x => line (shown (snd x))) gs) ++ [13; 10])].
Proof.
  intros fuel bd flash es b evs d cl os a up tv c raw m l o B F O H Bc L E P. destruct (life_split _ _ _ _ _ _ _ _ _ B F O H) as (data & r & Hh & V & Q & G).
  exists data, r. split; [exact Hh|]. split; [exact V|]. intros t0 gs -> Gs.
  destruct (tic_command _ _ _ _ _ _ _ _ _ _ _ _ Bc E P) as (t & T & -> & _). rewrite (tic_prints _ _ _ _ _ _ Q L V G Gs) in T. injection T as <-. reflexivity.
Qed.
