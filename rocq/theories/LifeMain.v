(** Proofs about the life of a module, continued: settings, restarts, frames. *)
From Coq Require Import ZArith List Bool Lia ZifyBool.
From Verif Require Import Base BaseFacts Teleinfo TeleinfoSpec Publish HistorySpec PublishProofs Config ConfigSpec ConfigProofs ConfigMain ConfigHist
  Json JsonBuild Tic TicSpec Pages PagesSpec Sse SseSpec SseProofs Cpu Web Wifi Device WebSpec WebProofs
  DeviceProofs DeviceMain DeviceSafe DeviceFinal DevicePages Cli CliSpec CliProofs Life LifeSpec LifeProofs.
Import ListNotations.
Open Scope Z_scope.

(** ** What a command does *)
Lemma run_dump : forall a up raw d,
  run_command a up raw CDump d = match cli_dump (d_cs d) with Some t => Some (d, [Printed t]) | None => None end.
Proof. reflexivity. Qed.
Lemma command_effect : forall a up raw c d d' o, run_command a up raw c d = Some (d', o) ->
  d_pub d' = d_pub d /\ d_upd d' = d_upd d /\ (d_cs d' = d_cs d \/ writer c) /\
  (forall h, In h o -> match h with
                       | Command _ | Radio _ => False
                       | Did RestartNow => restarter c
                       | Did EraseSdk => c = CEsp (str "reset")
                       | Did (Streaming _) => exists data, c = CSse data
                       | Did _ => False
                       | Printed _ => True
                       end).
Proof.
  intros a up raw c d d' o H. destruct c; first [rewrite run_dump in H | cbn [run_command] in H].
  1, 3, 11: injection H as <- <-; repeat split; auto; intros h [].
  - destruct (handle_clients up (Some data) (d_sse d)) as [[s o1]|]; [|discriminate]. injection H as <- <-. repeat split; auto.
    intros h J. apply in_map_iff in J. destruct J as (e & <- & _). exists data. reflexivity.
  - injection H as <- <-; repeat split; auto; intros h [<-|[]]; exact I.
  - injection H as <- <-; repeat split; auto; intros h [<-|[]]; exact I.
  - destruct (cli_dump (d_cs d)) as [t|]; [|discriminate]. injection H as <- <-; repeat split; auto; intros h [<-|[]]; exact I.
  - destruct (tic_dump (a_env a) raw (ti_of d)); [|discriminate]. injection H as <- <-; repeat split; auto; intros h [<-|[]]; exact I.
  - destruct args as [|what args]; [injection H as <- <-; repeat split; auto; intros h [<-|[]]; exact I|].
    destruct (beq what (str "timers")) eqn:T1; [injection H as <- <-; repeat split; auto; intros h []|].
    destruct (beq what (str "wifi")) eqn:T2.
    { apply beq_true in T2. subst what. destruct (cli_wifi _ _ _ _) as [s|]; [|discriminate]. injection H as <- <-.
      repeat split; auto; [right; left; reflexivity|]. intros h [<-|[]]. left. left. reflexivity. }
    destruct (beq what (str "ap")) eqn:T3.
    { apply beq_true in T3. subst what. destruct (cli_ap _ _ _ _) as [s|]; [|discriminate]. injection H as <- <-.
      repeat split; auto; [right; right; reflexivity|]. intros h [<-|[]]. left. right. reflexivity. }
    injection H as <- <-; repeat split; auto; intros h [].
  - destruct args as [|what args]; [injection H as <- <-; repeat split; auto; intros h [<-|[]]; exact I|].
    destruct (has_prefix (str "ver") what); injection H as <- <-; repeat split; auto; intros h Hh; [|destruct Hh].
    destruct Hh as [<-|[]]; exact I.
  - destruct (beq arg (str "restart")) eqn:T1.
    { apply beq_true in T1. subst arg. injection H as <- <-. split; [reflexivity|]. split; [reflexivity|]. split; [auto|]. intros h [<-|[]]. right. reflexivity. }
    destruct (beq arg (str "reset")) eqn:T2.
    { apply beq_true in T2. subst arg. destruct (cli_erase _ _) as [s|]; [|discriminate]. injection H as <- <-.
      repeat split; auto; [right; reflexivity|]. intros h [<-|[<-|[]]]; [reflexivity|left; reflexivity]. }
    injection H as <- <-; repeat split; auto; intros h [].
Qed.

(** ** What a byte does *)
Definition read_if (bd : build) (c : Z) (cl : cli) : cli * Z * option (list Z) :=
  if bd_cli bd then cli_loop_read c cl else (cl, c, None).
Lemma receive_outs : forall sgn a up tv c d d' os, receive sgn a up tv c d = Some (d', os) ->
  forall o, In o os -> match o with Streaming _ | Sent _ _ => True | _ => False end.
Proof.
  intros sgn a up tv c d d' os H. unfold receive in H. destruct (tic_decode sgn tv c (d_pub d)) as [[p f]|]; [|discriminate].
  destruct f; [|injection H as <- <-; intros o []].
  destruct (tic_notifs _ _ _ _ _ _ _) as [[[es n] t]|]; [|discriminate]. revert H. generalize (mk_dev (d_cs d) p n t (d_sse d) (d_perf d) (d_upd d)).
  revert d' os. induction es as [|e es IH]; intros d' os d0 H; cbn [effects_out] in H.
  - injection H as <- <-. intros o [].
  - destruct (effect_out up e d0) as [[d1 o1]|] eqn:E; [|discriminate]. destruct (effects_out up es d1) as [[d2 o2]|] eqn:E2; [|discriminate].
    injection H as <- <-. intros o I. apply in_app_or in I. destruct I as [I|I]; [|eapply IH; eauto].
    destruct e as [w r|dt]; cbn [effect_out] in E.
    + injection E as <- <-. destruct I as [<-|[]]. exact Logic.I.
    + destruct (handle_clients up (Some dt) (d_sse d0)) as [[s ss]|]; [|discriminate]. injection E as <- <-.
      apply in_map_iff in I. destruct I as (x & <- & _). exact Logic.I.
Qed.
Lemma serial_effect : forall bd a up tv c raw d cl d' cl' o, is_byte c -> serial_byte bd a up tv c raw d cl = Some (d', cl', o) ->
  exists r line, read_if bd c cl = (cl', r, line) /\
    match line with
    | Some l => r = -1 /\ exists o', o = Command l :: o' /\ run_command a up raw (bd_parse bd l) d = Some (d', o')
    | None => (r = -1 /\ d' = d /\ o = []) \/ (r = c /\ exists o', o = map Did o' /\ receive (bd_signed bd) a up tv c d = Some (d', o'))
    end.
Proof.
  intros bd a up tv c raw d cl d' cl' o B H. unfold serial_byte in H. unfold read_if. destruct (bd_cli bd).
  - destruct (cli_loop_read c cl) as ((cl1, r), line) eqn:E. exists r, line.
    assert (R : r = -1 \/ r = c /\ line = None).
    { unfold cli_loop_read in E. destruct (_ || _ || _); [injection E as _ <- <-; auto|].
      destruct (_ && _ && _); [destruct (_ || _ || _)|]; injection E as _ <- <-; auto. }
    destruct line as [l|].
    + destruct R as [-> |[_ X]]; [|discriminate]. destruct (run_command a up raw (bd_parse bd l) d) as [[d1 o1]|]; [|discriminate].
      cbn [Z.eqb negb] in H. injection H as <- <- <-. split; [reflexivity|]. split; [reflexivity|]. exists o1. split; [|reflexivity].
      cbn [map]. rewrite app_nil_r. reflexivity.
    + destruct R as [-> |[-> _]].
      * cbn [Z.eqb negb] in H. injection H as <- <- <-. auto.
      * replace (negb (c =? -1)) with true in H by (unfold is_byte in B; lia).
        destruct (receive (bd_signed bd) a up tv c d) as [[d2 o2]|]; [|discriminate]. injection H as <- <- <-.
        split; [reflexivity|]. right. split; [reflexivity|]. exists o2. auto.
  - destruct (receive (bd_signed bd) a up tv c d) as [[d2 o2]|]; [|discriminate]. injection H as <- <- <-.
    exists c, None. split; [reflexivity|]. right. split; [reflexivity|]. exists o2. auto.
Qed.

(** ** Settings: what can change them *)
Lemma after_flash : forall d cl o, flash_of (fst (after d cl o)) = e_flash (c_ee (d_cs d)).
Proof. intros d cl o. unfold after. destruct (existsb restarts o); reflexivity. Qed.
Lemma after_cases : forall d cl o m o', after d cl o = (m, o') -> o' = o /\ (m = On d cl \/ m = Off (e_flash (c_ee (d_cs d)))).
Proof. intros d cl o m o' H. unfold after in H. destruct (existsb restarts o); injection H as <- <-; auto. Qed.

(** One event of a running module, whatever it is. *)
Lemma event_effect : forall fuel bd e raw d cl m o, ordinary_event e -> lstep fuel bd (Event e raw) (On d cl) = Done (m, o) ->
  exists d' cl', after d' cl' o = (m, o) /\
    (d_cs d' = d_cs d \/
     (exists a q, e = DHttp a q /\
        (q_uri q = str "/config_form.json" /\ ~ refused q d \/ q_uri q = str "/factory_reset" /\ fully_allowed q d)) \/
     exists line, In (Command line) o /\ writer (bd_parse bd line)).
Proof.
  intros fuel bd e raw d cl m o O H. cbn [lstep] in H.
  assert (X : match dstep fuel (bd_signed bd) e d with Done (d', o) => Done (after d' cl (map Did o)) | Undefined => Undefined | OutOfFuel => OutOfFuel end = Done (m, o) ->
    exists d' cl', after d' cl' o = (m, o) /\
    (d_cs d' = d_cs d \/
     (exists a q, e = DHttp a q /\
        (q_uri q = str "/config_form.json" /\ ~ refused q d \/ q_uri q = str "/factory_reset" /\ fully_allowed q d)) \/
     exists line, In (Command line) o /\ writer (bd_parse bd line))).
  { intros E. destruct (dstep fuel (bd_signed bd) e d) as [[d' o1]| |] eqn:D; try discriminate.
    injection E as E. destruct (after_cases _ _ _ _ _ E) as (-> & _). exists d', cl. split; [exact E|].
    destruct (dstep_cs _ _ _ _ _ _ D); auto. }
  destruct e; auto.
  destruct O as (O & _). destruct (serial_byte bd a up tv c raw d cl) as [[[d' cl'] o1]|] eqn:E; [|discriminate]. cbn [lift] in H. injection H as H.
  destruct (after_cases _ _ _ _ _ H) as (-> & _). exists d', cl'. split; [exact H|].
  destruct (serial_effect _ _ _ _ _ _ _ _ _ _ _ O E) as (r & line & _ & S). destruct line as [l|].
  - destruct S as (_ & o' & -> & R). destruct (command_effect _ _ _ _ _ _ _ R) as (_ & _ & [C|C] & _); [auto|].
    right. right. exists l. split; [left; reflexivity|exact C].
  - left. destruct S as [(_ & -> & _)|(_ & o' & _ & R)]; [reflexivity|]. apply receive_keeps in R. apply R.
Qed.

(** ** Invariants are kept by whatever ends normally *)
Lemma receive_ok : forall sgn a up tv c d d' o, dev_ok sgn d -> is_byte c -> receive sgn a up tv c d = Some (d', o) -> dev_ok sgn d'.
Proof.
  intros sgn a up tv c d d' o H Hc E. destruct H as [A B C D F]. unfold receive in E.
  destruct (decode_some sgn tv c (d_pub d) B Hc) as (p & f & X & P). rewrite X in E. destruct f.
  - destruct (tic_notifs _ _ _ _ _ _ _) as [[[es n] t]|]; [|discriminate].
    destruct (effects_some sgn up es (mk_dev (d_cs d) p n t (d_sse d) (d_perf d) (d_upd d))) as (d2 & o2 & E2 & H2); [constructor; assumption|].
    rewrite E in E2. injection E2 as <- _. exact H2.
  - injection E as <- <-. constructor; assumption.
Qed.
Lemma dstep_ok : forall fuel sgn e d d' o, dev_ok sgn d -> devent_ok e -> dstep fuel sgn e d = Done (d', o) -> dev_ok sgn d'.
Proof.
  intros fuel sgn e d d' o H K E. destruct e; cbn [dstep] in E.
  - destruct H as [A B C D F]. unfold cpuload_loop in E. destruct (tm_expired (a_now a) (pf_timer (d_perf d))) as [f tm]. destruct f.
    + rewrite upd_lt in E by (rewrite D; exact F). cbn [lift] in E.
      match type of E with Done (?a, _) = Done (?c, _) => assert (Y : c = a) by congruence end. rewrite Y. clear Y E.
      constructor; cbn [d_cs d_pub d_sse d_perf pf_vals pf_index]; auto.
      * rewrite app_length, firstn_length. cbn [length]. rewrite skipn_length, D. lia.
      * apply Nat.mod_upper_bound. discriminate.
    + cbn [lift] in E. injection E as <- <-. constructor; auto.
  - destruct (receive sgn a up tv c d) as [[d1 o1]|] eqn:R; [|discriminate]. cbn [lift] in E. injection E as <- <-.
    eapply receive_ok; eauto.
  - eapply happened_ok; eauto. eapply handle_happened; eauto.
  - destruct H as [A B C D F].
    destruct u as [n l [|] en|dt [|] en|en|en]; cbn [handle_upload update_finish] in E; injection E as <- <-; constructor;
      cbn [with_upload d_cs d_pub d_sse d_perf]; auto;
      cbn [p_dec p_ti]; apply pause_ok; auto.
  - destruct H as [A B C D F]. destruct (clients_some up None (d_sse d) C) as (s & o1 & X & S). rewrite X in E. cbn [lift] in E.
    injection E as <- <-. constructor; auto.
Qed.
Lemma lstep_ok : forall fuel bd e m m' o, build_ok bd -> mod_ok (bd_signed bd) m -> ordinary_life e ->
  lstep fuel bd e m = Done (m', o) -> mod_ok (bd_signed bd) m'.
Proof.
  intros fuel bd e m m' o K H O E. destruct e as [b|e raw]; cbn [lstep] in E.
  - fold (with_flash (flash_of m) b) in E. destruct (boot_dev_ok (bd_signed bd) (with_flash (flash_of m) b)) as (d & acts & X & D).
    { apply with_flash_ok; [exact O|eapply mod_flash; eauto]. }
    rewrite X in E. cbn [lift] in E. injection E as <- <-. split; [exact D|constructor].
  - destruct m as [f|d cl]; [injection E as <- <-; exact H|]. destruct O as (O & L). destruct H as (H & Hi).
    assert (X : match dstep fuel (bd_signed bd) e d with
        | Done (d', o) => Done (after d' cl (map Did o)) | Undefined => Undefined | OutOfFuel => OutOfFuel end = Done (m', o) -> mod_ok (bd_signed bd) m').
    { destruct (dstep fuel (bd_signed bd) e d) as [[d' o1]| |] eqn:D; try discriminate. intros Y. injection Y as Y.
      change m' with (fst (m', o)). rewrite <- Y. apply after_ok; auto. eapply dstep_ok; [exact H| |exact D]. apply O. }
    destruct e; auto. clear X. destruct O as (O & _).
    destruct (serial_byte bd a up tv c raw d cl) as [[[d' cl'] o1]|] eqn:S; [|discriminate]. cbn [lift] in E. injection E as E.
    change m' with (fst (m', o)). rewrite <- E.
    destruct (serial_effect _ _ _ _ _ _ _ _ _ _ _ O S) as (r & line & R & T). 
    assert (I : Forall is_byte (cl_input cl') /\ match line with Some l => bytes l | None => True end).
    { unfold read_if in R. destruct (bd_cli bd).
      - destruct (read_input _ _ _ _ _ O Hi R) as (I1 & _ & I2). auto.
      - injection R as <- _ <-. auto. }
    destruct I as (I1 & I2). apply after_ok; [|exact I1]. destruct line as [l|].
    + destruct T as (_ & o' & _ & T). destruct (command_some _ a up raw (bd_parse bd l) d H (K l I2) L) as (d2 & o2 & T2 & H2 & _).
      rewrite T in T2. injection T2 as <- _. exact H2.
    + destruct T as [(_ & -> & _)|(_ & o' & _ & T)]; [exact H|]. eapply receive_ok; eauto.
Qed.
Lemma lrun_ok : forall fuel bd es m m' os, build_ok bd -> mod_ok (bd_signed bd) m -> Forall ordinary_life es ->
  lrun fuel bd es m = Done (m', os) -> mod_ok (bd_signed bd) m'.
Proof.
  intros fuel bd es. induction es as [|e es IH]; intros m m' os K H O E; cbn [lrun] in E; [injection E as <- <-; exact H|].
  apply Forall_cons_iff in O. destruct O as (O & Os). destruct (lstep fuel bd e m) as [[m1 o]| |] eqn:S; try discriminate.
  destruct (lrun fuel bd es m1) as [[m2 os2]| |] eqn:R; try discriminate. injection E as <- <-. apply (IH m1 m2 os2 K); [eapply lstep_ok; eauto|exact Os|exact R].
Qed.

(** ** Starts *)
Lemma boot_stored : forall b d acts, start_ok b -> boot b = Some (d, acts) ->
  (e_flash (c_ee (d_cs d)) = b_flash b /\ forall r, settings_at_start (b_chip b) (b_flash b) r -> view (cfg_of d) = r) \/
  forall r, settings_at_start (b_chip b) (b_flash b) r -> s_ssid r = [].
Proof.
  intros b d acts (A & B & C & D & E & _) H. unfold boot in H.
  destruct (config_setup (b_chip b) (b_o1 b) (b_o2 b) (b_mem b) (b_flash b)) as [s|] eqn:S; [|discriminate].
  assert (V : forall r, settings_at_start (b_chip b) (b_flash b) r -> view (c_cfg s) = r).
  { intros r X. destruct (X (b_o1 b) (b_o2 b) (b_mem b) B) as (s' & S' & Y). rewrite S in S'. injection S' as <-. exact Y. }
  destruct (text Ssid (c_cfg s)) as [|x l] eqn:T.
  - right. intros r X. rewrite <- (V r X). exact T.
  - left. unfold sys_wifi_connect, adopt_sdk in H. rewrite T in H. rewrite T in H.
    destruct (wait_loop 50 (b_status b) 1) as [[rr k] w]. injection H as <- _. cbn [d_cs cfg_of].
    split; [|exact V]. destruct (Z.eq_dec (crc_of (b_flash b)) 0) as [Z0|Z0].
    + rewrite setup_good in S by assumption. injection S as <-. reflexivity.
    + destruct (setup_bad (b_chip b) (b_o1 b) (b_o2 b) (b_mem b) (b_flash b) C Z0) as (s' & S' & _ & F & _).
      rewrite S in S'. injection S' as <-. assert (X : s_ssid (view (c_cfg s)) = []) by (rewrite F; reflexivity). cbn in X. congruence.
Qed.
