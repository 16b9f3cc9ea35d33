(** Proofs: a session of a life is a session of the module without the keyboard. *)
From Coq Require Import ZArith List Bool Lia ZifyBool.
From Verif Require Import Base BaseFacts Teleinfo TeleinfoSpec Publish HistorySpec PublishProofs Config ConfigSpec ConfigProofs ConfigMain ConfigHist
  Json JsonBuild Tic TicSpec Pages PagesSpec Sse SseSpec SseProofs Cpu Web Wifi Device WebSpec WebProofs
  DeviceProofs DeviceMain DeviceSafe DeviceFinal DevicePages Cli CliSpec CliProofs Life LifeSpec LifeProofs LifeMain LifeFinal
  SlotSpec ChainSpec ChainProofs ChainMain SessionSpec.
Import ListNotations.
Open Scope Z_scope.

Definition listen_at (bd : build) (l : list (nat * Z)) (cl : cli) : cli * list (nat * Z) * list (list Z) :=
  if bd_cli bd then cli_listen l cl else (cl, l, []).
Lemma listen_at_cons : forall bd t c l cl, is_byte c -> listen_at bd ((t, c) :: l) cl =
  let '(cl1, r, cmd) := read_if bd c cl in let '(cl2, out, cmds) := listen_at bd l cl1 in
  (cl2, (if negb (r =? -1) then (t, r) :: out else out), match cmd with Some x => x :: cmds | None => cmds end).
Proof.
  intros bd t c l cl B. unfold listen_at, read_if. destruct (bd_cli bd); [reflexivity|].
  replace (negb (c =? -1)) with true by (unfold is_byte in B; lia). reflexivity.
Qed.
Lemma listen_incl : forall bd l cl cl' data cmds, Forall is_byte (map snd l) -> listen_at bd l cl = (cl', data, cmds) -> incl (map fst data) (map fst l).
Proof.
  intros bd. induction l as [|[t c] l IH]; intros cl cl' data cmds B H.
  - unfold listen_at in H. cbn [cli_listen] in H. destruct (bd_cli bd); injection H as <- <- <-; intros x [].
  - cbn [map] in B. apply Forall_cons_iff in B. destruct B as (B & Bs). cbn [snd] in B. rewrite listen_at_cons in H by exact B.
    destruct (read_if bd c cl) as [[cl1 r] cmd]. destruct (listen_at bd l cl1) as [[cl2 out] cs] eqn:L.
    specialize (IH _ _ _ _ Bs L). cbn [map fst]. destruct (negb (r =? -1)); assert (data = (t, r) :: out \/ data = out) as [-> | ->] by (assert (X := f_equal (fun x => snd (fst x)) H); cbn in X; auto).
    + intros x [<-|I]; [left; reflexivity|right; auto].
    + intros x I. right. auto.
    + intros x [<-|I]; [left; reflexivity|right; auto].
    + intros x I. right. auto.
Qed.
Lemma serial_ge : forall es n p, In p (map fst (serial_at n es)) -> (n <= p)%nat.
Proof.
  induction es as [|e es IH]; intros n p I; [destruct I|]. destruct e; cbn [serial_at map fst] in I; try (specialize (IH _ _ I); lia).
  destruct I as [<-|I]; [lia|]. specialize (IH _ _ I). lia.
Qed.
Lemma only_cons : forall es l n k c, (k < n)%nat -> only ((k, c) :: l) n es = only l n es.
Proof.
  induction es as [|e es IH]; intros l n k c K; [reflexivity|]. cbn [only existsb fst]. replace (Nat.eqb k n) with false by (symmetry; apply Nat.eqb_neq; lia).
  cbn [orb]. rewrite IH by lia. reflexivity.
Qed.
Lemma not_here : forall l n, (forall p, In p (map fst l) -> (S n <= p)%nat) -> existsb (fun p : nat * Z => Nat.eqb (fst p) n) l = false.
Proof.
  induction l as [|x l IH]; intros n H; [reflexivity|]. cbn [existsb]. rewrite IH by (intros p I; apply H; right; exact I). rewrite orb_false_r.
  apply Nat.eqb_neq. specialize (H (fst x) ltac:(left; reflexivity)). lia.
Qed.

Lemma effects_cons : forall o os, effects_of (o :: os) = flat_map (fun h => match h with Did x => [x] | _ => [] end) o ++ effects_of os.
Proof. intros. unfold effects_of. cbn [concat]. apply flat_map_app. Qed.
Lemma did_all : forall o, flat_map (fun h => match h with Did x => [x] | _ => [] end) (map Did o) = o.
Proof. induction o as [|x o IH]; [reflexivity|]. cbn [map flat_map]. rewrite IH. reflexivity. Qed.
Lemma serial_bytes : forall es n, Forall ordinary_event es -> Forall is_byte (map snd (serial_at n es)).
Proof.
  induction es as [|e es IH]; intros n O; [constructor|]. apply Forall_cons_iff in O. destruct O as (O & Os). destruct e; cbn [serial_at map snd]; auto.
  constructor; [exact (proj1 O)|auto].
Qed.
(** A command that does not act on the streams, on the timers, on the settings: nothing changes. *)
Lemma idle_command : forall a up raw c d d' o, run_command a up raw c d = Some (d', o) -> ~ meddles c -> existsb restarts o = false ->
  d' = d /\ flat_map (fun h => match h with Did x => [x] | _ => [] end) o = [].
Proof.
  intros a up raw c d d' o H M N. destruct c; first [rewrite run_dump in H | cbn [run_command] in H].
  1, 3, 11: injection H as <- <-; split; reflexivity.
  - destruct M. exact Logic.I.
  - injection H as <- <-; split; reflexivity.
  - injection H as <- <-; split; reflexivity.
  - destruct (cli_dump (d_cs d)) as [t|]; [|discriminate]. injection H as <- <-; split; reflexivity.
  - destruct (tic_dump (a_env a) raw (ti_of d)); [|discriminate]. injection H as <- <-; split; reflexivity.
  - destruct args as [|what args]; [injection H as <- <-; split; reflexivity|].
    destruct (beq what (str "timers")) eqn:T1; [destruct M; apply beq_true in T1; exact T1|].
    destruct (beq what (str "wifi")).
    { destruct (cli_wifi _ _ _ _) as [s|]; [|discriminate]. injection H as <- <-. discriminate N. }
    destruct (beq what (str "ap")).
    { destruct (cli_ap _ _ _ _) as [s|]; [|discriminate]. injection H as <- <-. discriminate N. }
    injection H as <- <-; split; reflexivity.
  - destruct args as [|what args]; [injection H as <- <-; split; reflexivity|].
    destruct (has_prefix (str "ver") what); injection H as <- <-; split; reflexivity.
  - destruct (beq arg (str "restart")); [injection H as <- <-; discriminate N|].
    destruct (beq arg (str "reset")).
    { destruct (cli_erase _ _) as [s|]; [|discriminate]. injection H as <- <-. discriminate N. }
    injection H as <- <-; split; reflexivity.
Qed.
Lemma after_on : forall d cl o d' cl' o', after d cl o = (On d' cl', o') -> d' = d /\ cl' = cl /\ o' = o /\ existsb restarts o = false.
Proof. intros d cl o d' cl' o' H. unfold after in H. destruct (existsb restarts o); [discriminate|]. injection H as <- <- <-. auto. Qed.
Lemma no_restart : forall o, existsb restarts (map Did o) = false -> ~ In RestartNow o.
Proof.
  intros o H I. assert (existsb restarts (map Did o) = true); [|congruence]. apply existsb_exists. exists (Did RestartNow). split; [|reflexivity].
  apply in_map. exact I.
Qed.

Lemma session_run : forall fuel bd evs d cl d' cl' os n, Forall (fun p => ordinary_event (fst p)) evs ->
  lrun fuel bd (map (fun p => Event (fst p) (snd p)) evs) (On d cl) = Done (On d' cl', os) ->
  (forall l, In l (commands_of os) -> ~ meddles (bd_parse bd l)) ->
  exists data cmds os', listen_at bd (serial_at n (map fst evs)) cl = (cl', data, cmds) /\ commands_of os = cmds /\
    drun fuel (bd_signed bd) (only data n (map fst evs)) d = Done (d', os') /\ effects_of os = concat os' /\ ~ In RestartNow (concat os').
Proof.
  intros fuel bd. induction evs as [|[e raw] evs IH]; intros d cl d' cl' os n O H K; cbn [map lrun fst snd] in H.
  - injection H as <- <- <-. exists [], [], []. unfold listen_at. cbn [map serial_at cli_listen only drun]. destruct (bd_cli bd); auto 10.
  - apply Forall_cons_iff in O. destruct O as (O & Os). cbn [fst] in O.
    destruct (lstep fuel bd (Event e raw) (On d cl)) as [[m1 o]| |] eqn:S; try discriminate.
    destruct (lrun fuel bd (map (fun p => Event (fst p) (snd p)) evs) m1) as [[m2 os2]| |] eqn:R; try discriminate. injection H as -> <-.
    destruct m1 as [f|d1 cl1]; [apply off_stays in R; discriminate|].
    rewrite commands_cons in K.
    destruct (IH _ _ _ _ _ (Datatypes.S n) Os R ltac:(intros l I; apply K, in_or_app; right; exact I)) as (data & cmds & os' & L & C & D & E & N).
    assert (Ob : Forall is_byte (map snd (serial_at (Datatypes.S n) (map fst evs)))).
    { apply serial_bytes. clear - Os. induction Os; cbn [map]; constructor; auto. }
    assert (G : forall p, In p (map fst data) -> (Datatypes.S n <= p)%nat) by (intros p I; apply (serial_ge (map fst evs)); apply (listen_incl _ _ _ _ _ _ Ob L); exact I).
    assert (W : forall e0, e = e0 -> (forall a up tv c, e0 <> DByte a up tv c) ->
      exists data cmds os', listen_at bd (serial_at n (map fst ((e, raw) :: evs))) cl = (cl', data, cmds) /\ commands_of (o :: os2) = cmds /\
        drun fuel (bd_signed bd) (only data n (map fst ((e, raw) :: evs))) d = Done (d', os') /\ effects_of (o :: os2) = concat os' /\ ~ In RestartNow (concat os')).
    { intros e0 -> X. destruct (other_event _ _ _ _ _ _ _ _ X S) as (d2 & o1 & D1 & Af & ->).
      destruct (after_on _ _ _ _ _ _ Af) as (-> & -> & _ & NR). exists data, cmds, (o1 :: os'). cbn [map fst].
      assert (Sx : serial_at n (e0 :: map fst evs) = serial_at (Datatypes.S n) (map fst evs)) by (destruct e0; try reflexivity; exfalso; eapply X; reflexivity).
      assert (Ox : only data n (e0 :: map fst evs) = e0 :: only data (Datatypes.S n) (map fst evs)) by (destruct e0; try reflexivity; exfalso; eapply X; reflexivity).
      rewrite Sx, Ox. split; [exact L|]. split; [rewrite commands_cons, no_command; exact C|]. cbn [drun]. rewrite D1, D. split; [reflexivity|].
      rewrite effects_cons, did_all, E. split; [reflexivity|]. cbn [concat]. intros I. apply in_app_or in I. destruct I as [I|I]; [exact (no_restart _ NR I)|exact (N I)]. }
    destruct e; try (eapply (W _ eq_refl); discriminate). clear W.
    cbn [lstep] in S. destruct (serial_byte bd a up tv c raw d cl) as [[[d2 cl2] o1]|] eqn:Sb; [|discriminate].
    cbn [lift] in S. assert (S' : after d2 cl2 o1 = (On d1 cl1, o)) by congruence. destruct (after_on _ _ _ _ _ _ S') as (-> & -> & -> & NR).
    destruct O as (O & _). destruct (serial_effect _ _ _ _ _ _ _ _ _ _ _ O Sb) as (r & line & Rd & T).
    cbn [map fst serial_at]. rewrite listen_at_cons by exact O. rewrite Rd, L. rewrite commands_cons, effects_cons, C. destruct line as [l|].
    + destruct T as (-> & o' & -> & T). destruct (command_effect _ _ _ _ _ _ _ T) as (_ & _ & _ & Tc).
      destruct (idle_command _ _ _ _ _ _ _ T) as (-> & De); [apply K; left; reflexivity|exact NR|].
      exists data, (l :: cmds), os'. cbn [Z.eqb negb]. split; [reflexivity|]. split; [cbn [flat_map app]; rewrite few_commands by (intros x I; exact (Tc _ I)); reflexivity|].
      cbn [only]. rewrite not_here by exact G. split; [exact D|]. cbn [flat_map app]. rewrite De. split; [exact E|exact N].
    + destruct T as [(-> & -> & ->)|(-> & o' & -> & T)].
      * exists data, cmds, os'. split; [reflexivity|]. split; [reflexivity|]. cbn [only]. rewrite not_here by exact G. split; [exact D|]. split; [exact E|exact N].
      * replace (negb (c =? -1)) with true by (cbn [devent_ok] in O; unfold is_byte in O; lia).
        exists ((n, c) :: data), cmds, (o' :: os'). split; [reflexivity|]. split; [rewrite no_command; reflexivity|].
        cbn [only existsb fst]. rewrite Nat.eqb_refl. cbn [orb]. rewrite only_cons by lia. cbn [drun dstep]. rewrite T. cbn [lift]. rewrite D.
        split; [reflexivity|]. rewrite did_all, E. split; [reflexivity|]. cbn [concat]. intros I. apply in_app_or in I.
        destruct I as [I|I]; [exact (no_restart _ NR I)|exact (N I)].
Qed.
Lemma session_removed : forall bd es cl data cmds, Forall ordinary_event es -> listen_at bd (serial_at 0 es) cli_init = (cl, data, cmds) ->
  keyboard_removed (bd_cli bd) es (only data 0 es) cmds.
Proof.
  intros bd es cl data cmds O H. unfold listen_at in H. unfold keyboard_removed. destruct (bd_cli bd).
  - exists data. split; [|reflexivity]. exact (proj1 (listen_spec _ (serial_bytes _ 0 O)) _ _ _ H).
  - injection H as <- <- <-. split; [|reflexivity]. clear. 
    assert (G : forall xs n l, (forall p, In p (serial_at n xs) -> In p l) -> only l n xs = xs).
    { clear es. induction xs as [|e xs IH]; intros n l I; [reflexivity|]. destruct e; cbn [only]; try (rewrite IH; [reflexivity|exact I]).
      replace (existsb _ l) with true; [rewrite IH; [reflexivity|intros p J; apply I; right; exact J]|]. symmetry. apply existsb_exists. exists (n, c).
      split; [apply I; left; reflexivity|apply Nat.eqb_refl]. }
    apply G. auto.
Qed.

Lemma lrun_length : forall fuel bd es m m' os, lrun fuel bd es m = Done (m', os) -> length os = length es.
Proof.
  intros fuel bd. induction es as [|e es IH]; intros m m' os R; cbn [lrun] in R; [injection R as _ <-; reflexivity|].
  destruct (lstep fuel bd e m) as [[m1 o]| |]; try discriminate. destruct (lrun fuel bd es m1) as [[m2 os2]| |] eqn:E; try discriminate.
  injection R as -> <-. cbn [length]. f_equal. eapply IH; eauto.
Qed.
Lemma c101_session : forall fuel bd flash es b evs d cl os, build_ok bd -> flash_ok flash -> Forall ordinary_life (es ++ started b evs) ->
  lrun fuel bd (es ++ started b evs) (Off flash) = Done (On d cl, os) ->
  let since := skipn (Datatypes.S (length es)) os in
  (forall l, In l (commands_of since) -> ~ meddles (bd_parse bd l)) ->
  exists m os1 d0 acts rest outs, lrun fuel bd es (Off flash) = Done (m, os1) /\ start_ok (on_flash (flash_of m) b) /\
    boot (on_flash (flash_of m) b) = Some (d0, acts) /\ keyboard_removed (bd_cli bd) (map fst evs) rest (commands_of since) /\
    Forall ordinary_event rest /\ incl rest (map fst evs) /\
    drun fuel (bd_signed bd) rest d0 = Done (d, outs) /\ effects_of since = concat outs /\ ~ In RestartNow (concat outs).
Proof.
  intros fuel bd flash es b evs d cl os B F O H. apply Forall_app in O. destruct O as (O1 & O2). apply Forall_cons_iff in O2. destruct O2 as (Ob & O2).
  destruct (lrun_app _ _ _ _ _ _ _ H) as (m & os1 & os2 & R1 & R2 & ->).
  assert (M : mod_ok (bd_signed bd) m) by (eapply lrun_ok; [exact B| |exact O1|exact R1]; exact F).
  assert (L := lrun_length _ _ _ _ _ _ R1).
  unfold started in R2. cbn [lrun] in R2. cbn [lstep] in R2. fold (on_flash (flash_of m) b) in R2.
  assert (S : start_ok (on_flash (flash_of m) b)) by (apply with_flash_ok; [exact Ob|eapply mod_flash; eauto]).
  destruct (boot (on_flash (flash_of m) b)) as [[d0 acts]|] eqn:E; [|discriminate]. cbn [lift] in R2.
  destruct (lrun fuel bd (map (fun p => Event (fst p) (snd p)) evs) (On d0 cli_init)) as [[m2 os3]| |] eqn:R3; try discriminate.
  injection R2 as -> <-. cbv zeta.
  replace (skipn (Datatypes.S (length es)) (os1 ++ map Radio acts :: os3)) with os3.
  2:{ rewrite <- L. rewrite skipn_app. replace (Datatypes.S (length os1) - length os1)%nat with 1%nat by lia. rewrite skipn_all2 by lia. reflexivity. }
  intros K.
  assert (Oe : Forall (fun p : devent * list Z => ordinary_event (fst p)) evs).
  { clear - O2. induction evs as [|p evs IH]; [constructor|]. cbn [map] in O2. apply Forall_cons_iff in O2. destruct O2 as (O & O2).
    constructor; [exact (proj1 O)|auto]. }
  assert (Om : Forall ordinary_event (map fst evs)) by (clear - Oe; induction Oe; cbn [map]; constructor; auto).
  destruct (session_run _ _ _ _ _ _ _ _ 0%nat Oe R3 K) as (data & cmds & outs & Ls & C & D & Ef & N).
  exists m, os1, d0, acts, (only data 0 (map fst evs)), outs. split; [exact R1|]. split; [exact S|]. split; [exact E|].
  assert (I : forall xs n, incl (only data n xs) xs).
  { clear. induction xs as [|e xs IH]; intros n x I; [exact I|]. cbn [only] in I. specialize (IH (Datatypes.S n)). destruct e; try (destruct I as [<-|I]; [left; reflexivity|right; auto]).
    destruct (existsb _ data); [destruct I as [<-|I]; [left; reflexivity|right; auto]|right; auto]. }
  split; [rewrite C; eapply session_removed; eauto|]. split; [|split; [apply I|auto]].
  apply Forall_forall. intros x J. apply I in J. rewrite Forall_forall in Om. auto.
Qed.

(** A life that ends with the module running has a last start. *)
Lemma c101_last_start : forall fuel bd flash life d cl os, lrun fuel bd life (Off flash) = Done (On d cl, os) ->
  exists es b evs, life = es ++ started b evs.
Proof.
  intros fuel bd flash life. revert flash. enough (G : forall life m d cl os, lrun fuel bd life m = Done (On d cl, os) ->
    (exists es b evs, life = es ++ started b evs) \/ (exists d0 cl0, m = On d0 cl0)).
  { intros flash d cl os H. destruct (G _ _ _ _ _ H) as [X|(d0 & cl0 & X)]; [exact X|discriminate]. }
  clear life. induction life as [|e life IH]; intros m d cl os H; cbn [lrun] in H; [right; injection H as -> _; eauto|].
  destruct (lstep fuel bd e m) as [[m1 o]| |] eqn:S; try discriminate. destruct (lrun fuel bd life m1) as [[m2 os2]| |] eqn:R; try discriminate.
  injection H as -> <-. destruct (IH _ _ _ _ R) as [(es & b & evs & ->)|(d1 & cl1 & ->)]; [left; exists (e :: es), b, evs; reflexivity|].
  destruct e as [b|e raw]; [|destruct m as [f|d0 cl0]; [discriminate|eauto]].
  left. clear - R. assert (G : (exists es b evs, life = es ++ started b evs) \/ exists evs, life = map (fun p => Event (fst p) (snd p)) evs).
  { clear R. induction life as [|e life IH]; [right; exists []; reflexivity|]. destruct IH as [(es & b' & evs & ->)|(evs & ->)]; [left; exists (e :: es), b', evs; reflexivity|].
    destruct e as [b'|e raw]; [left; exists [], b', evs; reflexivity|right; exists ((e, raw) :: evs); reflexivity]. }
  destruct G as [(es & b' & evs & ->)|(evs & ->)]; [exists (PowerOn b :: es), b', evs; reflexivity|exists [], b, evs; reflexivity].
Qed.
Lemma heard_ordinary : forall es off, Forall ordinary_event es -> Forall is_byte (map snd (heard off es)).
Proof.
  induction es as [|e es IH]; intros off O; [constructor|]. apply Forall_cons_iff in O. destruct O as (O & Os). destruct e; cbn [heard]; auto.
  destruct off; [auto|]. cbn [app map snd]. constructor; [exact (proj1 O)|auto].
Qed.
Lemma c101_services : forall fuel bd flash es b evs d cl os en, build_ok bd -> flash_ok flash -> Forall ordinary_life (es ++ started b evs) ->
  lrun fuel bd (es ++ started b evs) (Off flash) = Done (On d cl, os) ->
  let since := skipn (Datatypes.S (length es)) os in
  (forall l, In l (commands_of since) -> ~ meddles (bd_parse bd l)) -> Forall (fun p => same_env en (fst p)) evs ->
  exists m os1 d0 acts rest ms, lrun fuel bd es (Off flash) = Done (m, os1) /\ boot (on_flash (flash_of m) b) = Some (d0, acts) /\
    keyboard_removed (bd_cli bd) (map fst evs) rest (commands_of since) /\ frames fuel (bd_signed bd) d0 [] rest ms /\
    requests (effects_of since) = flat_map (fun x => requests (m_out x)) ms /\
    map (sends PTEC) ms = changes_7 None (map (watched s_ptec (lookup (str "PTEC"))) ms) /\
    map (fun x => (sends ADPS x, sends NORM x)) ms =
      edges false (map (watched s_adps (fun gs => match lookup (str "ADPS") gs with Some _ => true | None => false end)) ms) /\
    forall before x after, ms = before ++ x :: after ->
      let on := s_http_host (m_set x) <> [] /\ s_seuils (m_set x) = true /\ power (m_groups x) <> 0 in
      (sends HAUT x = true <-> on /\ s_seuil_haut (m_set x) <= power (m_groups x) /\ last_crossing before <> Some HAUT) /\
      (sends BAS x = true <-> on /\ power (m_groups x) <= s_seuil_bas (m_set x) /\ last_crossing before = Some HAUT).
Proof.
  intros fuel bd flash es b evs d cl os en B F O H since K En.
  destruct (c101_session _ _ _ _ _ _ _ _ _ B F O H K) as (m & os1 & d0 & acts & rest & outs & R1 & So & Bo & Kr & Or & Ir & Rr & Ef & NR).
  assert (Hb := heard_ordinary rest false Or).
  assert (He : Forall (same_env en) rest).
  { apply Forall_forall. intros x I. apply Ir, in_map_iff in I. destruct I as (p & <- & I). rewrite Forall_forall in En. exact (En _ I). }
  destruct (frames_exist fuel (bd_signed bd) _ d0 acts So Bo [] rest d outs Hb Rr) as (ms & Fr).
  exists m, os1, d0, acts, rest, ms. split; [exact R1|]. split; [exact Bo|]. split; [exact Kr|]. split; [exact Fr|].
  split; [unfold since in *; rewrite Ef; exact (c99_only _ _ _ _ _ _ _ _ _ _ So Bo Hb He Rr NR Fr)|].
  split; [exact (c99_tariff _ _ _ _ _ _ _ _ _ _ So Bo Hb He Rr NR Fr)|].
  split; [exact (c99_overload _ _ _ _ _ _ _ _ _ _ So Bo Hb He Rr NR Fr)|].
  exact (c99_thresholds _ _ _ _ _ _ _ _ _ _ So Bo Hb He Rr NR Fr).
Qed.
