(** Proofs about the commands "set wifi" and "set ap". *)
From Coq Require Import ZArith List Bool Lia.
From Verif Require Import Base BaseFacts Teleinfo TeleinfoSpec Publish Config ConfigSpec ConfigProofs ConfigMain ConfigHist ConfigFinal Tic Pages PagesSpec
  Sse SseSpec Cpu Web Wifi WifiSpec WifiProofs Device WebSpec WebProofs DeviceProofs DeviceMain DeviceSafe
  Cli CliSpec CliProofs Life LifeSpec LifeProofs LifeMain LifeFinal SetNetSpec.
Import ListNotations.
Open Scope Z_scope.

Lemma fld_dec : forall f g : fld, {f = g} + {f <> g}.
Proof. decide equality. Qed.
Definition field (v : list Z) (n : nat) : list Z := strncpy_bytes v n ++ [0].
Lemma set_text : forall f v n c, wf c -> terminated c -> S n = fsize f -> bytes v ->
  strncpy_s f v n c = Some (set f (field v n) c) /\ wf (set f (field v n) c) /\ terminated (set f (field v n) c).
Proof.
  intros f v n c W T N B. assert (E := strncpy_s_spec f v n c W N). destruct (strncpy_s_wf f v n c W N B) as (c' & E' & W').
  rewrite E in E'. injection E' as <-. split; [exact E|]. split; [exact W'|]. intros g G. destruct (fld_dec f g) as [<-|D].
  - rewrite get_set_same by (apply wf_length; exact W). apply in_or_app. right. left. reflexivity.
  - rewrite get_set_other by congruence. apply T. exact G.
Qed.
Lemma text_field : forall f v n c, length c = 35%nat -> text f (set f (field v n) c) = cut n v.
Proof. intros f v n c L. unfold text. rewrite get_set_same by exact L. apply cstr_strncpy. Qed.
(** Two texts are copied and the settings saved. *)
Lemma two_texts : forall f1 n1 f2 n2 v1 v2 s o, Inv s -> S n1 = fsize f1 -> S n2 = fsize f2 -> bytes v1 -> bytes v2 ->
  let c2 := set f2 (field v2 n2) (set f1 (field v1 n1) (c_cfg s)) in
  exists s', (c <- strncpy_s f1 v1 n1 (c_cfg s) ;; c <- strncpy_s f2 v2 n2 c ;; '(s', _) <- config_save o (mk_cs c (c_ee s)) ;; Some s') = Some s' /\
    (o = Stored -> forall chip, settings_at_start chip (e_flash (c_ee s')) (view c2)) /\
    (o = NotErased -> e_flash (c_ee s') = e_flash (c_ee s)).
Proof.
  intros f1 n1 f2 n2 v1 v2 s o (W & T & E) N1 N2 B1 B2 c2.
  destruct (set_text f1 v1 n1 _ W T N1 B1) as (-> & W1 & T1). destruct (set_text f2 v2 n2 _ W1 T1 N2 B2) as (-> & W2 & T2). change (set f2 (field v2 n2) (set f1 (field v1 n1) (c_cfg s))) with c2 in W2, T2 |- *. clearbody c2.
  destruct (config_save_spec o (mk_cs c2 (c_ee s)) W2 E) as (s' & -> & Ec & Ee & _ & _ & St & Ne). exists s'. cbn [c_cfg c_ee] in *.
  split; [reflexivity|]. split; [|exact Ne]. intros O chip. rewrite (St O).
  assert (X := good_flash (image (sealed c2)) (image_flash_ok _ (sealed_wf _ W2)) (crc_sealed _ W2) chip).
  rewrite of_image_image in X by (apply sealed_wf; exact W2).
  rewrite view_secured in X by (try apply sealed_wf; try apply terminated_set_crc; auto). unfold sealed in X at 2. rewrite view_set_crc in X. exact X.
Qed.
Lemma wifi_view : forall v1 v2 c, wf c -> view (set Psk (field v2 64) (set Ssid (field v1 32) c)) = to_join v1 v2 (view c).
Proof.
  intros v1 v2 c W. assert (L := wf_length c W). unfold view. rewrite text_field by (rewrite set_length; exact L).
  unfold bit, num, text. rewrite !(get_set_other Psk) by discriminate.
  rewrite get_set_same by exact L. rewrite !get_set_other by discriminate. unfold field. rewrite cstr_strncpy. reflexivity.
Qed.
Lemma ap_view : forall v1 v2 c, wf c -> view (set ApPsk (field v2 64) (set Host (field v1 16) c)) = to_open v1 v2 (view c).
Proof.
  intros v1 v2 c W. assert (L := wf_length c W). unfold view. rewrite text_field by (rewrite set_length; exact L).
  unfold bit, num, text. rewrite !(get_set_other ApPsk) by discriminate.
  rewrite get_set_same by exact L. rewrite !get_set_other by discriminate. unfold field. rewrite cstr_strncpy. reflexivity.
Qed.

(** ** The commands *)
Lemma command_set : forall a up raw c d s, reachable (d_cs d) -> command_bytes c -> sets_network c (view (cfg_of d)) s ->
  exists d', run_command a up raw c d = Some (d', [Did RestartNow]) /\
    (a_flash a = Stored -> forall chip, settings_at_start chip (e_flash (c_ee (d_cs d'))) s) /\
    (a_flash a = NotErased -> e_flash (c_ee (d_cs d')) = e_flash (c_ee (d_cs d))).
Proof.
  intros a up raw c d s R B H. assert (I := reachable_inv _ R). remember (view (cfg_of d)) as v eqn:V. destruct H as [words v|words v]; subst v; cbn [command_bytes] in B;
    apply Forall_inv_tail in B; assert (W : forall n, bytes (nth n words []))
      by (intros n; destruct (nth_in_or_default n words []) as [J|J]; [rewrite Forall_forall in B; exact (B _ J)|rewrite J; constructor]).
  - destruct (two_texts Ssid 32 Psk 64 (nth 0 words []) (nth 1 words []) (d_cs d) (a_flash a) I eq_refl eq_refl (W 0%nat) (W 1%nat)) as (s' & E & S & N).
    rewrite wifi_view in S by apply I. exists (with_cs s' d). split; [|split; [exact S|exact N]].
    cbn [run_command]. change (beq (str "wifi") (str "timers")) with false. change (beq (str "wifi") (str "wifi")) with true. cbv iota.
    unfold cli_wifi. cbn [nth]. cbn beta in *. rewrite E. reflexivity.
  - destruct (two_texts Host 16 ApPsk 64 (nth 0 words []) (nth 1 words []) (d_cs d) (a_flash a) I eq_refl eq_refl (W 0%nat) (W 1%nat)) as (s' & E & S & N).
    rewrite ap_view in S by apply I. exists (with_cs s' d). split; [|split; [exact S|exact N]].
    cbn [run_command]. change (beq (str "ap") (str "timers")) with false. change (beq (str "ap") (str "wifi")) with false.
    change (beq (str "ap") (str "ap")) with true. cbv iota.
    unfold cli_ap. cbn [nth]. cbn beta in *. rewrite E. reflexivity.
Qed.
Lemma set_step : forall fuel bd a up tv c raw d cl m o line s, build_ok bd -> mod_ok (bd_signed bd) (On d cl) -> is_byte c ->
  lstep fuel bd (Event (DByte a up tv c) raw) (On d cl) = Done (m, o) -> In (Command line) o -> sets_network (bd_parse bd line) (view (cfg_of d)) s ->
  o = [Command line; Did RestartNow] /\
  exists f, m = Off f /\ (a_flash a = Stored -> forall chip, settings_at_start chip f s) /\ (a_flash a = NotErased -> f = flash_of (On d cl)).
Proof.
  intros fuel bd a up tv c raw d cl m o line s K (H & Hi) Hc E L N. cbn [lstep] in E.
  destruct (serial_byte bd a up tv c raw d cl) as [[[d' cl'] o1]|] eqn:Sb; [|discriminate]. cbn [lift] in E.
  assert (E' : after d' cl' o1 = (m, o)) by congruence. clear E. destruct (after_cases _ _ _ _ _ E') as (-> & _).
  destruct (serial_effect _ _ _ _ _ _ _ _ _ _ _ Hc Sb) as (r & ln & Rd & X). destruct ln as [l|].
  - destruct X as (_ & o' & -> & Rc).
    assert (bytes l) as Bl.
    { unfold read_if in Rd. destruct (bd_cli bd); [|discriminate]. exact (proj2 (proj2 (read_input _ _ _ _ _ Hc Hi Rd))). }
    assert (l = line).
    { destruct L as [L|L]; [congruence|]. exfalso. revert Rc L. clear. intros Rc L.
      destruct (command_effect _ _ _ _ _ _ _ Rc) as (_ & _ & _ & Y). exact (Y _ L). }
    subst l. destruct (command_set a up raw (bd_parse bd line) d s (do_cs _ _ H) (K _ Bl) N) as (d1 & Rc' & S1 & S2).
    rewrite Rc in Rc'. assert (d' = d1) as -> by congruence. assert (o' = [Did RestartNow]) as -> by congruence.
    split; [reflexivity|]. unfold after in E'. cbn [existsb restarts orb flash_of] in E'.
    exists (e_flash (c_ee (d_cs d1))). split; [congruence|]. split; [exact S1|exact S2].
  - exfalso. destruct X as [(_ & _ & ->)|(_ & o' & -> & _)]; [exact L|]. apply in_map_iff in L. destruct L as (y & Y & _). discriminate Y.
Qed.

(** ** The next start *)
Lemma both_snd : forall A B (x x' : A) (y y' : B), Some (x, y) = Some (x', y') -> y = y'.
Proof. congruence. Qed.
Lemma both_fst : forall A B (x x' : A) (y y' : B), Some (x, y) = Some (x', y') -> x = x'.
Proof. congruence. Qed.
Lemma boot_radio : forall b d acts r, start_ok b -> boot b = Some (d, acts) -> settings_at_start (b_chip b) (b_flash b) r ->
  exists waits connected, acts = radio_plan (cfg_of d) waits connected /\
    (s_ssid r <> [] \/ cstr (b_ssid b) = [] -> view (cfg_of d) = r /\
       if match s_ssid r with [] => true | _ => false end then connected = (b_status b 0%nat =? 3) else waited (b_status b) waits connected).
Proof.
  intros b d acts r O H S. assert (O' := O). destruct O' as (A & B & C & D & E & _). unfold boot in H.
  destruct (config_setup (b_chip b) (b_o1 b) (b_o2 b) (b_mem b) (b_flash b)) as [s|] eqn:Cs; [|discriminate].
  destruct (S (b_o1 b) (b_o2 b) (b_mem b) B) as (s' & S' & V). rewrite Cs in S'. injection S' as <-.
  assert (R : reachable s) by (exists (b_chip b), (b_o1 b), (b_o2 b), (b_mem b), (b_flash b), s, []; repeat split; auto; try apply A; try apply B; try apply C; constructor).
  destruct (c48 (b_o3 b) (b_status b) (b_ssid b) (b_psk b) s R D E) as (s1 & acts1 & ret & W & K & waits & connected & P & Q). rewrite W in H.
  cbv beta iota in H. assert (acts = acts1) as -> by (exact (eq_sym (both_snd _ _ _ _ _ _ H))). assert (Dc := both_fst _ _ _ _ _ _ H).
  apply (f_equal cfg_of) in Dc. symmetry in Dc. change (cfg_of d = c_cfg s1) in Dc.
  clear H. exists waits, connected. rewrite Dc. split; [exact P|]. intros N.
  assert (T : s_ssid r = text Ssid (c_cfg s)) by (rewrite <- V; reflexivity).
  assert (s1 = s) as ->.
  { rewrite <- T in K. destruct (s_ssid r) as [|x l]; [|exact K]. destruct N as [N|N]; [congruence|]. rewrite N in K. exact K. }
  split; [exact V|]. rewrite T. exact Q.
Qed.

(** ** Over a life *)
Lemma c108_lasts : forall fuel bd flash es1 d cl os1 a up tv c raw es2 m o os2 line s, build_ok bd -> flash_ok flash ->
  Forall ordinary_life (es1 ++ Event (DByte a up tv c) raw :: es2) ->
  lrun fuel bd es1 (Off flash) = Done (On d cl, os1) ->
  lrun fuel bd (Event (DByte a up tv c) raw :: es2) (On d cl) = Done (m, o :: os2) ->
  In (Command line) o -> sets_network (bd_parse bd line) (view (cfg_of d)) s -> a_flash a = Stored ->
  o = [Command line; Did RestartNow] /\
  (s_ssid s <> [] -> Forall2 (leaves_settings bd) es2 os2 ->
     (forall chip, settings_at_start chip (flash_of m) s) /\ match m with On d' _ => view (cfg_of d') = s | Off _ => True end).
Proof.
  intros fuel bd flash es1 d cl os1 a up tv c raw es2 m o os2 line s B F O E1 E2 L N S.
  apply Forall_app in O. destruct O as (O1 & O2). apply Forall_cons_iff in O2. destruct O2 as (O & O2).
  assert (H : mod_ok (bd_signed bd) (On d cl)) by (eapply lrun_ok; [exact B| |exact O1|exact E1]; exact F).
  cbn [lrun] in E2. destruct (lstep fuel bd (Event (DByte a up tv c) raw) (On d cl)) as [[m1 o1]| |] eqn:E; try discriminate.
  destruct (lrun fuel bd es2 m1) as [[m2 os]| |] eqn:R; try discriminate. injection E2 as <- <- <-.
  assert (Hc : is_byte c) by exact (proj1 (proj1 O)).
  destruct (set_step _ _ _ _ _ _ _ _ _ _ _ _ _ B H Hc E L N) as (Eo & f & -> & St & _). split; [exact Eo|]. intros Ne Lv.
  assert (K : keeps_using s f m2).
  { eapply keeps_run; [exact B|exact (St S)|exact Ne| |exact O2|exact Lv| |exact R].
    - exact (lstep_ok _ _ _ _ _ _ B H O E).
    - split; [reflexivity|exact Logic.I]. }
  destruct K as (<- & K). split; [exact (St S)|exact K].
Qed.

Lemma c108_start : forall fuel bd flash es d cl os a up tv c raw b m m' o o' line s, build_ok bd -> flash_ok flash ->
  Forall ordinary_life (es ++ [Event (DByte a up tv c) raw; PowerOn b]) ->
  lrun fuel bd es (Off flash) = Done (On d cl, os) ->
  lstep fuel bd (Event (DByte a up tv c) raw) (On d cl) = Done (m, o) -> In (Command line) o ->
  sets_network (bd_parse bd line) (view (cfg_of d)) s -> a_flash a = Stored ->
  lstep fuel bd (PowerOn b) m = Done (m', o') -> s_ssid s <> [] \/ cstr (b_ssid b) = [] ->
  exists d' waits connected, m' = On d' cli_init /\ view (cfg_of d') = s /\
    o' = map Radio (radio_plan (cfg_of d') waits connected) /\
    (s_ssid s <> [] -> In (Radio (Join (s_ssid s) (given_key (s_psk s)))) o' /\ waited (b_status b) waits connected) /\
    (connected = false -> In (Radio (OpenAp (firstn 31 (s_host s)) (given_key (s_ap_psk s)))) o').
Proof.
  intros fuel bd flash es d cl os a up tv c raw b m m' o o' line s B F O E1 E L N S E2 X.
  apply Forall_app in O. destruct O as (O1 & O2). apply Forall_cons_iff in O2. destruct O2 as (O & O2). apply Forall_inv in O2.
  assert (H : mod_ok (bd_signed bd) (On d cl)) by (eapply lrun_ok; [exact B| |exact O1|exact E1]; exact F).
  assert (Hc : is_byte c) by exact (proj1 (proj1 O)).
  assert (H1 : mod_ok (bd_signed bd) m) by exact (lstep_ok _ _ _ _ _ _ B H O E).
  destruct (set_step _ _ _ _ _ _ _ _ _ _ _ _ _ B H Hc E L N) as (_ & f & -> & St & _).
  cbn [lstep] in E2. fold (with_flash (flash_of (Off f)) b) in E2. cbn [flash_of] in E2. destruct (boot (with_flash f b)) as [[d' acts]|] eqn:Bo; [|discriminate].
  cbn [lift] in E2. injection E2 as <- <-.
  destruct (boot_radio (with_flash f b) d' acts s (with_flash_ok _ _ O2 H1) Bo (St S _)) as (waits & connected & -> & V).
  destruct (V X) as (V1 & V2). exists d', waits, connected. split; [reflexivity|]. split; [exact V1|]. split; [reflexivity|].
  assert (T : s_ssid s = text Ssid (cfg_of d') /\ s_psk s = text Psk (cfg_of d') /\ s_host s = text Host (cfg_of d') /\ s_ap_psk s = text ApPsk (cfg_of d'))
    by (rewrite <- V1; auto).
  destruct T as (T1 & T2 & T3 & T4). split.
  - intros Ne. split.
    + apply in_map. unfold radio_plan, given_key. rewrite T1, T2. destruct (text Ssid (cfg_of d')); [congruence|]. left. reflexivity.
    + destruct (s_ssid s); [congruence|]. exact V2.
  - intros ->. apply in_map. unfold radio_plan, given_key. rewrite T3, T4. apply in_or_app. right. right. left. reflexivity.
Qed.

Lemma c108_not_stored : forall fuel bd flash es d cl os a up tv c raw m o line s, build_ok bd -> flash_ok flash ->
  Forall ordinary_life (es ++ [Event (DByte a up tv c) raw]) ->
  lrun fuel bd es (Off flash) = Done (On d cl, os) ->
  lstep fuel bd (Event (DByte a up tv c) raw) (On d cl) = Done (m, o) -> In (Command line) o ->
  sets_network (bd_parse bd line) (view (cfg_of d)) s -> a_flash a = NotErased ->
  o = [Command line; Did RestartNow] /\ m = Off (flash_of (On d cl)).
Proof.
  intros fuel bd flash es d cl os a up tv c raw m o line s B F O E1 E L N S.
  apply Forall_app in O. destruct O as (O1 & O2). apply Forall_inv in O2.
  assert (H : mod_ok (bd_signed bd) (On d cl)) by (eapply lrun_ok; [exact B| |exact O1|exact E1]; exact F).
  destruct (set_step _ _ _ _ _ _ _ _ _ _ _ _ _ B H (proj1 (proj1 O2)) E L N) as (Eo & f & -> & _ & Ne). rewrite (Ne S). auto.
Qed.
