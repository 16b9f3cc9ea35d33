(** A login on a module without a network: it lasts when the network of the SDK is taken over, and is lost when the power is cut then. *)
From Coq Require Import ZArith List Bool Lia.
From Verif Require Import Base BaseFacts Config ConfigSpec ConfigProofs ConfigMain ConfigHist ConfigFinal Tic TicSpec Pages Sse Web Device WebSpec WebProofs WebSamples
  Wifi WifiSpec WifiProofs DeviceProofs DeviceMain DeviceSafe Cli CliSpec Life LifeSpec LifeProofs LifeMain LifeFinal LifeSamples LoginSpec LoginProofs LoginSamples LoginAny.
From Verif Require ConfigSamples Samples.
Import ListNotations.
Open Scope Z_scope.

Lemma login_crc : forall flash r, flash_ok flash -> (forall chip, settings_at_start chip flash r) -> s_username r <> [] -> crc_of flash = 0.
Proof.
  intros flash r C S N. destruct (Z.eq_dec (crc_of flash) 0) as [Z0|Z0]; [exact Z0|]. exfalso.
  destruct (setup_bad 0 Stored Stored zeroed flash C Z0) as (s & S1 & _ & V & _).
  destruct (S 0 Stored Stored zeroed zeroed_wf) as (s2 & S2 & V2). assert (s2 = s) by congruence. subst s2.
  apply N. rewrite <- V2, V. reflexivity.
Qed.
(** The network is taken over and the power is cut once the sector is erased: everything is lost. *)
Lemma boot_cut : forall b d acts r, start_ok b -> b_o3 b = Torn 0 -> cstr (b_ssid b) <> [] ->
  (forall chip, settings_at_start chip (b_flash b) r) -> s_ssid r = [] -> s_username r <> [] -> boot b = Some (d, acts) ->
  e_flash (c_ee (d_cs d)) = ConfigSamples.blank.
Proof.
  intros b d acts r (A & B & C & D & E & _) O N S R U H. unfold boot in H. assert (Z0 := login_crc _ _ C S U).
  destruct (S (b_chip b) (b_o1 b) (b_o2 b) (b_mem b) B) as (s & S2 & V).
  rewrite S2 in H. destruct (view_texts _ _ V) as (V1 & _). rewrite R in V1.
  assert (F : e_flash (c_ee s) = b_flash b).
  { rewrite (setup_good (b_chip b) (b_o1 b) (b_o2 b) (b_mem b) (b_flash b) C Z0) in S2. assert (X : mk_cs (secured (of_image (b_flash b))) (ee_begin (b_flash b)) = s) by congruence.
    rewrite <- X. reflexivity. }
  assert (I : Inv s).
  { destruct (setup_inv (b_chip b) (b_o1 b) (b_o2 b) (b_mem b) (b_flash b) C) as (s3 & S3 & I). assert (s3 = s) by congruence. subst s3. exact I. }
  destruct (wifi_total (b_o3 b) (b_status b) (b_ssid b) (b_psk b) s I D E) as (s' & acts' & ret & W & AD & I'). rewrite W in H.
  cbv beta iota in H. apply (f_equal (fun o => match o with Some (d, _) => d_cs d | None => s end)) in H. cbv beta iota in H. cbn [d_cs] in H.
  rewrite <- H. clear H W.
  destruct (adopt_spec (b_o3 b) (b_ssid b) (b_psk b) s I D E V1 N) as (s2 & AD2 & _ & (K & _) & _).
  assert (s2 = s') by congruence. subst s2. rewrite O in AD. clear AD2. unfold adopt_sdk in AD. rewrite V1 in AD.
  destruct (cstr (b_ssid b)) as [|y z] eqn:Y; [congruence|]. destruct I as (Hw & Ht & He).
  destruct (is_strncpy (c_cfg s) _ Ssid (b_ssid b) 32 (is_refl (c_cfg s) Hw) eq_refl D) as (c1 & E1 & I1). rewrite E1 in AD. assert (W1 := proj1 I1).
  assert (exists c2, (match cstr (b_psk b) with [] => zero_at Psk 0 c1 | _ => strncpy_s Psk (b_psk b) 32 c1 end) = Some c2 /\ wf c2) as (c2 & E2 & W2).
  { destruct (cstr (b_psk b)) as [|y' u].
    - unfold zero_at. rewrite upd_lt by (rewrite get_len by auto; cbn; lia). eexists. split; [reflexivity|].
      apply set_wf; [exact W1| |].
      + rewrite app_length, firstn_length. cbn [length]. rewrite skipn_length, get_len by auto. cbn [fsize]. lia.
      + apply Forall_app. split; [apply firstn_bytes, get_bytes; auto|]. constructor; [unfold is_byte; lia|apply skipn_bytes, get_bytes; auto].
    - unfold strncpy_s. rewrite app_length, strncpy_length, get_len by auto. cbn [length fsize Nat.leb Nat.add]. eexists. split; [reflexivity|].
      apply set_wf; [exact W1| |].
      + rewrite !app_length, strncpy_length, skipn_length, get_len by auto. reflexivity.
      + apply Forall_app. split; [apply strncpy_bytes_ok; auto|]. apply skipn_bytes, get_bytes; auto. }
  rewrite E2 in AD. destruct (save_cut (mk_cs c2 (c_ee s)) W2 He) as (s3 & Sv & Ec & X). rewrite Sv in AD. cbn [c_cfg c_ee] in *.
  assert (s3 = s') by congruence. subst s3. destruct X as [X|X]; [exact X|]. exfalso.
  assert (Hsw := sealed_wf _ W2). destruct (S 0 Stored Stored zeroed zeroed_wf) as (s1 & S1 & V2). rewrite <- F, X in S1.
  rewrite (setup_good 0 Stored Stored zeroed (image (sealed c2)) (image_flash_ok _ Hsw) (crc_sealed _ W2)) in S1. injection S1 as <-. cbn [c_cfg] in V2.
  rewrite of_image_image, <- Ec in V2 by auto. destruct (view_texts _ _ V2) as (V3 & _). rewrite V3, R in K. unfold cut in K. rewrite Y in K. discriminate K.
Qed.

(** The owner protects the module before giving it a network. *)
Definition form_n : form := [ (str "save", str "1"); (str "username", str "me"); (str "password", str "pw") ].
Lemma form_n_ok : form_bytes form_n.
Proof. apply ConfigSamples.form_ok. vm_compute. reflexivity. Qed.
Definition post_n : hreq := mk_hreq POST (str "/config_form.json") form_n (fun _ _ => false) false.
(** Starts with the network "lan" in the SDK. *)
Definition start_lan (o : outcome) : start := mk_start ConfigSamples.chip1 zeroed ConfigSamples.blank Stored Stored o (fun _ => 0) (str "lan") [] 0 Samples.blank Samples.blank.
Lemma start_lan_ok : forall o, start_ok (start_lan o).
Proof.
  intros o. split; [cbn; unfold ConfigSamples.chip1; lia|]. split; [apply zeroed_wf|]. split; [apply ConfigSamples.blank_ok|].
  split; [apply ConfigSamples.byteb_ok; vm_compute; reflexivity|]. split; [constructor|]. split; reflexivity.
Qed.

Lemma n_settings : forall v r, r = false -> let s := after_form r form_n v in s_ssid s = [] /\ s_username s = str "me" /\ s_password s = str "pw".
Proof. intros v r ->. repeat split. Qed.
Lemma post_n_ordinary : ordinary_life (Event (DHttp around0 post_n) raw0).
Proof. apply ask_ordinary; [exact form_n_ok|cbn; lia|discriminate]. Qed.
Lemma protects : forall d cl, dev_ok true d -> Forall is_byte (cl_input cl) -> text Username (cfg_of d) = [] -> unterminated (text HUrl (cfg_of d)) = false ->
  exists d1 cl1 o, lstep 256 talkative (Event (DHttp around0 post_n) raw0) (On d cl) = Done (On d1 cl1, o) /\ mod_ok true (On d1 cl1) /\ let s := view (cfg_of d1) in (forall chip, settings_at_start chip (flash_of (On d1 cl1)) s) /\ s_ssid s = [] /\ s_username s = str "me" /\ s_password s = str "pw".
Proof.
  intros d cl D Hc U T. assert (O := post_n_ordinary).
  assert (M : mod_ok (bd_signed talkative) (On d cl)) by (split; assumption).
  destruct (lstep_some 256 talkative (Event (DHttp around0 post_n) raw0) (On d cl) talkative_ok M O (le_n _) T) as (m1 & o & E1 & M1).
  destruct (form_step 256 talkative around0 post_n raw0 d cl m1 o D (proj1 O) eq_refl (not_refused_open _ _ U) eq_refl eq_refl E1) as (r & fl & R & _ & S & K).
  assert (Rf : r = false).
  { destruct r; [|reflexivity]. destruct (proj1 R eq_refl) as (X & _). congruence. }
  assert (V := n_settings (view (cfg_of d)) r Rf). cbv zeta in V. cbn [q_args post_n] in *.
  revert S K V. generalize (after_form r form_n (view (cfg_of d))). intros s S K V.
  destruct m1 as [f|d1 cl1].
  { exfalso. destruct (c67_restarts _ _ _ _ _ _ _ _ (proj1 O) E1) as [(a & q & X & [(Y & _)|(Y & _)])|(l & I & _)].
    - injection X as _ <-. discriminate Y.
    - injection X as _ <-. discriminate Y.
    - cbn [lstep] in E1. destruct (dstep 256 (bd_signed talkative) (DHttp around0 post_n) d) as [[d' o1]| |]; try discriminate. injection E1 as E1.
      destruct (after_cases _ _ _ _ _ E1) as (-> & _). apply in_map_iff in I. destruct I as (x & X & _). discriminate X. }
  exists d1, cl1, o. split; [exact E1|]. split; [exact M1|]. destruct K as (K1 & K2). cbv zeta. rewrite K1, K2. auto.
Qed.
Definition n_story : list levent := [PowerOn start0; Event (DHttp around0 post_n) raw0].
Lemma n_ordinary : Forall ordinary_life n_story.
Proof. constructor; [exact start0_ok|]. constructor; [exact post_n_ordinary|constructor]. Qed.
Lemma n_done : exists d cl os, lrun 256 talkative n_story (Off ConfigSamples.blank) = Done (On d cl, os) /\ mod_ok true (On d cl) /\ let s := view (cfg_of d) in (forall chip, settings_at_start chip (flash_of (On d cl)) s) /\ s_ssid s = [] /\ s_username s = str "me" /\ s_password s = str "pw".
Proof.
  assert (T : unterminated (text HUrl (cfg_of dev0)) = false).
  { assert (D := dev0_cs). unfold cfg_of. rewrite D. apply fresh_texts. }
  destruct (protects dev0 cli_init dev0_ok (Forall_nil _) dev0_login T) as (d & cl & o & E & M & X).
  exists d, cl, [map Radio acts0; o]. split; [|split; [exact M|exact X]]. exact (two_events _ _ _ _ _ _ _ _ _ (first_start 256 talkative) E).
Qed.

(** The start takes the network of the SDK. *)
Lemma takes_lan : forall d cl, mod_ok true (On d cl) -> (forall chip, settings_at_start chip (flash_of (On d cl)) (view (cfg_of d))) ->
  s_ssid (view (cfg_of d)) = [] -> s_username (view (cfg_of d)) <> [] -> forall o, exists d' os, lstep 256 talkative (PowerOn (start_lan o)) (On d cl) = Done (On d' cli_init, os) /\
    (forall line, ~ In (Command line) os) /\ (o = Torn 0 -> e_flash (c_ee (d_cs d')) = ConfigSamples.blank) /\ text Ssid (cfg_of d') = str "lan".
Proof.
  intros d cl M S R U o.
  assert (Fo : flash_ok (flash_of (On d cl))) by (eapply mod_flash; exact M).
  destruct (lstep_some 256 talkative (PowerOn (start_lan o)) (Off (flash_of (On d cl))) talkative_ok Fo (start_lan_ok o) (le_n _) Logic.I) as (m1 & os & E & M1).
  rewrite (same_flash 256 talkative (start_lan o) (Off (flash_of (On d cl))) (On d cl) eq_refl) in E.
  destruct (poweron_stored 256 talkative _ _ _ _ M (start_lan_ok o) E) as (d' & -> & _). exists d', os. split; [exact E|].
  cbn [lstep] in E. fold (with_flash (flash_of (On d cl)) (start_lan o)) in E.
  assert (K := with_flash_ok (flash_of (On d cl)) (start_lan o) (start_lan_ok o) Fo).
  remember (with_flash (flash_of (On d cl)) (start_lan o)) as b eqn:Eb.
  assert (B1 : b_flash b = flash_of (On d cl)) by (rewrite Eb; reflexivity). assert (B2 : b_o3 b = o) by (rewrite Eb; reflexivity).
  assert (B3 : b_ssid b = str "lan") by (rewrite Eb; reflexivity). clear Eb.
  destruct (boot b) as [[d2 acts]|] eqn:B; [|discriminate]. cbn [lift] in E.
  assert (d2 = d') by congruence. subst d2. assert (Eo : map Radio acts = os) by congruence. clear E.
  split; [intros line J; rewrite <- Eo in J; apply in_map_iff in J; destruct J as (x & X & _); discriminate X|].
  rewrite <- B1 in S, Fo. split.
  - intros ->. apply (boot_cut b d' acts (view (cfg_of d))); try assumption. rewrite B3. discriminate.
  - revert B. unfold boot. destruct K as (K1 & K2 & K3 & K4 & K5 & _).
    destruct (S (b_chip b) (b_o1 b) (b_o2 b) (b_mem b) K2) as (s & S2 & V). rewrite S2.
    destruct (view_texts _ _ V) as (V1 & _). rewrite R in V1.
    assert (I : Inv s).
    { destruct (setup_inv (b_chip b) (b_o1 b) (b_o2 b) (b_mem b) (b_flash b) K3) as (s3 & S3 & I). assert (s3 = s) by congruence. subst s3. exact I. }
    destruct (wifi_total (b_o3 b) (b_status b) (b_ssid b) (b_psk b) s I K4 K5) as (s' & acts' & ret & W & AD & _). rewrite W.
    intros H. apply (f_equal (fun o => match o with Some (d, _) => d_cs d | None => s end)) in H. cbv beta iota in H. cbn [d_cs] in H.
    unfold cfg_of. rewrite <- H. destruct (adopt_spec (b_o3 b) (b_ssid b) (b_psk b) s I K4 K5 V1) as (s2 & AD2 & _ & (K & _) & _); [rewrite B3; discriminate|].
    assert (s2 = s') by congruence. subst s2. rewrite K, B3. reflexivity.
Qed.
Lemma start_cut_opens : forall d cl, mod_ok true (On d cl) -> (forall chip, settings_at_start chip (flash_of (On d cl)) (view (cfg_of d))) ->
  s_ssid (view (cfg_of d)) = [] -> s_username (view (cfg_of d)) <> [] ->
  exists os, lrun 256 talkative [PowerOn (start_lan (Torn 0)); PowerOn start0] (On d cl) = Done (On dev0 cli_init, os).
Proof.
  intros d cl M S R U. destruct (takes_lan d cl M S R U (Torn 0)) as (d1 & o1 & E1 & _ & F & _). exists [o1; map Radio acts0].
  apply (two_events _ _ _ _ _ (On d1 cli_init) _ _ _ E1).
  transitivity (lstep 256 talkative (PowerOn start0) (Off ConfigSamples.blank)); [|exact (first_start 256 talkative)].
  apply same_flash. exact (F eq_refl).
Qed.
