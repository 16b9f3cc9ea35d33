(** Proofs: a login keeps strangers out, also from a module without a network of its own. *)
From Coq Require Import ZArith List Bool Lia.
From Verif Require Import Base BaseFacts Config ConfigSpec ConfigProofs ConfigMain ConfigHist ConfigFinal Tic Pages Sse Web Device WebSpec WebProofs WebSamples
  Wifi WifiSpec WifiProofs DeviceProofs DeviceMain Cli CliSpec Life LifeSpec LifeProofs LifeMain LifeFinal LoginSpec LoginProofs.
Import ListNotations.
Open Scope Z_scope.

(** A commit that could not erase leaves the flash as it is. *)
Lemma write_flash : forall bs i e e', write_loop i bs e = Some e' -> e_flash e' = e_flash e.
Proof.
  induction bs as [|b bs IH]; intros i e e' H; cbn [write_loop] in H; [congruence|].
  destruct (ee_write i b e) as [e1|] eqn:W; [|discriminate]. rewrite (IH _ _ _ H). unfold ee_write in W.
  destruct (rd (e_buf e) i) as [old|]; [|discriminate]. destruct (old =? b); [congruence|].
  destruct (upd (e_buf e) i b) as [l|]; [|discriminate]. assert (X : mk_ee l true (e_flash e) = e1) by congruence. rewrite <- X. reflexivity.
Qed.
Lemma read_flash : forall k s s' b, config_read k s = Some (s', b) -> c_ee s' = c_ee s.
Proof.
  intros k s s' b H. unfold config_read in H. destruct (read_loop CFG_SIZE 0 (c_ee s) 65535) as [[bs crc]|]; [|discriminate].
  destruct (securize (of_image bs)) as [c|]; [|discriminate]. destruct (negb (crc =? 0)).
  - assert (X : mk_cs (if k then zeroed else c) (c_ee s) = s') by congruence. rewrite <- X. reflexivity.
  - assert (X : mk_cs c (c_ee s) = s') by congruence. rewrite <- X. reflexivity.
Qed.
Lemma save_not_erased : forall s s' b, config_save NotErased s = Some (s', b) -> e_flash (c_ee s') = e_flash (c_ee s).
Proof.
  intros s s' b H. unfold config_save in H. cbv zeta in H.
  match type of H with context [write_loop 0 ?l ?e] => destruct (write_loop 0 l e) as [e1|] eqn:W end; [|discriminate].
  rewrite <- (write_flash _ _ _ _ W). assert (X : ee_commit NotErased e1 = (e1, negb (e_dirty e1))) by (unfold ee_commit; destruct (e_dirty e1); reflexivity).
  rewrite X in H. rewrite (read_flash _ _ _ _ H). reflexivity.
Qed.
Lemma adopt_not_erased : forall ssid psk s s', adopt_sdk NotErased ssid psk s = Some s' -> e_flash (c_ee s') = e_flash (c_ee s).
Proof.
  intros ssid psk s s' H. unfold adopt_sdk in H. destruct (text Ssid (c_cfg s)); [|congruence]. destruct (cstr ssid); [congruence|].
  destruct (strncpy_s Ssid ssid 32 (c_cfg s)) as [c|]; [|discriminate].
  destruct (match cstr psk with [] => zero_at Psk 0 c | _ => strncpy_s Psk psk 32 c end) as [c2|]; [|discriminate].
  destruct (config_save NotErased (mk_cs c2 (c_ee s))) as [[s2 b]|] eqn:S; [|discriminate]. assert (s2 = s') by congruence. subst s2.
  exact (save_not_erased _ _ _ S).
Qed.

(** The login (u, p) is stored, and in use when the module runs. *)
Definition login_stored (u p : list Z) (flash : list Z) : Prop :=
  exists r, (forall chip, settings_at_start chip flash r) /\ s_username r = u /\ s_password r = p.
Definition keeps_login (u p : list Z) (m : module) : Prop :=
  login_stored u p (flash_of m) /\ match m with On d _ => text Username (cfg_of d) = u /\ text Password (cfg_of d) = p | Off _ => True end.

Lemma boot_login : forall u p b d acts, u <> [] -> start_ok b -> (forall n, b_o3 b <> Torn n) -> login_stored u p (b_flash b) -> boot b = Some (d, acts) ->
  login_stored u p (e_flash (c_ee (d_cs d))) /\ text Username (cfg_of d) = u /\ text Password (cfg_of d) = p.
Proof.
  intros u p b d acts N (A & B & C & D & E & _) O (r & S & U & P) H. unfold boot in H.
  destruct (Z.eq_dec (crc_of (b_flash b)) 0) as [Z0|Z0].
  2:{ exfalso. destruct (setup_bad (b_chip b) (b_o1 b) (b_o2 b) (b_mem b) (b_flash b) C Z0) as (s & S1 & _ & V & _).
      destruct (S (b_chip b) (b_o1 b) (b_o2 b) (b_mem b) B) as (s2 & S2 & V2). assert (s2 = s) by congruence. subst s2.
      apply N. rewrite <- U, <- V2, V. reflexivity. }
  destruct (S (b_chip b) (b_o1 b) (b_o2 b) (b_mem b) B) as (s & S2 & V).
  rewrite S2 in H. destruct (view_texts _ _ V) as (_ & V1 & _ & _ & _ & V2). rewrite U in V1. rewrite P in V2.
  assert (F : e_flash (c_ee s) = b_flash b).
  { rewrite (setup_good (b_chip b) (b_o1 b) (b_o2 b) (b_mem b) (b_flash b) C Z0) in S2. assert (X : mk_cs (secured (of_image (b_flash b))) (ee_begin (b_flash b)) = s) by congruence.
    rewrite <- X. reflexivity. }
  assert (I : Inv s).
  { destruct (setup_inv (b_chip b) (b_o1 b) (b_o2 b) (b_mem b) (b_flash b) C) as (s3 & S3 & I). assert (s3 = s) by congruence. subst s3. exact I. }
  destruct (wifi_total (b_o3 b) (b_status b) (b_ssid b) (b_psk b) s I D E) as (s' & acts' & ret & W & AD & I'). rewrite W in H.
  cbv beta iota in H. apply (f_equal (fun o => match o with Some (d, _) => d_cs d | None => s end)) in H. cbv beta iota in H. cbn [d_cs] in H.
  unfold cfg_of. rewrite <- H. clear H W.
  destruct (text Ssid (c_cfg s)) as [|x t] eqn:T; [destruct (cstr (b_ssid b)) as [|y z] eqn:Y|].
  - assert (X : s' = s) by (unfold adopt_sdk in AD; rewrite T, Y in AD; congruence). subst s'. split; [|split; assumption]. rewrite F. exists r. auto.
  - destruct (adopt_spec (b_o3 b) (b_ssid b) (b_psk b) s I D E T) as (s2 & AD2 & _ & (_ & _ & K & _) & St); [rewrite Y; discriminate|].
    assert (s2 = s') by congruence. subst s2.
    assert (K1 : text Username (c_cfg s') = u) by (rewrite K; [exact V1|reflexivity|discriminate|discriminate]).
    assert (K2 : text Password (c_cfg s') = p) by (rewrite K; [exact V2|reflexivity|discriminate|discriminate]).
    split; [|split; assumption]. destruct (b_o3 b) as [| |n] eqn:Q; [| |destruct (O n eq_refl)].
    + destruct (St eq_refl) as (G1 & G2). exists (view (c_cfg s')). split; [|split; [exact K1|exact K2]]. intros chip. rewrite <- G2.
      apply good_flash; [apply I'|exact G1].
    + rewrite (adopt_not_erased _ _ _ _ AD), F. exists r. auto.
  - assert (X : s' = s) by (unfold adopt_sdk in AD; rewrite T in AD; congruence). subst s'. split; [|split; assumption]. rewrite F. exists r. auto.
Qed.

Lemma login_step : forall fuel bd u p e m m' o, mod_ok (bd_signed bd) m -> ordinary_life e -> u <> [] -> start_uncut e ->
  nobody_changes u p e -> (forall line, In (Command line) o -> ~ writer (bd_parse bd line)) ->
  keeps_login u p m -> lstep fuel bd e m = Done (m', o) -> keeps_login u p m'.
Proof.
  intros fuel bd u p e m m' o H O U Cu L W (K1 & K2) E. destruct e as [b|e raw].
  - cbn [lstep] in E. fold (with_flash (flash_of m) b) in E.
    destruct (boot (with_flash (flash_of m) b)) as [[d acts]|] eqn:B; [|discriminate]. cbn [lift] in E. injection E as <- <-.
    assert (S : start_ok (with_flash (flash_of m) b)) by (apply with_flash_ok; [exact O|eapply mod_flash; eauto]).
    exact (boot_login u p (with_flash (flash_of m) b) d acts U S Cu K1 B).
  - destruct m as [f|d cl]; [injection E as <- <-; split; auto|]. destruct O as (O & O'). destruct K2 as (V1 & V2).
    destruct (event_effect _ _ _ _ _ _ _ _ O E) as (d' & cl' & A & [C|[(a & q & -> & C)|(l & I & C)]]).
    + destruct (after_cases _ _ _ _ _ A) as (_ & [-> | ->]); cbn [flash_of] in *; unfold keeps_login, cfg_of in *; cbn [flash_of]; rewrite C; auto.
    + cbn [nobody_changes] in L. exfalso. destruct L as [L|(L1 & L2)].
      * rewrite <- V1, <- V2 in L. rewrite <- V1 in U. destruct C as [(_ & C)|(_ & [C|(C & _)])]; [apply C; split; auto|congruence|congruence].
      * destruct C as [(C & _)|(C & _)]; contradiction.
    + destruct (W l I C).
Qed.
Lemma login_run : forall fuel bd u p, build_ok bd -> u <> [] ->
  forall es m m' os, mod_ok (bd_signed bd) m -> Forall ordinary_life es -> Forall start_uncut es -> Forall (nobody_changes u p) es ->
  (forall line, In (Command line) (concat os) -> ~ writer (bd_parse bd line)) ->
  keeps_login u p m -> lrun fuel bd es m = Done (m', os) -> keeps_login u p m'.
Proof.
  intros fuel bd u p B U. induction es as [|e es IH]; intros m m' os H O Cu L W K E; cbn [lrun] in E; [injection E as <- <-; exact K|].
  apply Forall_cons_iff in O. destruct O as (O & Os). apply Forall_cons_iff in L. destruct L as (L & Ls). apply Forall_cons_iff in Cu. destruct Cu as (Cu & Cs).
  destruct (lstep fuel bd e m) as [[m1 o]| |] eqn:E1; try discriminate.
  destruct (lrun fuel bd es m1) as [[m2 os2]| |] eqn:R; try discriminate. injection E as <- <-. cbn [concat] in W.
  assert (W1 : forall line, In (Command line) o -> ~ writer (bd_parse bd line)) by (intros l J; apply W, in_or_app; auto).
  assert (W2 : forall line, In (Command line) (concat os2) -> ~ writer (bd_parse bd line)) by (intros l J; apply W, in_or_app; auto).
  apply (IH m1 m2 os2); [apply (lstep_ok fuel bd e m m1 o); assumption|exact Os|exact Cs|exact Ls|exact W2| |exact R].
  apply (login_step fuel bd u p e m m1 o); assumption.
Qed.
Lemma demands_login : forall fuel bd u p m, (256 <= fuel)%nat -> u <> [] -> keeps_login u p m -> demands fuel bd u p m.
Proof.
  intros fuel bd u p m F U (_ & K). destruct m as [f|d cl]; [exact I|]. destruct K as (V1 & V2). rewrite <- V1, <- V2 in *. apply demanded; assumption.
Qed.

Lemma c104_any : forall fuel bd flash es1 d cl os1 es2 m os2, (256 <= fuel)%nat -> build_ok bd -> flash_ok flash ->
  Forall ordinary_life (es1 ++ es2) -> lrun fuel bd es1 (Off flash) = Done (On d cl, os1) ->
  let s := view (cfg_of d) in (forall chip, settings_at_start chip (flash_of (On d cl)) s) -> s_username s <> [] ->
  Forall (nobody_changes (s_username s) (s_password s)) es2 -> Forall start_uncut es2 -> lrun fuel bd es2 (On d cl) = Done (m, os2) ->
  (forall line, In (Command line) (concat os2) -> ~ writer (bd_parse bd line)) ->
  demands fuel bd (s_username s) (s_password s) m.
Proof.
  intros fuel bd flash es1 d cl os1 es2 m os2 F B K O E1 s S U L Cu E2 W. apply Forall_app in O. destruct O as (O1 & O2).
  assert (H : mod_ok (bd_signed bd) (On d cl)) by (eapply lrun_ok; [exact B| |exact O1|exact E1]; exact K).
  apply demands_login; [exact F|exact U|]. eapply (login_run fuel bd _ _ B U es2 (On d cl)); eauto.
  split; [|split; reflexivity]. exists s. auto.
Qed.
Lemma c104_saved_any : forall fuel bd flash es1 d cl os1 a q raw es2 m o os2 u p, (256 <= fuel)%nat -> build_ok bd -> flash_ok flash ->
  Forall ordinary_life (es1 ++ Event (DHttp a q) raw :: es2) -> lrun fuel bd es1 (Off flash) = Done (On d cl, os1) ->
  q_uri q = str "/config_form.json" -> fully_allowed q d -> ticked (q_args q) "save" = true -> a_flash a = Stored ->
  ConfigSpec.posted (q_args q) "username" = u -> ConfigSpec.posted (q_args q) "password" = p -> u <> [] ->
  Forall (fun c => c <> 0) (u ++ p) -> (length u <= 31)%nat -> (length p <= 31)%nat ->
  lrun fuel bd (Event (DHttp a q) raw :: es2) (On d cl) = Done (m, o :: os2) ->
  Forall (nobody_changes u p) es2 -> Forall start_uncut es2 -> (forall line, In (Command line) (concat os2) -> ~ writer (bd_parse bd line)) ->
  o = [Did (Reply 200 Text (str "OK"))] /\ demands fuel bd u p m.
Proof.
  intros fuel bd flash es1 d cl os1 a q raw es2 m o os2 u p Fu B F O E1 Q R T S Pu Pp N Z Lu Lp E2 L Cu W.
  apply Forall_app in O. destruct O as (O1 & O2). apply Forall_cons_iff in O2. destruct O2 as (O & O2).
  assert (H : mod_ok (bd_signed bd) (On d cl)) by (eapply lrun_ok; [exact B| |exact O1|exact E1]; exact F).
  cbn [lrun] in E2. destruct (lstep fuel bd (Event (DHttp a q) raw) (On d cl)) as [[m1 o1]| |] eqn:E; try discriminate.
  destruct (lrun fuel bd es2 m1) as [[m2 os]| |] eqn:E3; try discriminate. injection E2 as <- <- <-.
  assert (R' : ~ refused q d) by (intros (X & Y); destruct R as [R|(R & _)]; congruence).
  destruct (form_step fuel bd a q raw d cl m1 o1 (proj1 H) (proj1 O) Q R' T S E) as (r & fl & G & -> & X & K).
  assert (Rf : r = false).
  { destruct r; [|reflexivity]. destruct (proj1 G eq_refl) as (Y1 & Y2 & Y3). destruct R as [R|(_ & R)]; congruence. }
  subst r. split; [reflexivity|]. apply Forall_app in Z. destruct Z as (Zu & Zp).
  assert (V : s_username (after_form false (q_args q) (view (cfg_of d))) = u /\ s_password (after_form false (q_args q) (view (cfg_of d))) = p).
  { cbn [after_form s_username s_password]. rewrite Pu, Pp, !fits_cut by assumption. auto. }
  revert X K V. generalize (after_form false (q_args q) (view (cfg_of d))). intros s X (K1 & K2) (V1 & V2).
  apply demands_login; [exact Fu|exact N|].
  apply (login_run fuel bd u p B N es2 m1 m2 os); auto; [eapply lstep_ok; eauto|]. split; [exists s; rewrite K1; auto|].
  destruct m1 as [f|d1 cl1]; [exact Logic.I|]. destruct (view_texts _ _ K2) as (_ & Y1 & _ & _ & _ & Y2). split; congruence.
Qed.
