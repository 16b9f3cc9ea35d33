(** A login that is demanded across a restart, and lost when the power is cut during the next save. *)
From Coq Require Import ZArith List Bool Lia.
From Verif Require Import Base BaseFacts Teleinfo TeleinfoSpec Publish Config ConfigSpec ConfigProofs ConfigMain ConfigHist ConfigFinal Tic TicSpec
  Pages PagesSpec Sse SseSpec Cpu Web Wifi Device WebSpec WebProofs DeviceProofs DeviceMain DeviceSafe Samples SamplesFacts TicSamples PagesSamples WebSamples
  Cli CliSpec CliProofs Life LifeSpec LifeProofs LifeMain LifeFinal LifeSamples LoginSpec LoginProofs.
From Verif Require ConfigSamples.
Import ListNotations.
Open Scope Z_scope.

(** A save whose power is cut once the sector is erased: everything is lost, unless there was nothing to write. *)
Lemma save_cut : forall s, wf (c_cfg s) -> EE (c_ee s) ->
  exists s', config_save (Torn 0) s = Some (s', true) /\ c_cfg s' = secured (sealed (c_cfg s)) /\
    (e_flash (c_ee s') = ConfigSamples.blank \/ e_flash (c_ee s) = image (sealed (c_cfg s))).
Proof.
  intros s Hc (Hb & Hf & Hd). unfold config_save. fold (sealed (c_cfg s)).
  assert (Hs := sealed_wf _ Hc). assert (HO := image_flash_ok _ Hs).
  destruct (write_loop_spec (image (sealed (c_cfg s))) 0 (c_ee s)) as (e' & E & Eb & Ef & Ed).
  { rewrite image_length by auto. destruct Hb. lia. }
  rewrite E. cbn [firstn app skipn] in *.
  assert (Hread : forall e'', e_buf e'' = image (sealed (c_cfg s)) ->
    config_read false (mk_cs (sealed (c_cfg s)) e'') = Some (mk_cs (secured (sealed (c_cfg s))) e'', true)).
  { intros e'' Ee. rewrite config_read_spec; cbn [c_ee]; rewrite Ee; auto.
    rewrite crc_sealed by auto. cbn [Z.eqb]. rewrite of_image_image by auto. reflexivity. }
  unfold ee_commit. destruct (e_dirty e') eqn:D.
  - cbn [fst snd]; rewrite Hread by auto; eexists; (split; [reflexivity|]); cbn [c_cfg c_ee e_flash]. split; [reflexivity|]. left.
    rewrite Eb. unfold torn. cbn [firstn app]. rewrite (proj1 HO), Nat.sub_0_r. reflexivity.
  - destruct (Ed eq_refl) as [D0 Eq]. rewrite Hread by auto. eexists. split; [reflexivity|]. cbn [c_cfg c_ee]. split; [reflexivity|].
    right. rewrite <- Hd by auto. auto.
Qed.
Lemma form_cut : forall restricted fm s r, Inv s -> form_bytes fm -> ticked fm "save" = true ->
  (forall chip, settings_at_start chip (e_flash (c_ee s)) r) -> after_form restricted fm (view (c_cfg s)) <> r ->
  exists s', config_handle_form (Torn 0) restricted fm s = Some (s', 200) /\ e_flash (c_ee s') = ConfigSamples.blank.
Proof.
  intros restricted fm s r (Hw & Ht & He) Hf Hs St N. unfold config_handle_form. rewrite has_arg_ticked, Hs.
  destruct (form_object restricted fm (c_cfg s) Hf Hw) as (c1 & c2 & -> & -> & I).
  assert (Hw2 : wf c2) by apply I.
  assert (Ht2 : terminated c2) by (eapply form_field_terminated; eauto).
  destruct (save_cut (mk_cs c2 (c_ee s)) Hw2 He) as (s' & E' & Ec & [X|X]); rewrite E'; cbn [c_cfg c_ee] in *; (exists s'; split; [reflexivity|]); [exact X|].
  exfalso. apply N. assert (Hsw := sealed_wf _ Hw2).
  destruct (St 0 Stored Stored zeroed zeroed_wf) as (s1 & E1 & V). rewrite X in E1.
  rewrite (setup_good 0 Stored Stored zeroed (image (sealed c2)) (image_flash_ok _ Hsw) (crc_sealed _ Hw2)) in E1. injection E1 as <-. cbn [c_cfg] in V.
  rewrite of_image_image in V by auto. rewrite view_secured in V by (try apply sealed_wf; try apply terminated_set_crc; auto).
  unfold sealed in V. rewrite view_set_crc in V. rewrite <- V. symmetry. apply form_view. exact I.
Qed.

(** The owner changes a setting, with the login; the power fails. *)
Definition form_a2 : form := form_a ++ [(str "sse_freq", str "5")].
Lemma form_a2_ok : form_bytes form_a2.
Proof. apply ConfigSamples.form_ok. vm_compute. reflexivity. Qed.
Definition failing : around := mk_around env0 5000 info1 [(str "index.html.gz", 18)] [net1] site0 (Torn 0) 1000000.
Definition post_again : hreq := mk_hreq POST (str "/config_form.json") form_a2 login false.
Definition owner_story : list levent := PowerOn start0 :: Event (DHttp around0 post_form) raw0 :: owner_restarts.
Lemma story_ordinary : Forall ordinary_life owner_story.
Proof. constructor; [exact start0_ok|exact owner_ordinary]. Qed.

Lemma owner_done : exists d cl os, lrun 256 talkative owner_story (Off ConfigSamples.blank) = Done (On d cl, os) /\ mod_ok true (On d cl) /\ (forall chip, settings_at_start chip (flash_of (On d cl)) (view (cfg_of d))) /\ view (cfg_of d) = after_form false form_a (view (cfg_of dev0)).
Proof.
  assert (T : unterminated (text HUrl (cfg_of dev0)) = false).
  { assert (D := dev0_cs). unfold cfg_of. rewrite D. apply fresh_texts. }
  destruct (owner_life dev0 cli_init dev0_ok (Forall_nil _) dev0_login T) as (d' & cl' & o & os2 & R & L & _).
  assert (F := one_step _ _ _ _ _ _ (first_start 256 talkative)). assert (O := story_ordinary).
  destruct (c66 256 talkative ConfigSamples.blank [PowerOn start0] dev0 cli_init _ around0 post_form raw0 owner_restarts (On d' cl') o os2
    talkative_ok ConfigSamples.blank_ok O F eq_refl (not_refused_open _ _ dev0_login) eq_refl eq_refl R L) as (r & G & _ & X).
  assert (Rf : r = false).
  { destruct r; [|reflexivity]. destruct (proj1 G eq_refl) as (Y & _). destruct (Y dev0_login). }
  subst r. destruct X as (X1 & X2); [discriminate|].
  assert (E : lrun 256 talkative owner_story (Off ConfigSamples.blank) = Done (On d' cl', map Radio acts0 :: o :: os2)).
  { unfold owner_story. eapply run_cons; [exact (first_start 256 talkative)|exact R]. }
  exists d', cl', (map Radio acts0 :: o :: os2). split; [exact E|]. split.
  - eapply (lrun_ok 256 talkative); [exact talkative_ok| |exact O|exact E]. exact ConfigSamples.blank_ok.
  - rewrite X2. split; [exact X1|reflexivity].
Qed.
Lemma same_flash : forall fuel bd b m m', flash_of m = flash_of m' -> lstep fuel bd (PowerOn b) m = lstep fuel bd (PowerOn b) m'.
Proof. intros fuel bd b m m' E. cbn [lstep]. rewrite E. reflexivity. Qed.
Lemma two_events : forall fuel bd e1 e2 m m1 m2 o1 o2, lstep fuel bd e1 m = Done (m1, o1) -> lstep fuel bd e2 m1 = Done (m2, o2) ->
  lrun fuel bd [e1; e2] m = Done (m2, [o1; o2]).
Proof. intros fuel bd e1 e2 m m1 m2 o1 o2 E1 E2. cbn [lrun]. rewrite E1, E2. reflexivity. Qed.
Lemma cut_opens : forall d cl, mod_ok true (On d cl) -> (forall chip, settings_at_start chip (flash_of (On d cl)) (view (cfg_of d))) ->
  view (cfg_of d) = after_form false form_a (view (cfg_of dev0)) ->
  exists os, lrun 256 talkative [Event (DHttp failing post_again) raw0; PowerOn start0] (On d cl) = Done (On dev0 cli_init, os).
Proof.
  intros d cl M S V. destruct (view_texts _ _ V) as (_ & V1 & _ & _ & _ & V2).
  assert (G : get_auth (cfg_of d) post_again = Full) by (unfold get_auth; rewrite V1, V2; reflexivity).
  assert (N : after_form false form_a2 (view (cfg_of d)) <> view (cfg_of d)).
  { rewrite V. intros X. apply (f_equal s_sse_freq) in X. vm_compute in X. discriminate X. }
  destruct (form_cut false form_a2 (d_cs d) (view (cfg_of d)) (reachable_inv _ (do_cs _ _ (proj1 M))) form_a2_ok eq_refl S N) as (s' & E & Fl).
  assert (E1 : exists d1 o1, lstep 256 talkative (Event (DHttp failing post_again) raw0) (On d cl) = Done (On d1 cl, o1) /\ e_flash (c_ee (d_cs d1)) = ConfigSamples.blank).
  { cbn [lstep dstep]. rewrite form_route by reflexivity. unfold if_ok. rewrite G. unfold handle_form.
    cbn [failing a_flash a_now q_args post_again]. rewrite E. cbn [lift map]. unfold after. cbn [existsb restarts orb].
    do 2 eexists. split; [reflexivity|]. exact Fl. }
  destruct E1 as (d1 & o1 & E1 & F1). exists [o1; map Radio acts0]. apply (two_events _ _ _ _ _ (On d1 cl) _ _ _ E1).
  transitivity (lstep 256 talkative (PowerOn start0) (Off ConfigSamples.blank)); [|exact (first_start 256 talkative)].
  apply same_flash. exact F1.
Qed.
Lemma open_restart : lstep 256 talkative (Event (DHttp failing (ask "/reset")) raw0) (On dev0 cli_init) =
  Done (Off (flash_of (On dev0 cli_init)), [Did (Reply 200 Text (str "Restart")); Did RestartNow]).
Proof.
  assert (G : get_auth (cfg_of dev0) (ask "/reset") = Full) by (unfold get_auth; rewrite dev0_login; reflexivity).
  cbn [lstep dstep]. unfold handle. replace (find_route routes (q_method (ask "/reset")) (q_uri (ask "/reset"))) with (Some HReset) by reflexivity.
  cbn [serve]. unfold if_ok. rewrite G. cbn [map]. unfold after. cbn [existsb restarts orb]. reflexivity.
Qed.
