(** The tool reads what the firmware saved. *)
From Coq Require Import ZArith List Bool Lia ZifyBool ZifyNat.
From Verif Require Import Base BaseFacts Config ConfigSpec EepromTool ToolSpec CrcProofs ConfigProofs ConfigMain ConfigHist ToolProofs.
Import ListNotations.
Open Scope Z_scope.

(** ** Tidy arrays *)
Lemma nth_zeros : forall n i, nth i (repeat 0 n) 0 = 0.
Proof. induction n; destruct i; cbn [repeat nth]; auto. Qed.
Lemma tidy_text : forall s n, Forall (fun c => c <> 0) s -> tidyb (s ++ repeat 0 n).
Proof.
  intros s n H i j Hij E. destruct (le_lt_dec (length s) j).
  - rewrite app_nth2 by lia. apply nth_zeros.
  - rewrite app_nth1 in E by lia. exfalso.
    rewrite Forall_forall in H. apply (H (nth i s 0)); auto. apply nth_In. lia.
Qed.
Lemma cstr_nonzero : forall s, Forall (fun c => c <> 0) (cstr s).
Proof. induction s; cbn [cstr]; auto. destruct (Z.eqb_spec a 0); auto. Qed.
Lemma firstn_nonzero : forall n s, Forall (fun c => c <> 0) s -> Forall (fun c : Z => c <> 0) (firstn n s).
Proof. induction n; intros s H; cbn [firstn]; auto. inv H; constructor; auto. Qed.
Lemma tidy_strncpy : forall s n, tidyb (strncpy_bytes s n ++ [0]).
Proof.
  intros. unfold strncpy_bytes. rewrite <- app_assoc. change [0] with (repeat 0 1). rewrite <- repeat_app.
  apply tidy_text, firstn_nonzero, cstr_nonzero.
Qed.
Lemma tidy_padded : forall f s, Forall clean_char s -> tidyb (padded f s).
Proof. intros. apply tidy_text. eapply Forall_impl; [|eauto]. intros a [_ Ha]. auto. Qed.
Lemma tidy_zeros : forall n, tidyb (repeat 0 n).
Proof. intros. apply (tidy_text []). constructor. Qed.
Lemma tidy_sec : forall f b, length b = fsize f -> tidyb b -> tidyb (sec f b).
Proof.
  intros f b HL H i j Hij. unfold sec. pose proof (fsize_pos f) as Hp.
  assert (Hn : forall k, nth k (firstn (fsize f - 1) b ++ [0]) 0 = if (k <? fsize f - 1)%nat then nth k b 0 else 0).
  { intros k. destruct (Nat.ltb_spec k (fsize f - 1)).
    - rewrite app_nth1 by (rewrite firstn_length; lia).
      rewrite <- (firstn_skipn (fsize f - 1) b) at 2. rewrite app_nth1 by (rewrite firstn_length; lia). auto.
    - rewrite app_nth2 by (rewrite firstn_length; lia).
      destruct (k - length (firstn (fsize f - 1) b))%nat as [|[|]]; auto. }
  rewrite !Hn. destruct (Nat.ltb_spec i (fsize f - 1)), (Nat.ltb_spec j (fsize f - 1)); auto; try lia.
  apply H; auto.
Qed.
Lemma tidy_pack : forall n s, ~ In 0 s -> tidyb (pack_s n s).
Proof.
  intros n s H. unfold pack_s. apply tidy_text, firstn_nonzero. apply Forall_forall. intros x Hx E. subst. auto.
Qed.
Lemma tidy_secured : forall c, wf c -> tidy c -> tidy (secured c).
Proof.
  intros c Hw H f Hf. rewrite get_secured, Hf. apply tidy_sec; auto. apply get_len; auto.
Qed.
Lemma tidy_set_crc : forall v c, tidy c -> tidy (set Crc v c).
Proof. intros v c H f Hf. rewrite get_set_other by (intro E; subst; discriminate). auto. Qed.

Definition Tidy (s : cstate) : Prop :=
  Inv s /\ tidy (c_cfg s) /\ (crc_of (e_flash (c_ee s)) = 0 -> tidy (of_image (e_flash (c_ee s)))).

Lemma save_tidy : forall o s, wf (c_cfg s) -> EE (c_ee s) -> whole o -> tidy (c_cfg s) ->
  (crc_of (e_flash (c_ee s)) = 0 -> tidy (of_image (e_flash (c_ee s)))) ->
  exists s', config_save o s = Some (s', true) /\ Tidy s'.
Proof.
  intros o s Hw He Ho Ht Hf.
  destruct (config_save_spec o s Hw He) as (s' & E & Ec & Hee & Hb & Hcase & _ & _).
  exists s'. split; auto.
  assert (W := sealed_wf _ Hw). assert (T : tidy (sealed (c_cfg s))) by (apply tidy_set_crc; auto).
  split; [|split].
  - unfold Inv. rewrite Ec. split; [apply secured_wf; auto|]. split; [apply secured_terminated|auto].
  - rewrite Ec. apply tidy_secured; auto.
  - destruct Hcase as [->|[->|(n & -> & _)]]; [auto| |destruct Ho].
    intros _. rewrite of_image_image by auto. auto.
Qed.

Lemma reset_tidy : forall chip o s, EE (c_ee s) -> whole o ->
  (crc_of (e_flash (c_ee s)) = 0 -> tidy (of_image (e_flash (c_ee s)))) ->
  exists s', config_reset chip o s = Some s' /\ Tidy s'.
Proof.
  intros chip o s He Ho Hf. unfold config_reset. destruct (config_defaults_spec chip) as (c & E & Hw & Hg). rewrite E.
  destruct (save_tidy o (mk_cs c (c_ee s))) as (s' & E' & T); auto.
  - cbn [c_cfg]. intros f Hf'. rewrite Hg.
    destruct f; try discriminate Hf'; cbn [factory_field]; try apply tidy_zeros; try apply tidy_padded;
      first [apply host_text_ok | apply cleanb_spec; reflexivity].
  - rewrite E'. eauto.
Qed.

Lemma setup_tidy : forall chip o1 o2 mem flash, flash_ok flash -> whole o1 -> whole o2 ->
  (crc_of flash = 0 -> tidy (of_image flash)) -> exists s, config_setup chip o1 o2 mem flash = Some s /\ Tidy s.
Proof.
  intros chip o1 o2 mem flash Hf H1 H2 Ht. destruct (Z.eq_dec (crc_of flash) 0) as [Hc|Hc].
  - assert (W := of_image_wf _ Hf).
    eexists. split; [apply setup_good; auto|]. split; [|split]; cbn [c_cfg c_ee ee_begin e_flash].
    + split; [apply secured_wf; auto|]. split; [apply secured_terminated|apply ee_begin_ok; auto].
    + apply tidy_secured; auto.
    + auto.
  - unfold config_setup. rewrite config_read_spec by auto. cbn [c_ee ee_begin e_buf].
    replace (crc_of flash =? 0) with false by lia.
    destruct (reset_tidy chip o1 (mk_cs zeroed (ee_begin flash)) (ee_begin_ok _ Hf) H1 Ht) as (s1 & E1 & (W1 & _ & E1e) & T1 & F1).
    rewrite E1. destruct (save_tidy o2 s1 W1 E1e H2 T1 F1) as (s' & E' & T). rewrite E'. eauto.
Qed.

Lemma strncpy_tidy : forall f s n c, wf c -> S n = fsize f -> bytes s -> tidy c ->
  exists c', strncpy_s f s n c = Some c' /\ wf c' /\ tidy c'.
Proof.
  intros f s n c Hw Hn Hb Ht. destruct (is_strncpy c _ f s n (is_refl c Hw) Hn Hb) as (c' & E & W & G).
  exists c'. split; auto. split; auto. intros g Hg. rewrite G. unfold over. destruct (feq_dec f g).
  - apply tidy_strncpy.
  - auto.
Qed.

Lemma step_tidy : forall e s, event_ok e -> ordinary e -> Tidy s -> exists s', cstep e s = Some s' /\ Tidy s'.
Proof.
  intros e s He Ho ((Hw & Hter & Hee) & Ht & Hf). destruct e; cbn [cstep event_ok ordinary] in *.
  - unfold config_handle_form. rewrite has_arg_ticked. destruct (ticked fm "save") eqn:T.
    + destruct (form_object restricted fm (c_cfg s) He Hw) as (c1 & c2 & -> & -> & I).
      destruct (save_tidy o (mk_cs c2 (c_ee s))) as (s' & E' & T'); auto; cbn [c_cfg].
      * apply I.
      * intros f Hf'. destruct I as [_ Hg]. rewrite Hg. unfold form_field.
        destruct restricted, f; try discriminate Hf'; cbn [form_common_field form_wifi_field];
          first [apply tidy_strncpy | apply Ht; reflexivity].
      * rewrite E'. eauto.
    + exists s. split; auto. split; auto. split; auto.
  - apply reset_tidy; auto.
  - destruct He as [Ha Hb]. unfold cli_wifi.
    destruct (strncpy_tidy Ssid ssid 32 (c_cfg s) Hw eq_refl Ha Ht) as (c1 & -> & W1 & T1).
    destruct (strncpy_tidy Psk psk 64 c1 W1 eq_refl Hb T1) as (c2 & -> & W2 & T2).
    destruct (save_tidy o (mk_cs c2 (c_ee s)) W2 Hee Ho T2 Hf) as (s' & -> & I). eauto.
  - destruct He as [Ha Hb]. unfold cli_ap.
    destruct (strncpy_tidy Host host 16 (c_cfg s) Hw eq_refl Ha Ht) as (c1 & -> & W1 & T1).
    destruct (strncpy_tidy ApPsk psk 64 c1 W1 eq_refl Hb T1) as (c2 & -> & W2 & T2).
    destruct (save_tidy o (mk_cs c2 (c_ee s)) W2 Hee Ho T2 Hf) as (s' & -> & I). eauto.
  - destruct (erase_spec o s (conj Hw (conj Hter Hee))) as (s' & E & I & Ec & C). exists s'. split; [exact E|].
    split; [exact I|]. split; [rewrite Ec; exact Ht|]. destruct C as [->|[(_ & ->)|(n & -> & _)]].
    + intros Z. destruct (proj2 blank_bad Z).
    + exact Hf.
    + destruct Ho.
  - destruct Ho.
  - destruct Hee as (_ & Hfl & _). destruct Ho. apply setup_tidy; auto.
Qed.
Lemma steps_tidy : forall es s, Forall event_ok es -> Forall ordinary es -> Tidy s ->
  exists s', csteps es s = Some s' /\ Tidy s'.
Proof.
  induction es; intros s H H' I; cbn [csteps]; [eauto|]. inv H. inv H'.
  destruct (step_tidy a s H2 H1 I) as (s' & -> & I'). apply IHes; auto.
Qed.

Lemma fits_tidy : forall s, fits s -> tidy (tool_cfg s).
Proof.
  intros s H. unfold fits, texts in H.
  repeat match goal with H : Forall _ (_ :: _) |- _ => inv H end. cbn [fst snd] in *.
  repeat match goal with H : _ /\ _ |- _ => destruct H end.
  intros f Hf. rewrite tool_cfg_get. destruct f; try discriminate Hf; cbn [tool_field]; apply tidy_pack; auto.
Qed.

Lemma ordinary_tidy : forall s, ordinarily_reachable s -> Tidy s.
Proof.
  intros s (chip & o1 & o2 & mem & flash & s0 & es & Hchip & Hm & Hf & Ho1 & Ho2 & Hor & He & Heo & E0 & E).
  assert (T : crc_of flash = 0 -> tidy (of_image flash)).
  { intros Hc. destruct Hor as [H|(t & Hb & Hfit & Hw)]; [congruence|].
    destruct (write_some t flash Hb Hw) as [Hn ->]. rewrite of_image_image by (apply sealed_wf, tool_cfg_wf; auto).
    apply tidy_set_crc, fits_tidy; auto. }
  destruct (setup_tidy chip o1 o2 mem flash Hf Ho1 Ho2 T) as (s1 & E1 & I1). rewrite E0 in E1. inv E1.
  destruct (steps_tidy es s1 He Heo I1) as (s2 & E2 & I2). rewrite E in E2. inv E2. auto.
Qed.

Lemma c31_read : forall s, ordinarily_reachable s ->
  exists s', config_save Stored s = Some (s', true) /\ view (c_cfg s') = view (c_cfg s) /\
    (texts_utf8 (view (c_cfg s)) -> read_eeprom (e_flash (c_ee s')) = Some (view (c_cfg s))).
Proof.
  intros s R. destruct (ordinary_tidy s R) as ((Hw & Hter & Hee) & Ht & Hf).
  destruct (config_save_spec Stored s Hw Hee) as (s' & E & Ec & _ & _ & _ & Hst & _).
  exists s'. split; auto. split.
  { rewrite Ec, view_secured by (try apply sealed_wf; try apply terminated_set_crc; auto).
    unfold sealed. apply view_set_crc. }
  intros Hu. rewrite (Hst eq_refl). rewrite read_image by (apply sealed_wf; auto).
  rewrite reads_view.
  - unfold sealed. rewrite view_set_crc. auto.
  - apply tidy_set_crc; auto.
  - unfold sealed. rewrite view_set_crc. auto.
Qed.

(** The tool reads what the tool wrote. *)
Lemma c31_tool_roundtrip : forall s, texts_bytes s -> fits s -> numbers_fit s -> texts_utf8 s ->
  exists img, write_eeprom s = Some img /\ read_eeprom img = Some s.
Proof.
  intros s Hb Hf Hn Hu. assert (W := tool_cfg_wf s Hb Hn). eexists. split; [apply write_fit; auto|].
  assert (T : tidy (tool_cfg s)) by (apply fits_tidy; auto).
  assert (V : view (tool_cfg s) = s).
  { rewrite <- (fitted_fits s Hf) at 2. rewrite <- (tool_view s Hn).
    symmetry. apply view_secured; auto. intros f Hfx. rewrite tool_cfg_get.
    unfold fits, texts in Hf.
    repeat match goal with H : Forall _ (_ :: _) |- _ => inv H end. cbn [fst snd] in *.
    repeat match goal with H : _ /\ _ |- _ => destruct H end.
    assert (P : forall n b, (length b < n)%nat -> In 0 (pack_s n b)).
    { intros n b HL. unfold pack_s. apply in_app_iff. right. apply in_zeros. lia. }
    destruct f; try discriminate Hfx; cbn [tool_field]; apply P; lia. }
  rewrite read_image by (apply sealed_wf; auto). rewrite reads_view.
  - unfold sealed. rewrite view_set_crc, V. auto.
  - apply tidy_set_crc; auto.
  - unfold sealed. rewrite view_set_crc, V. auto.
Qed.
