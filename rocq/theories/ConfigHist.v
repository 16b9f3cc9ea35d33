(** Forms, histories and the final statements about the configuration. *)
From Coq Require Import ZArith List Bool Lia ZifyBool ZifyNat.
From Verif Require Import Base BaseFacts Config ConfigSpec CrcProofs ConfigProofs ConfigMain.
Import ListNotations.
Open Scope Z_scope.

(** ** The form *)
Lemma is_refl : forall c, wf c -> Is c (fun f => get f c).
Proof. split; auto. Qed.

Definition form_field (restricted : bool) (fm : form) (old : fld -> list Z) : fld -> list Z :=
  form_common_field fm (if restricted then old else form_wifi_field fm old).

Lemma form_object : forall (restricted : bool) fm c, form_bytes fm -> wf c ->
  exists c1 c2, (if restricted then Some c else form_wifi fm c) = Some c1 /\ form_common fm c1 = Some c2 /\
    Is c2 (form_field restricted fm (fun f => get f c)).
Proof.
  intros restricted fm c Hf Hw. destruct restricted.
  - destruct (form_common_spec fm c _ Hf (is_refl c Hw)) as (c2 & E & I). exists c, c2. auto.
  - destruct (form_wifi_spec fm c _ Hf (is_refl c Hw)) as (c1 & E1 & I1).
    destruct (form_common_spec fm c1 _ Hf I1) as (c2 & E & I). exists c1, c2. auto.
Qed.

Lemma bit_with_bit : forall m n v b, 0 <= m < 8 -> 0 <= n < 8 ->
  Z.testbit (with_bit n v b) m = if m =? n then v else Z.testbit b m.
Proof.
  intros m n v b Hm Hn. unfold with_bit.
  assert (E : forall k, Z.testbit (Z.shiftl 1 k) m = (m =? k) || (m <? 0) && false).
  { intros. rewrite andb_false_r, orb_false_r. rewrite Z.shiftl_1_l. destruct (Z_lt_le_dec k 0).
    - rewrite Z.pow_neg_r, Z.bits_0 by lia. lia.
    - rewrite Z.pow2_bits_eqb by lia. lia. }
  destruct v.
  - rewrite Z.lor_spec, E. destruct (Z.eqb_spec m n); [subst; rewrite orb_true_r; auto|].
    rewrite andb_false_r, !orb_false_r. auto.
  - rewrite Z.land_spec.
    assert (Em : Z.testbit (255 - Z.shiftl 1 n) m = negb (m =? n)).
    { assert (m = 0 \/ m = 1 \/ m = 2 \/ m = 3 \/ m = 4 \/ m = 5 \/ m = 6 \/ m = 7) as Hc by lia.
      assert (n = 0 \/ n = 1 \/ n = 2 \/ n = 3 \/ n = 4 \/ n = 5 \/ n = 6 \/ n = 7) as Hd by lia.
      repeat (destruct Hc as [Hc|Hc]; [subst m|]); try subst m;
        (repeat (destruct Hd as [Hd|Hd]; [subst n; reflexivity|]); subst n; reflexivity). }
    rewrite Em. destruct (m =? n); cbn [negb]; [apply andb_false_r|apply andb_true_r].
Qed.
Lemma flags_bits : forall fm b,
  Z.testbit (flags_after fm b) 0 = ticked fm "httpreq_trigger_adps" /\
  Z.testbit (flags_after fm b) 1 = ticked fm "httpreq_trigger_ptec" /\
  Z.testbit (flags_after fm b) 2 = ticked fm "httpreq_trigger_seuils" /\
  Z.testbit (flags_after fm b) 7 = ticked fm "httpreq_use_post".
Proof. intros. unfold flags_after. rewrite !bit_with_bit by lia. cbn [Z.eqb Pos.eqb]. auto. Qed.
Lemma with_bit_unused : forall n v b, n = 0 \/ n = 1 \/ n = 2 \/ n = 7 -> Z.land (with_bit n v b) 120 = Z.land b 120.
Proof.
  intros n v b H. unfold with_bit. destruct v.
  - rewrite Z.land_lor_distr_l. replace (Z.land (Z.shiftl 1 n) 120) with 0; [apply Z.lor_0_r|].
    destruct H as [->|[->|[->| ->]]]; reflexivity.
  - rewrite <- Z.land_assoc. f_equal. destruct H as [->|[->|[->| ->]]]; reflexivity.
Qed.
Lemma flags_unused : forall fm b, Z.land (flags_after fm b) 120 = Z.land b 120.
Proof. intros. unfold flags_after. rewrite !with_bit_unused by lia. auto. Qed.

Lemma strncpy_term : forall s n, In 0 (strncpy_bytes s n ++ [0]).
Proof. intros. apply in_app_iff. right. left. auto. Qed.

Lemma form_field_terminated : forall restricted fm c c', terminated c ->
  Is c' (form_field restricted fm (fun f => get f c)) -> terminated c'.
Proof.
  intros restricted fm c c' Ht [_ Hg] f Hf. rewrite Hg. unfold form_field.
  destruct restricted, f; try discriminate Hf; cbn [form_common_field form_wifi_field];
    first [apply strncpy_term | apply Ht; reflexivity].
Qed.

Lemma text_is : forall c g f, Is c g -> text f c = cstr (g f).
Proof. intros c g f [_ H]. unfold text. rewrite H. auto. Qed.
Lemma num_is : forall c g f, Is c g -> num f c = le_value (g f).
Proof. intros c g f [_ H]. unfold num. rewrite H. auto. Qed.

Lemma le16_ranged : forall hi d v, 0 <= d <= hi -> hi <= 65535 -> le_value (le16 (ranged hi d v)) = ranged hi d v.
Proof. intros. pose proof (ranged_bounds v hi d H). apply le16_value. lia. Qed.
Lemma le32_ranged : forall hi d v, 0 <= d <= hi -> hi <= 65535000 -> le_value (le32 (ranged hi d v)) = ranged hi d v.
Proof. intros. pose proof (ranged_bounds v hi d H). apply le32_value. lia. Qed.

Lemma settings_ext : forall a b : settings,
  s_ssid a = s_ssid b -> s_psk a = s_psk b -> s_host a = s_host b -> s_ap_psk a = s_ap_psk b ->
  s_ota_auth a = s_ota_auth b -> s_ota_port a = s_ota_port b -> s_username a = s_username b ->
  s_password a = s_password b -> s_sse_freq a = s_sse_freq b -> s_led a = s_led b ->
  s_emon_host a = s_emon_host b -> s_emon_key a = s_emon_key b -> s_emon_url a = s_emon_url b ->
  s_emon_port a = s_emon_port b -> s_emon_node a = s_emon_node b -> s_emon_freq a = s_emon_freq b ->
  s_jdom_host a = s_jdom_host b -> s_jdom_key a = s_jdom_key b -> s_jdom_url a = s_jdom_url b ->
  s_jdom_adco a = s_jdom_adco b -> s_jdom_port a = s_jdom_port b -> s_jdom_freq a = s_jdom_freq b ->
  s_http_host a = s_http_host b -> s_http_url a = s_http_url b -> s_http_port a = s_http_port b ->
  s_http_freq a = s_http_freq b -> s_adps a = s_adps b -> s_ptec a = s_ptec b -> s_seuils a = s_seuils b ->
  s_use_post a = s_use_post b -> s_seuil_haut a = s_seuil_haut b -> s_seuil_bas a = s_seuil_bas b -> a = b.
Proof. intros [] []. cbn. intros. subst. reflexivity. Qed.

Lemma form_view : forall restricted fm c c', Is c' (form_field restricted fm (fun f => get f c)) ->
  view c' = after_form restricted fm (view c).
Proof.
  intros restricted fm c c' I.
  assert (Hf := flags_bits fm (le_value (if restricted then get HFlags c else get HFlags c))).
  destruct Hf as (F0 & F1 & F2 & F7).
  unfold view at 1. unfold bit. rewrite !(text_is _ _ _ I), !(num_is _ _ _ I).
  unfold form_field. cbn [form_common_field].
  apply settings_ext; unfold after_form, view;
    cbn [s_ssid s_psk s_host s_ap_psk s_ota_auth s_ota_port s_username s_password s_sse_freq s_led s_emon_host s_emon_key
         s_emon_url s_emon_port s_emon_node s_emon_freq s_jdom_host s_jdom_key s_jdom_url s_jdom_adco s_jdom_port s_jdom_freq
         s_http_host s_http_url s_http_port s_http_freq s_adps s_ptec s_seuils s_use_post s_seuil_haut s_seuil_bas];
    try (match goal with |- _ = (if restricted then _ else _) => destruct restricted; cbn [form_wifi_field]; [reflexivity|] end);
    lazymatch goal with
    | |- cstr _ = _ => apply cstr_strncpy
    | |- le_value (le16 _) = _ => clear; apply le16_ranged; lia
    | |- le_value (le32 (ranged _ _ _)) = _ => clear; apply le32_ranged; lia
    | |- _ => idtac
    end.
  - destruct (ticked fm "cfg_led_tinfo"); reflexivity.
  - clear. cbn [le_value]. pose proof (ranged_bounds (posted fm "emon_node") 255 0 ltac:(lia)).
    rewrite Z.mod_small by lia. lia.
  - destruct restricted; cbn [form_wifi_field le_value]; rewrite Z.mul_0_r, Z.add_0_r; apply F0.
  - destruct restricted; cbn [form_wifi_field le_value]; rewrite Z.mul_0_r, Z.add_0_r; apply F1.
  - destruct restricted; cbn [form_wifi_field le_value]; rewrite Z.mul_0_r, Z.add_0_r; apply F2.
  - destruct restricted; cbn [form_wifi_field le_value]; rewrite Z.mul_0_r, Z.add_0_r; apply F7.
Qed.

Lemma form_unused : forall restricted fm c c', Is c' (form_field restricted fm (fun f => get f c)) ->
  unused c' = unused c.
Proof.
  intros restricted fm c c' I. unfold unused. rewrite (num_is _ _ _ I). destruct I as [_ Hg]. rewrite !Hg.
  unfold form_field. cbn [form_common_field]. f_equal.
  - destruct restricted; reflexivity.
  - cbn [le_value]. rewrite Z.mul_0_r, Z.add_0_r, flags_unused. destruct restricted; reflexivity.
Qed.

Lemma handle_form_spec : forall o restricted fm s, Inv s -> form_bytes fm -> ticked fm "save" = true ->
  exists s', config_handle_form o restricted fm s = Some (s', 200) /\ Inv s' /\
    view (c_cfg s') = after_form restricted fm (view (c_cfg s)) /\ unused (c_cfg s') = unused (c_cfg s) /\
    (o = Stored -> crc_of (e_flash (c_ee s')) = 0 /\ secured (of_image (e_flash (c_ee s'))) = c_cfg s').
Proof.
  intros o restricted fm s (Hw & Ht & He) Hf Hs. unfold config_handle_form. rewrite has_arg_ticked, Hs.
  destruct (form_object restricted fm (c_cfg s) Hf Hw) as (c1 & c2 & -> & -> & I).
  assert (Hw2 : wf c2) by apply I.
  assert (Ht2 : terminated c2) by (eapply form_field_terminated; eauto).
  destruct (config_save_spec o (mk_cs c2 (c_ee s)) Hw2 He) as (s' & E' & Ec & Hee & _ & _ & Hst & _). rewrite E'.
  cbn [c_cfg] in *. exists s'. split; [reflexivity|]. split.
  { unfold Inv. rewrite Ec. split; [apply secured_wf, sealed_wf; auto|]. split; [apply secured_terminated|auto]. }
  rewrite Ec. split.
  { rewrite view_secured by (try apply sealed_wf; try apply terminated_set_crc; auto).
    unfold sealed. rewrite view_set_crc. apply form_view; auto. }
  split.
  { rewrite unused_secured. unfold sealed. rewrite unused_set_crc. eapply form_unused; eauto. }
  intros Ho. rewrite (Hst Ho). split; [apply crc_sealed; auto|]. rewrite of_image_image by (apply sealed_wf; auto).
  auto.
Qed.

(** ** Histories *)
Lemma strncpy_s_wf : forall f s n c, wf c -> S n = fsize f -> bytes s ->
  exists c', strncpy_s f s n c = Some c' /\ wf c'.
Proof.
  intros f s n c Hw Hn Hb. destruct (is_strncpy c _ f s n (is_refl c Hw) Hn Hb) as (c' & E & I).
  exists c'. split; auto. apply I.
Qed.
Lemma strncpy_short_wf : forall s c, wf c -> bytes s -> exists c', strncpy_s Psk s 32 c = Some c' /\ wf c'.
Proof.
  intros s c Hw Hb. unfold strncpy_s. rewrite app_length, strncpy_length, get_len by auto.
  cbn [length fsize Nat.leb Nat.add]. eexists. split; [reflexivity|].
  apply set_wf; auto.
  - rewrite !app_length, strncpy_length, skipn_length, get_len by auto. reflexivity.
  - apply Forall_app. split; [apply strncpy_bytes_ok; auto|]. apply skipn_bytes, get_bytes; auto.
Qed.

Lemma repeat_ok : forall b, is_byte b -> flash_ok (repeat b CFG_SIZE).
Proof.
  intros. split; [apply repeat_length|]. apply Forall_forall. intros x Hx. apply repeat_spec in Hx. subst. auto.
Qed.
Lemma zeros_ok : flash_ok (repeat 0 CFG_SIZE).
Proof. apply repeat_ok. unfold is_byte. lia. Qed.
Lemma erase_spec : forall o s, Inv s -> exists s', cli_erase o s = Some s' /\ Inv s' /\ c_cfg s' = c_cfg s /\
  (e_flash (c_ee s') = repeat 0 CFG_SIZE \/ (o = NotErased /\ e_flash (c_ee s') = e_flash (c_ee s)) \/
   exists n, o = Torn n /\ e_flash (c_ee s') = torn n (repeat 0 CFG_SIZE)).
Proof.
  intros o s (Hw & Ht & He). unfold cli_erase.
  destruct (overwrite_spec o _ (c_ee s) zeros_ok He) as (e & E & I & C). rewrite E.
  exists (mk_cs (c_cfg s) (fst (ee_commit o e))). split; [reflexivity|]. cbn [c_cfg c_ee].
  split; [split; [exact Hw|split; [exact Ht|exact I]]|]. split; [reflexivity|exact C].
Qed.

Lemma step_inv : forall e s, event_ok e -> Inv s -> exists s', cstep e s = Some s' /\ Inv s'.
Proof.
  intros e s He (Hw & Ht & Hee). destruct e; cbn [cstep event_ok] in *.
  - (* Post *)
    destruct (ticked fm "save") eqn:T.
    + destruct (handle_form_spec o restricted fm s) as (s' & E & I & _); auto; [split; auto|].
      rewrite E. eauto.
    + unfold config_handle_form. rewrite has_arg_ticked, T. exists s. split; auto. split; auto.
  - destruct (reset_spec chip o s Hee) as (s' & E & I & _). eauto.
  - destruct He as [Ha Hb]. unfold cli_wifi.
    destruct (strncpy_s_wf Ssid ssid 32 (c_cfg s) Hw eq_refl Ha) as (c1 & -> & W1).
    destruct (strncpy_s_wf Psk psk 64 c1 W1 eq_refl Hb) as (c2 & -> & W2).
    destruct (save_inv o (mk_cs c2 (c_ee s)) W2 Hee) as (s' & -> & I). eauto.
  - destruct He as [Ha Hb]. unfold cli_ap.
    destruct (strncpy_s_wf Host host 16 (c_cfg s) Hw eq_refl Ha) as (c1 & -> & W1).
    destruct (strncpy_s_wf ApPsk psk 64 c1 W1 eq_refl Hb) as (c2 & -> & W2).
    destruct (save_inv o (mk_cs c2 (c_ee s)) W2 Hee) as (s' & -> & I). eauto.
  - destruct (erase_spec o s (conj Hw (conj Ht Hee))) as (s' & E & I & _). eauto.
  - destruct He as [Ha Hb]. unfold adopt_sdk.
    destruct (text Ssid (c_cfg s)); [|exists s; split; auto; split; auto].
    destruct (cstr ssid); [exists s; split; auto; split; auto|].
    destruct (strncpy_s_wf Ssid ssid 32 (c_cfg s) Hw eq_refl Ha) as (c1 & -> & W1).
    assert (exists c2, (match cstr psk with [] => zero_at Psk 0 c1 | _ => strncpy_s Psk psk 32 c1 end) = Some c2 /\ wf c2)
      as (c2 & -> & W2).
    { destruct (cstr psk).
      - unfold zero_at. rewrite upd_lt by (rewrite get_len by auto; cbn; lia). cbn iota beta.
        eexists. split; [reflexivity|]. apply set_wf; auto.
        + rewrite app_length, firstn_length. cbn [length]. rewrite skipn_length, get_len by auto. cbn [fsize]. lia.
        + apply Forall_app. split; [apply firstn_bytes, get_bytes; auto|].
          constructor; [unfold is_byte; lia|apply skipn_bytes, get_bytes; auto].
      - apply strncpy_short_wf; auto. }
    destruct (save_inv o (mk_cs c2 (c_ee s)) W2 Hee) as (s' & -> & I). eauto.
  - destruct Hee as (_ & Hf & _). apply setup_inv; auto.
Qed.

Lemma steps_inv : forall es s, Forall event_ok es -> Inv s -> exists s', csteps es s = Some s' /\ Inv s'.
Proof.
  induction es; intros s H I; cbn [csteps]; [eauto|]. inv H.
  destruct (step_inv a s H2 I) as (s' & -> & I'). apply IHes; auto.
Qed.

Lemma reachable_inv : forall s, reachable s -> Inv s.
Proof.
  intros s (chip & o1 & o2 & mem & flash & s0 & es & Hchip & Hm & Hf & He & E0 & E).
  destruct (setup_inv chip o1 o2 mem flash Hf) as (s1 & E1 & I1). rewrite E0 in E1. inv E1.
  destruct (steps_inv es s1 He I1) as (s2 & E2 & I2). rewrite E in E2. inv E2. auto.
Qed.

(** ** Statements *)
Lemma c22 : forall s, reachable s ->
  exists s', config_save Stored s = Some (s', true) /\ view (c_cfg s') = view (c_cfg s) /\
    forall chip o1 o2 mem, exists s'', config_setup chip o1 o2 mem (e_flash (c_ee s')) = Some s'' /\
      c_cfg s'' = c_cfg s'.
Proof.
  intros s R. destruct (reachable_inv s R) as (Hw & Ht & He).
  destruct (config_save_spec Stored s Hw He) as (s' & E & Ec & Hee & _ & _ & Hst & _).
  exists s'. split; auto. split.
  { rewrite Ec, view_secured by (try apply sealed_wf; try apply terminated_set_crc; auto).
    unfold sealed. apply view_set_crc. }
  intros. rewrite (Hst eq_refl). eexists. split.
  - apply setup_good; [apply image_flash_ok, sealed_wf; auto|apply crc_sealed; auto].
  - cbn [c_cfg]. rewrite of_image_image by (apply sealed_wf; auto). auto.
Qed.

Lemma c22_always_succeeds : forall o s, reachable s -> exists s', config_save o s = Some (s', true).
Proof. intros o s R. destruct (reachable_inv s R) as (Hw & _ & He). destruct (save_inv o s Hw He) as (s' & E & _). eauto. Qed.

(** What a damaged or blank flash gives. *)
Lemma bad_flash : forall flash, flash_ok flash -> crc_of flash <> 0 ->
  forall chip, settings_at_start chip flash (factory chip).
Proof.
  intros flash Hf Hc chip o1 o2 mem Hm. destruct (setup_bad chip o1 o2 mem flash Hf Hc) as (s & E & _ & V & _). eauto.
Qed.
Lemma good_flash : forall flash, flash_ok flash -> crc_of flash = 0 ->
  forall chip, settings_at_start chip flash (view (secured (of_image flash))).
Proof. intros flash Hf Hc chip o1 o2 mem Hm. eexists. split; [apply setup_good; auto|]. reflexivity. Qed.

(** Every image stored by config_save has a zero CRC. *)
Lemma stored_ok : forall flash, stored_image flash -> flash_ok flash /\ crc_of flash = 0.
Proof.
  intros flash (s & s' & R & E & ->). destruct (reachable_inv s R) as (Hw & Ht & He).
  destruct (config_save_spec Stored s Hw He) as (s1 & E1 & Ec & Hee & _ & _ & Hst & _).
  rewrite E in E1. inv E1. rewrite (Hst eq_refl). split; [apply image_flash_ok, sealed_wf; auto|apply crc_sealed; auto].
Qed.

Lemma c23_burst : forall flash flash' p k chip, stored_image flash -> (k <= 16)%nat ->
  damaged_within p k flash flash' -> settings_at_start chip flash' (factory chip).
Proof.
  intros flash flash' p k chip Hs Hk Hd. destruct (stored_ok _ Hs) as [[HL HB] Hc]. apply bad_flash.
  - destruct Hd as (L & B & _). split; congruence.
  - eapply burst_detected; eauto.
Qed.
Lemma c23_two : forall flash flash' p q chip, stored_image flash -> flash_ok flash' ->
  (p < q < 8 * CFG_SIZE)%nat -> (forall i, bit_at flash i <> bit_at flash' i <-> i = p \/ i = q) ->
  settings_at_start chip flash' (factory chip).
Proof.
  intros flash flash' p q chip Hs [HL' HB'] Hpq Hd. destruct (stored_ok _ Hs) as [[HL HB] Hc].
  assert (EC : CFG_SIZE = Z.to_nat 1024) by (vm_compute; reflexivity).
  apply bad_flash; [split; auto|].
  eapply two_bits_detected with (p := p) (q := q); eauto; try congruence.
  all: rewrite HL, ?EC, ?Z2Nat.id; auto; lia.
Qed.
Lemma c23_odd : forall flash flash' chip, stored_image flash -> flash_ok flash' ->
  Nat.odd (length (filter (fun i => xorb (bit_at flash i) (bit_at flash' i)) (seq 0 (8 * CFG_SIZE)))) = true ->
  settings_at_start chip flash' (factory chip).
Proof.
  intros flash flash' chip Hs [HL' HB'] Ho. destruct (stored_ok _ Hs) as [[HL HB] Hc].
  apply bad_flash; [split; auto|].
  apply (odd_bits_detected flash flash'); auto; try congruence.
  all: rewrite ?HL; auto.
  assert (EC : CFG_SIZE = Z.to_nat 1024) by (vm_compute; reflexivity). rewrite EC. lia.
Qed.

Lemma blank_bad : crc_of (repeat 255 CFG_SIZE) <> 0 /\ crc_of (repeat 0 CFG_SIZE) <> 0.
Proof. split; vm_compute; discriminate. Qed.
Lemma c24 : forall b chip o1 mem, b = 255 \/ b = 0 -> wf mem ->
  exists s, config_setup chip o1 Stored mem (repeat b CFG_SIZE) = Some s /\ view (c_cfg s) = factory chip /\
    forall chip' o1' o2' mem', exists s'', config_setup chip' o1' o2' mem' (e_flash (c_ee s)) = Some s'' /\
      view (c_cfg s'') = factory chip /\ c_ee s'' = ee_begin (e_flash (c_ee s)).
Proof.
  intros b chip o1 mem Hb Hm.
  assert (Hf : flash_ok (repeat b CFG_SIZE)) by (apply repeat_ok; unfold is_byte; lia).
  assert (Hc : crc_of (repeat b CFG_SIZE) <> 0) by (destruct Hb; subst; [exact (proj1 blank_bad)|exact (proj2 blank_bad)]).
  destruct (setup_bad chip o1 Stored mem _ Hf Hc) as (s & E & (I1 & I2 & I3) & V & S).
  destruct (S eq_refl) as [S1 S2]. exists s. split; auto. split; auto.
  intros. eexists. split; [apply setup_good; auto; apply I3|]. cbn [c_cfg c_ee]. rewrite S2. auto.
Qed.
Lemma c24_volatile : forall b chip o1 o2 mem, b = 255 \/ b = 0 -> wf mem ->
  exists s, config_setup chip o1 o2 mem (repeat b CFG_SIZE) = Some s /\ view (c_cfg s) = factory chip.
Proof.
  intros b chip o1 o2 mem Hb Hm. apply (bad_flash (repeat b CFG_SIZE)); auto.
  - apply repeat_ok; unfold is_byte; lia.
  - destruct Hb; subst; [exact (proj1 blank_bad)|exact (proj2 blank_bad)].
Qed.

Lemma c25 : forall chip o1 o2 mem flash es, flash_ok flash -> Forall event_ok es ->
  exists s0 s, config_setup chip o1 o2 mem flash = Some s0 /\ csteps es s0 = Some s /\ terminated (c_cfg s) /\ wf (c_cfg s).
Proof.
  intros chip o1 o2 mem flash es Hf He. destruct (setup_inv chip o1 o2 mem flash Hf) as (s0 & E0 & I0).
  destruct (steps_inv es s0 He I0) as (s & E & (W & T & _)). exists s0, s. auto.
Qed.

Lemma c26 : forall o restricted fm s, reachable s -> form_bytes fm -> ticked fm "save" = true ->
  exists s', config_handle_form o restricted fm s = Some (s', 200) /\
    view (c_cfg s') = after_form restricted fm (view (c_cfg s)) /\ unused (c_cfg s') = unused (c_cfg s).
Proof.
  intros o restricted fm s R Hf Hs.
  destruct (handle_form_spec o restricted fm s (reachable_inv s R) Hf Hs) as (s' & E & _ & V & U & _). eauto.
Qed.
Lemma c26_no_save : forall o restricted fm s, ticked fm "save" = false ->
  config_handle_form o restricted fm s = Some (s, 400).
Proof. intros. unfold config_handle_form. rewrite has_arg_ticked, H. auto. Qed.

Lemma after_form_range : forall fm s, in_range (after_form false fm s).
Proof.
  intros. unfold in_range, after_form.
  cbn [s_ota_port s_sse_freq s_emon_port s_emon_node s_emon_freq s_jdom_port s_jdom_freq s_http_port s_http_freq
       s_seuil_haut s_seuil_bas]. repeat split; apply ranged_bounds; lia.
Qed.

(** A plain decimal number is accepted as such. *)
Lemma digits_number : forall s, forallb isdigit s = true -> s <> [] -> written_int s = dec_value s.
Proof.
  intros s H Hn. unfold written_int.
  assert (C : cstr s = s).
  { apply cstr_no_nul. intro Hin. rewrite forallb_forall in H. apply H in Hin. discriminate. }
  rewrite C. destruct s as [|c t]; [congruence|].
  assert (Hd : forall u, forallb isdigit u = true -> leading_digits u = u).
  { induction u; auto. cbn [forallb leading_digits]. intros Hu. apply andb_true_iff in Hu. destruct Hu as [Hu1 Hu2].
    rewrite Hu1. f_equal. auto. }
  pose proof H as H0. cbn [forallb] in H0. apply andb_true_iff in H0. destruct H0 as [Hc Ht].
  cbn [without_space]. unfold isdigit in Hc. unfold isspace.
  replace ((c =? 32) || (9 <=? c) && (c <=? 13)) with false by lia.
  replace (c =? 45) with false by lia. replace (c =? 43) with false by lia. rewrite Hd by auto. auto.
Qed.

Lemma c27 : forall fm s, after_form true fm s =
  (let n := after_form false fm s in
   mk_settings (s_ssid s) (s_psk s) (s_host s) (s_ap_psk s) (s_ota_auth s) (s_ota_port s) (s_username s) (s_password s)
     (s_sse_freq n) (s_led n) (s_emon_host n) (s_emon_key n) (s_emon_url n) (s_emon_port n) (s_emon_node n) (s_emon_freq n)
     (s_jdom_host n) (s_jdom_key n) (s_jdom_url n) (s_jdom_adco n) (s_jdom_port n) (s_jdom_freq n)
     (s_http_host n) (s_http_url n) (s_http_port n) (s_http_freq n) (s_adps n) (s_ptec n) (s_seuils n) (s_use_post n)
     (s_seuil_haut n) (s_seuil_bas n)).
Proof. reflexivity. Qed.

Lemma c27_step : forall o fm s, reachable s -> form_bytes fm -> ticked fm "save" = true ->
  exists s', config_handle_form o true fm s = Some (s', 200) /\
    let a := view (c_cfg s) in let b := view (c_cfg s') in let n := after_form false fm a in
    b = mk_settings (s_ssid a) (s_psk a) (s_host a) (s_ap_psk a) (s_ota_auth a) (s_ota_port a) (s_username a) (s_password a)
     (s_sse_freq n) (s_led n) (s_emon_host n) (s_emon_key n) (s_emon_url n) (s_emon_port n) (s_emon_node n) (s_emon_freq n)
     (s_jdom_host n) (s_jdom_key n) (s_jdom_url n) (s_jdom_adco n) (s_jdom_port n) (s_jdom_freq n)
     (s_http_host n) (s_http_url n) (s_http_port n) (s_http_freq n) (s_adps n) (s_ptec n) (s_seuils n) (s_use_post n)
     (s_seuil_haut n) (s_seuil_bas n).
Proof.
  intros o fm s R Hf Hs. destruct (c26 o true fm s R Hf Hs) as (s' & E & V & _). exists s'. split; [exact E|].
  cbv zeta. rewrite V. apply c27.
Qed.
