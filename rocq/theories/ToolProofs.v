(** Proofs about tools/eeprom.py. *)
From Coq Require Import ZArith List Bool Lia ZifyBool ZifyNat.
From Verif Require Import Base BaseFacts Config ConfigSpec EepromTool ToolSpec CrcProofs ConfigProofs ConfigMain ConfigHist.
Import ListNotations.
Open Scope Z_scope.

Ltac fields_of H := cbn [s_ssid s_psk s_host s_ap_psk s_ota_auth s_ota_port s_username s_password s_sse_freq s_led s_emon_host s_emon_key
    s_emon_url s_emon_port s_emon_node s_emon_freq s_jdom_host s_jdom_key s_jdom_url s_jdom_adco s_jdom_port s_jdom_freq
    s_http_host s_http_url s_http_port s_http_freq s_adps s_ptec s_seuils s_use_post s_seuil_haut s_seuil_bas] in H.

(** ** CRC *)
Lemma tool_bit_step : forall c, tool_bit c = crc_step c.
Proof.
  intros. unfold tool_bit, crc_step.
  assert (E : Z.land c 1 = c mod 2) by (change 1 with (Z.ones 1); rewrite Z.land_ones by lia; reflexivity).
  rewrite E, Zmod_odd. destruct (Z.odd c); reflexivity.
Qed.
Lemma tool_bits_steps : forall n c, tool_bits n c = crc_steps n c.
Proof. induction n; intros; cbn [tool_bits crc_steps]; auto. rewrite tool_bit_step. auto. Qed.
Lemma tool_crc_fold : forall b c, tool_crc b c = fold_left crc_update b c.
Proof. induction b; intros; cbn [tool_crc fold_left]; auto. rewrite tool_bits_steps. apply IHb. Qed.
Lemma tool_crc_of : forall b, tool_crc b 65535 = crc_of b.
Proof. intros. apply tool_crc_fold. Qed.

(** ** write_eeprom *)
Lemma pack_s_length : forall n b, length (pack_s n b) = n.
Proof. intros. unfold pack_s. rewrite app_length, firstn_length, repeat_length. lia. Qed.
Lemma pack_s_bytes : forall n b, bytes b -> bytes (pack_s n b).
Proof.
  intros. apply Forall_app. split; [apply firstn_bytes; auto|]. apply Forall_forall. intros x Hx.
  apply repeat_spec in Hx. subst. unfold is_byte. lia.
Qed.
Lemma pack_s_short : forall n b, (length b <= n)%nat -> pack_s n b = b ++ repeat 0 (n - length b).
Proof. intros. unfold pack_s. rewrite firstn_all2 by auto. auto. Qed.
Lemma cstr_pack_s : forall n b, cstr (pack_s n b) = firstn n (cstr b).
Proof.
  intros. unfold pack_s. destruct (n - length b)%nat eqn:E; cbn [repeat].
  - rewrite app_nil_r. apply cstr_firstn.
  - rewrite cstr_app_nul. apply cstr_firstn.
Qed.
Lemma cstr_sec_pack : forall f n b, fsize f = S n -> cstr (sec f (pack_s (S n) b)) = cut n b.
Proof.
  intros f n b H. rewrite cstr_sec, cstr_pack_s, H, firstn_firstn. unfold cut. f_equal. lia.
Qed.

Definition tool_flags (s : settings) : Z :=
  Z.lor (Z.lor (Z.lor (int_of (s_adps s)) (Z.shiftl (int_of (s_ptec s)) 1)) (Z.shiftl (int_of (s_seuils s)) 2))
        (Z.shiftl (int_of (s_use_post s)) 7).
Definition tool_field (s : settings) (f : fld) : list Z :=
  match f with
  | Ssid => pack_s 33 (s_ssid s) | Psk => pack_s 65 (s_psk s) | Host => pack_s 17 (s_host s)
  | ApPsk => pack_s 65 (s_ap_psk s) | OtaAuth => pack_s 65 (s_ota_auth s)
  | Options => le32 (int_of (s_led s)) | OtaPort => le16 (s_ota_port s) | SseFreq => le16 (s_sse_freq s)
  | Username => pack_s 32 (s_username s) | Password => pack_s 32 (s_password s) | Filler => repeat 0 65
  | EHost => pack_s 33 (s_emon_host s) | EKey => pack_s 33 (s_emon_key s) | EUrl => pack_s 33 (s_emon_url s)
  | EPort => le16 (s_emon_port s) | ENode => [s_emon_node s] | EFreq => le32 (s_emon_freq s) | EFiller => repeat 0 22
  | JHost => pack_s 33 (s_jdom_host s) | JKey => pack_s 49 (s_jdom_key s) | JUrl => pack_s 65 (s_jdom_url s)
  | JAdco => pack_s 13 (s_jdom_adco s) | JPort => le16 (s_jdom_port s) | JFreq => le32 (s_jdom_freq s)
  | JUsePost => [0] | JFiller => repeat 0 89
  | HHost => pack_s 33 (s_http_host s) | HUrl => pack_s 151 (s_http_url s) | HPort => le16 (s_http_port s)
  | HFreq => le32 (s_http_freq s) | HFlags => [tool_flags s] | HSeuilHaut => le16 (s_seuil_haut s)
  | HSeuilBas => le16 (s_seuil_bas s) | HFiller => repeat 0 61
  | Crc => [0; 0]
  end.
Definition tool_cfg (s : settings) : cfg := map (tool_field s) fields.

Lemma pack_B_some : forall v b, pack_B v = Some b -> 0 <= v < 256 /\ b = [v].
Proof. unfold pack_B. intros v b. destruct (_ && _) eqn:E; intros H; inv H. split; auto. lia. Qed.
Lemma pack_H_some : forall v b, pack_H v = Some b -> 0 <= v < 65536 /\ b = le16 v.
Proof. unfold pack_H. intros v b. destruct (_ && _) eqn:E; intros H; inv H. split; auto. lia. Qed.
Lemma pack_I_some : forall v b, pack_I v = Some b -> 0 <= v < 4294967296 /\ b = le32 v.
Proof. unfold pack_I. intros v b. destruct (_ && _) eqn:E; intros H; inv H. split; auto. lia. Qed.
Lemma pack_H_fit : forall v, 0 <= v < 65536 -> pack_H v = Some (le16 v).
Proof. unfold pack_H. intros. replace (_ && _) with true by lia. auto. Qed.
Lemma pack_B_fit : forall v, 0 <= v < 256 -> pack_B v = Some [v].
Proof. unfold pack_B. intros. replace (_ && _) with true by lia. auto. Qed.
Lemma pack_I_fit : forall v, 0 <= v < 4294967296 -> pack_I v = Some (le32 v).
Proof. unfold pack_I. intros. replace (_ && _) with true by lia. auto. Qed.

Lemma int_of_range : forall b, 0 <= int_of b < 4294967296.
Proof. destruct b; cbn; lia. Qed.
Lemma tool_flags_range : forall s, 0 <= tool_flags s < 256.
Proof. intros. unfold tool_flags. destruct (s_adps s), (s_ptec s), (s_seuils s), (s_use_post s); vm_compute; split; congruence. Qed.

Lemma tool_front : forall s, concat (firstn 34 (tool_cfg s)) =
    pack_s 33 (s_ssid s) ++ pack_s 65 (s_psk s) ++ pack_s 17 (s_host s) ++ pack_s 65 (s_ap_psk s) ++
    pack_s 65 (s_ota_auth s) ++ le32 (int_of (s_led s)) ++ le16 (s_ota_port s) ++ le16 (s_sse_freq s) ++
    pack_s 32 (s_username s) ++ pack_s 32 (s_password s) ++ pack_s 65 [] ++
    pack_s 128 (pack_s 33 (s_emon_host s) ++ pack_s 33 (s_emon_key s) ++ pack_s 33 (s_emon_url s) ++
                le16 (s_emon_port s) ++ [s_emon_node s] ++ le32 (s_emon_freq s)) ++
    pack_s 256 (pack_s 33 (s_jdom_host s) ++ pack_s 49 (s_jdom_key s) ++ pack_s 65 (s_jdom_url s) ++
                pack_s 13 (s_jdom_adco s) ++ le16 (s_jdom_port s) ++ le32 (s_jdom_freq s)) ++
    pack_s 256 (pack_s 33 (s_http_host s) ++ pack_s 151 (s_http_url s) ++ le16 (s_http_port s) ++ le32 (s_http_freq s) ++
                [tool_flags s] ++ le16 (s_seuil_haut s) ++ le16 (s_seuil_bas s)).
Proof.
  intros s.
  assert (E1 : forall a b c d e f, length a = 33%nat -> length b = 33%nat -> length c = 33%nat -> length d = 2%nat ->
    length e = 1%nat -> length f = 4%nat ->
    pack_s 128 (a ++ b ++ c ++ d ++ e ++ f) = a ++ b ++ c ++ d ++ e ++ f ++ repeat 0 22).
  { intros. rewrite pack_s_short; rewrite !app_length, H, H0, H1, H2, H3, H4; [|cbn; lia]. rewrite <- !app_assoc.
    reflexivity. }
  assert (E2 : forall a b c d e f, length a = 33%nat -> length b = 49%nat -> length c = 65%nat -> length d = 13%nat ->
    length e = 2%nat -> length f = 4%nat ->
    pack_s 256 (a ++ b ++ c ++ d ++ e ++ f) = a ++ b ++ c ++ d ++ e ++ f ++ [0] ++ repeat 0 89).
  { intros. rewrite pack_s_short; rewrite !app_length, H, H0, H1, H2, H3, H4; [|cbn; lia]. rewrite <- !app_assoc.
    reflexivity. }
  assert (E3 : forall a b c d e f g, length a = 33%nat -> length b = 151%nat -> length c = 2%nat -> length d = 4%nat ->
    length e = 1%nat -> length f = 2%nat -> length g = 2%nat ->
    pack_s 256 (a ++ b ++ c ++ d ++ e ++ f ++ g) = a ++ b ++ c ++ d ++ e ++ f ++ g ++ repeat 0 61).
  { intros. rewrite pack_s_short; rewrite !app_length, H, H0, H1, H2, H3, H4, H5; [|cbn; lia]. rewrite <- !app_assoc.
    reflexivity. }
  rewrite E1, E2, E3 by (try apply pack_s_length; reflexivity).
  unfold tool_cfg, fields. cbn [map firstn concat tool_field]. rewrite app_nil_r.
  rewrite <- !app_assoc.
  change (pack_s 65 []) with (repeat 0 65). reflexivity.
Qed.

Lemma tool_cfg_get : forall s f, get f (tool_cfg s) = tool_field s f.
Proof. intros. apply get_map. Qed.
Lemma tool_cfg_wf : forall s, texts_bytes s -> numbers_fit s -> wf (tool_cfg s).
Proof.
  intros s Hb Hn. unfold texts_bytes, texts in Hb.
  repeat match goal with H : Forall _ (_ :: _) |- _ => inv H end. cbn [snd] in *.
  apply mk_wf; [reflexivity|]. intros f. rewrite tool_cfg_get. unfold numbers_fit in Hn.
  assert (Z0 : forall n, bytes (repeat 0 n)).
  { intros. apply Forall_forall. intros x Hx. apply repeat_spec in Hx. subst. unfold is_byte. lia. }
  pose proof (tool_flags_range s).
  destruct f; cbn [tool_field]; (split; [first [apply pack_s_length|reflexivity]|]);
    first [ apply pack_s_bytes; assumption | apply le16_bytes | apply le32_bytes | apply Z0 | idtac ];
    repeat constructor; unfold is_byte; lia.
Qed.

Lemma write_some : forall s img, texts_bytes s -> write_eeprom s = Some img ->
  numbers_fit s /\ img = image (sealed (tool_cfg s)).
Proof.
  intros s img Hb. unfold write_eeprom, write_emoncms, write_jeedom, write_httpreq.
  destruct (pack_H (s_emon_port s)) eqn:H1; [|discriminate].
  destruct (pack_B (s_emon_node s)) eqn:H2; [|discriminate].
  destruct (pack_I (s_emon_freq s)) eqn:H3; [|discriminate].
  destruct (pack_H (s_jdom_port s)) eqn:H4; [|discriminate].
  destruct (pack_I (s_jdom_freq s)) eqn:H5; [|discriminate].
  fold (tool_flags s).
  destruct (pack_H (s_http_port s)) eqn:H6; [|discriminate].
  destruct (pack_I (s_http_freq s)) eqn:H7; [|discriminate].
  destruct (pack_B (tool_flags s)) eqn:H8; [|discriminate].
  destruct (pack_H (s_seuil_haut s)) eqn:H9; [|discriminate].
  destruct (pack_H (s_seuil_bas s)) eqn:H10; [|discriminate].
  destruct (pack_I (int_of (s_led s))) eqn:H11; [|discriminate].
  destruct (pack_H (s_ota_port s)) eqn:H12; [|discriminate].
  destruct (pack_H (s_sse_freq s)) eqn:H13; [|discriminate].
  apply pack_H_some in H1, H4, H6, H9, H10, H12, H13. apply pack_B_some in H2, H8. apply pack_I_some in H3, H5, H7, H11.
  destruct H1 as [? ->], H2 as [? ->], H3 as [? ->], H4 as [? ->], H5 as [? ->], H6 as [? ->], H7 as [? ->],
    H8 as [? ->], H9 as [? ->], H10 as [? ->], H11 as [? ->], H12 as [? ->], H13 as [? ->].
  assert (Hn : numbers_fit s) by (unfold numbers_fit; lia).
  cbv zeta. rewrite <- tool_front, tool_crc_of. destruct (pack_H (crc_of _)) eqn:Hc; [|discriminate].
  apply pack_H_some in Hc. destruct Hc as [Hc ->].
  destruct (Nat.eqb _ 1024); [|discriminate]. intros E. injection E as <-. split; auto.
  assert (W := tool_cfg_wf s Hb Hn).
  rewrite image_sealed, firstn_front by auto. reflexivity.
Qed.

Lemma write_fit : forall s, texts_bytes s -> numbers_fit s -> write_eeprom s = Some (image (sealed (tool_cfg s))).
Proof.
  intros s Hb Hn. pose proof Hn as Hn'. unfold numbers_fit in Hn'. assert (W := tool_cfg_wf s Hb Hn).
  unfold write_eeprom, write_emoncms, write_jeedom, write_httpreq. fold (tool_flags s).
  pose proof (tool_flags_range s). pose proof (int_of_range (s_led s)).
  rewrite !pack_H_fit, !pack_I_fit, !pack_B_fit by lia. cbv zeta. cbn iota beta.
  rewrite <- tool_front, tool_crc_of.
  rewrite pack_H_fit.
  2:{ apply crc_of_range. rewrite <- firstn_front by auto. apply firstn_bytes, image_bytes; auto. }
  rewrite <- (firstn_front _ W), <- (image_sealed _ W).
  rewrite image_length by (apply sealed_wf; auto). reflexivity.
Qed.

(** ** The firmware on an image of the tool *)
Lemma tool_view : forall s, numbers_fit s -> view (secured (tool_cfg s)) = fitted s.
Proof.
  intros s Hn. unfold numbers_fit in Hn. unfold view, text, num, bit, num.
  rewrite !get_secured. cbn [is_text]. rewrite !tool_cfg_get. cbn [tool_field].
  pose proof (int_of_range (s_led s)).
  rewrite !le16_value, !le32_value by lia.
  repeat match goal with |- context [cstr (sec ?f (pack_s (S ?n) ?b))] => rewrite (cstr_sec_pack f n b eq_refl) end.
  assert (B0 : Z.testbit (int_of (s_led s)) 0 = s_led s) by (destruct (s_led s); reflexivity).
  assert (B1 : Z.testbit (tool_flags s) 0 = s_adps s /\ Z.testbit (tool_flags s) 1 = s_ptec s /\
    Z.testbit (tool_flags s) 2 = s_seuils s /\ Z.testbit (tool_flags s) 7 = s_use_post s)
    by (unfold tool_flags; destruct (s_adps s), (s_ptec s), (s_seuils s), (s_use_post s); repeat split; reflexivity).
  destruct B1 as (B1 & B2 & B3 & B4).
  unfold fitted. cbn [le_value]. rewrite !Z.mul_0_r, !Z.add_0_r, B0, B1, B2, B3, B4. reflexivity.
Qed.

Lemma secured_sealed_view : forall c, wf c -> view (secured (sealed c)) = view (secured c).
Proof.
  intros c Hw. unfold view, text, num, bit, num. rewrite !get_secured. cbn [is_text]. unfold sealed.
  rewrite !(get_set_other Crc) by discriminate. reflexivity.
Qed.

Lemma c31_write : forall s img, texts_bytes s -> write_eeprom s = Some img ->
  flash_ok img /\ crc_of img = 0 /\ forall chip, settings_at_start chip img (fitted s).
Proof.
  intros s img Hb Hw. destruct (write_some s img Hb Hw) as [Hn ->]. assert (W := tool_cfg_wf s Hb Hn).
  assert (F : flash_ok (image (sealed (tool_cfg s)))) by (apply image_flash_ok, sealed_wf; auto).
  split; auto. split; [apply crc_sealed; auto|]. intros chip.
  rewrite <- (tool_view s Hn), <- (secured_sealed_view _ W).
  rewrite <- (of_image_image (sealed (tool_cfg s))) at 2 by (apply sealed_wf; auto).
  apply good_flash; auto. apply crc_sealed; auto.
Qed.

Lemma cut_fit : forall n v, ~ In 0 v -> (length v <= n)%nat -> cut n v = v.
Proof. intros. unfold cut. rewrite cstr_no_nul by auto. apply firstn_all2; auto. Qed.
Lemma fitted_fits : forall s, fits s -> fitted s = s.
Proof.
  intros s H. unfold fits, texts in H.
  repeat match goal with H : Forall _ (_ :: _) |- _ => inv H end. cbn [fst snd] in *.
  repeat match goal with H : _ /\ _ |- _ => destruct H end.
  apply settings_ext; unfold fitted;
  cbn [s_ssid s_psk s_host s_ap_psk s_ota_auth s_ota_port s_username s_password s_sse_freq s_led s_emon_host s_emon_key
    s_emon_url s_emon_port s_emon_node s_emon_freq s_jdom_host s_jdom_key s_jdom_url s_jdom_adco s_jdom_port s_jdom_freq
    s_http_host s_http_url s_http_port s_http_freq s_adps s_ptec s_seuils s_use_post s_seuil_haut s_seuil_bas]; try reflexivity; apply cut_fit; auto.
Qed.

Lemma c31_write_exact : forall s, texts_bytes s -> fits s -> numbers_fit s ->
  exists img, write_eeprom s = Some img /\ forall chip, settings_at_start chip img s.
Proof.
  intros s Hb Hf Hn. eexists. split; [apply write_fit; auto|].
  intros chip. rewrite <- (fitted_fits s Hf) at 2. apply c31_write; auto. apply write_fit; auto.
Qed.
Lemma c31_write_refuses : forall s, texts_bytes s -> (exists img, write_eeprom s = Some img) <-> numbers_fit s.
Proof.
  intros s Hb. split.
  - intros [img H]. apply (write_some s img Hb H).
  - intros Hn. eexists. apply write_fit; auto.
Qed.

(** ** read_eeprom *)
Lemma split_at_concat : forall (c : list (list Z)) rest, split_at (map (@length Z) c) (concat c ++ rest) = c.
Proof.
  induction c as [|b c IH]; intros rest; cbn [map concat split_at]; auto.
  rewrite <- app_assoc, firstn_app, firstn_all, Nat.sub_diag, firstn_O, app_nil_r.
  rewrite skipn_app, skipn_all, Nat.sub_diag, skipn_O. cbn [app]. rewrite IH. auto.
Qed.

(** Each text field as the tool reads it. *)
Definition tool_reads (g : fld -> list Z) : option settings :=
  ssid <- decode (rstrip (g Ssid)) ;; psk <- decode (rstrip (g Psk)) ;; host <- decode (rstrip (g Host)) ;;
  ap_psk <- decode (rstrip (g ApPsk)) ;; ota <- decode (rstrip (g OtaAuth)) ;;
  user <- decode (rstrip (g Username)) ;; pass <- decode (rstrip (g Password)) ;;
  ehost <- decode (rstrip (g EHost)) ;; ekey <- decode (rstrip (g EKey)) ;; eurl <- decode (rstrip (g EUrl)) ;;
  jhost <- decode (rstrip (g JHost)) ;; jkey <- decode (rstrip (g JKey)) ;; jurl <- decode (rstrip (g JUrl)) ;;
  adco <- decode (rstrip (g JAdco)) ;;
  hhost <- decode (rstrip (g HHost)) ;; hurl <- decode (rstrip (g HUrl)) ;;
  let n f := le_value (g f) in
  Some (mk_settings
    ssid psk host ap_psk ota (n OtaPort) user pass (n SseFreq) (truth (Z.land (n Options) 1))
    ehost ekey eurl (n EPort) (n ENode) (n EFreq)
    jhost jkey jurl adco (n JPort) (n JFreq)
    hhost hurl (n HPort) (n HFreq)
    (truth (Z.land (n HFlags) 1)) (truth (Z.shiftr (Z.land (n HFlags) 2) 1))
    (truth (Z.shiftr (Z.land (n HFlags) 4) 2)) (truth (Z.shiftr (Z.land (n HFlags) 128) 7))
    (n HSeuilHaut) (n HSeuilBas)).

Lemma split_at_app : forall ns c b rest, map (@length Z) c = ns -> b = concat c ++ rest -> split_at ns b = c.
Proof. intros. subst. apply split_at_concat. Qed.

Lemma read_image : forall c, wf c -> read_eeprom (image c) = tool_reads (fun f => get f c).
Proof.
  intros c Hw.
  assert (L : forall f, length (get f c) = fsize f) by (intros; apply get_len; auto).
  pose (g := fun f => get f c).
  assert (Hg : forall f, get f c = g f) by reflexivity.
  assert (E : image c = concat
    [g Ssid; g Psk; g Host; g ApPsk; g OtaAuth; g Options; g OtaPort; g SseFreq; g Username; g Password; g Filler;
     concat [g EHost; g EKey; g EUrl; g EPort; g ENode; g EFreq; g EFiller];
     concat [g JHost; g JKey; g JUrl; g JAdco; g JPort; g JFreq; g JUsePost; g JFiller];
     concat [g HHost; g HUrl; g HPort; g HFreq; g HFlags; g HSeuilHaut; g HSeuilBas; g HFiller]; g Crc]).
  { rewrite <- (cfg_fields c) at 1 by (apply wf_length; auto). unfold image, fields, g. cbn [map concat].
    rewrite !app_nil_r. rewrite <- !app_assoc. reflexivity. }
  unfold read_eeprom, unpack. rewrite image_length by auto.
  replace (Nat.eqb CFG_SIZE _) with true by reflexivity.
  erewrite (split_at_app _ _ (image c) []); cycle 2; [rewrite app_nil_r; exact E| |].
  2:{ cbn [map concat]. rewrite !app_length. unfold g. rewrite !L. reflexivity. }
  cbn iota beta. unfold get_str, get_int. cbn [nth]. unfold unpack_from.
  rewrite (split_at_app [33; 33; 33; 2; 1; 4]%nat [g EHost; g EKey; g EUrl; g EPort; g ENode; g EFreq] _ (g EFiller)).
  2:{ cbn [map]. unfold g. rewrite !L. reflexivity. }
  2:{ cbn [concat]. rewrite !app_nil_r, <- !app_assoc. reflexivity. }
  rewrite (split_at_app [33; 49; 65; 13; 2; 4]%nat [g JHost; g JKey; g JUrl; g JAdco; g JPort; g JFreq] _ (g JUsePost ++ g JFiller)).
  2:{ cbn [map]. unfold g. rewrite !L. reflexivity. }
  2:{ cbn [concat]. rewrite !app_nil_r, <- !app_assoc. reflexivity. }
  rewrite (split_at_app [33; 151; 2; 4; 1; 2; 2]%nat [g HHost; g HUrl; g HPort; g HFreq; g HFlags; g HSeuilHaut; g HSeuilBas] _ (g HFiller)).
  2:{ cbn [map]. unfold g. rewrite !L. reflexivity. }
  2:{ cbn [concat]. rewrite !app_nil_r, <- !app_assoc. reflexivity. }
  replace (Nat.leb _ (length (concat [g EHost; g EKey; g EUrl; g EPort; g ENode; g EFreq; g EFiller]))) with true.
  2:{ cbn [concat]. rewrite !app_length. unfold g. rewrite !L. reflexivity. }
  replace (Nat.leb _ (length (concat [g JHost; g JKey; g JUrl; g JAdco; g JPort; g JFreq; g JUsePost; g JFiller]))) with true.
  2:{ cbn [concat]. rewrite !app_length. unfold g. rewrite !L. reflexivity. }
  replace (Nat.leb _ (length (concat [g HHost; g HUrl; g HPort; g HFreq; g HFlags; g HSeuilHaut; g HSeuilBas; g HFiller]))) with true.
  2:{ cbn [concat]. rewrite !app_length. unfold g. rewrite !L. reflexivity. }
  cbn iota beta. cbn [nth]. reflexivity.
Qed.

(** ** Tidy fields: nothing but NUL after the first NUL *)
Definition tidyb (b : list Z) : Prop := forall i j, (i <= j)%nat -> nth i b 0 = 0 -> nth j b 0 = 0.
Definition tidy (c : cfg) : Prop := forall f, is_text f = true -> tidyb (get f c).

Lemma rstrip_zeros : forall b, (forall i, nth i b 0 = 0) -> rstrip b = [].
Proof.
  induction b; intros H; cbn [rstrip]; auto. rewrite IHb by (intros i; apply (H (S i))).
  specialize (H 0%nat). cbn [nth] in H. subst. auto.
Qed.
Lemma rstrip_tidy : forall b, tidyb b -> rstrip b = cstr b.
Proof.
  induction b as [|x t IH]; intros H; auto. cbn [rstrip cstr].
  destruct (Z.eqb_spec x 0).
  - subst. rewrite rstrip_zeros; auto. intros i. apply (H 0%nat (S i)); [lia|auto].
  - rewrite IH by (intros i j Hij; apply (H (S i) (S j)); lia).
    destruct (cstr t); auto.
Qed.

Lemma truth_bit : forall v n, 0 <= n -> truth (Z.shiftr (Z.land v (2 ^ n)) n) = Z.testbit v n.
Proof.
  intros v n Hn. rewrite Z.shiftr_land.
  replace (Z.shiftr (2 ^ n) n) with 1 by (rewrite Z.shiftr_div_pow2 by auto; rewrite Z.div_same; lia).
  change 1 with (Z.ones 1). rewrite Z.land_ones, Zmod_odd by lia.
  rewrite <- Z.bit0_odd, Z.shiftr_spec, Z.add_0_l by lia. destruct (Z.testbit v n); auto.
Qed.

Lemma reads_view : forall c, tidy c -> texts_utf8 (view c) -> tool_reads (fun f => get f c) = Some (view c).
Proof.
  intros c Ht Hu. unfold tool_reads. rewrite !rstrip_tidy by (apply Ht; reflexivity).
  unfold texts_utf8, texts, view in Hu. fields_of Hu.
  repeat match goal with H : Forall _ (_ :: _) |- _ => inv H end. cbn [snd] in *.
  unfold decode. unfold text in *.
  repeat match goal with H : is_utf8 _ = true |- _ => rewrite H; clear H end.
  unfold view, text, num, bit, num.
  rewrite <- (truth_bit _ 0), <- (truth_bit _ 1), <- (truth_bit _ 2), <- (truth_bit _ 7) by lia.
  rewrite <- (truth_bit (le_value (get HFlags c)) 0) by lia.
  rewrite !Z.shiftr_0_r. reflexivity.
Qed.
