(** Property theorems C22-C27, C29-C31: the stored configuration (src/config.cpp, src/config.h, tools/eeprom.py). *)
From Coq Require Import ZArith List Bool Lia.
From Verif Require Import Base BaseFacts Config ConfigSpec EepromTool ToolSpec ConfigProofs ConfigMain ConfigHist ToolProofs ToolMain
  ConfigSamples ConfigFinal CliSpec CliDumpProofs Utf8Spec Utf8Proofs.
Import ListNotations.
Open Scope Z_scope.

(** ** C22: save and restart *)

(** In every state a module can be in, if the flash takes the write, config_save reports success, leaves the settings
    unchanged, and any restart (any RAM content, any later flash behaviour) finds exactly the same configuration
    object. *)
Theorem C22_save_then_restart_restores_the_configuration : forall s, reachable s ->
  exists s', config_save Stored s = Some (s', true) /\ view (c_cfg s') = view (c_cfg s) /\
    forall chip o1 o2 mem, exists s'', config_setup chip o1 o2 mem (e_flash (c_ee s')) = Some s'' /\
      c_cfg s'' = c_cfg s'.
Proof. exact c22. Qed.
Print Assumptions C22_save_then_restart_restores_the_configuration.

(** Saving always reports success, whatever the flash does. *)
Theorem C22_save_always_succeeds : forall o s, reachable s -> exists s', config_save o s = Some (s', true).
Proof. exact c22_always_succeeds. Qed.
Print Assumptions C22_save_always_succeeds.

Example C22_case : reachable posted1 /\ s_ssid (view (c_cfg posted1)) = str "home" /\
  s_psk (view (c_cfg posted1)) = str "secretacU0".
Proof. split; [exact posted1_reachable|]. rewrite posted1_view. split; vm_compute; reflexivity. Qed.

(** ** C23: damaged images *)

(** A stored image damaged within any 16 consecutive bits is detected: the next start uses the factory settings. *)
Theorem C23_burst_of_16_bits_gives_factory_settings : forall flash flash' p k chip,
  stored_image flash -> (k <= 16)%nat -> damaged_within p k flash flash' ->
  settings_at_start chip flash' (factory chip).
Proof. exact c23_burst. Qed.
Print Assumptions C23_burst_of_16_bits_gives_factory_settings.

(** So is an image with exactly two wrong bits, anywhere. *)
Theorem C23_two_wrong_bits_give_factory_settings : forall flash flash' p q chip,
  stored_image flash -> flash_ok flash' -> (p < q < 8 * CFG_SIZE)%nat ->
  (forall i, bit_at flash i <> bit_at flash' i <-> i = p \/ i = q) ->
  settings_at_start chip flash' (factory chip).
Proof. exact c23_two. Qed.
Print Assumptions C23_two_wrong_bits_give_factory_settings.

(** So is an image with any odd number of wrong bits. *)
Theorem C23_odd_number_of_wrong_bits_gives_factory_settings : forall flash flash' chip,
  stored_image flash -> flash_ok flash' ->
  Nat.odd (List.length (filter (fun i => xorb (bit_at flash i) (bit_at flash' i)) (seq 0 (8 * CFG_SIZE)))) = true ->
  settings_at_start chip flash' (factory chip).
Proof. exact c23_odd. Qed.
Print Assumptions C23_odd_number_of_wrong_bits_gives_factory_settings.

(** A user's configuration is stored; flipping the first bit of the image is a damage within 8 bits; the ssid really
    differs from the factory one. *)
Example C23_case : exists flash, stored_image flash /\ damaged_within 0 8 flash (flip_first flash) /\
  settings_at_start chip1 flash (view (c_cfg posted1)) /\ s_ssid (view (c_cfg posted1)) <> s_ssid (factory chip1).
Proof.
  destruct (c22 posted1 posted1_reachable) as (s' & E & V & R).
  assert (S : stored_image (e_flash (c_ee s'))) by (exists posted1, s'; split; [apply posted1_reachable|auto]).
  exists (e_flash (c_ee s')). split; [exact S|]. split; [apply flip_first_damage, stored_ok, S|]. split.
  - intros o1 o2 mem _. destruct (R chip1 o1 o2 mem) as (s'' & E'' & C). exists s''. rewrite C. auto.
  - rewrite posted1_view. vm_compute. discriminate.
Qed.
Example C23_counts_case : Nat.odd (List.length (filter (fun i => xorb (bit_at [1; 2] i) (bit_at [6; 2] i)) (seq 0 16))) = true.
Proof. vm_compute. reflexivity. Qed.

(** ** C24: first start *)

(** On a blank or cleared flash the start yields the factory settings, whatever the RAM holds; once stored, every
    later start finds them and writes nothing. *)
Theorem C24_blank_flash_gives_factory_settings : forall b chip o1 mem, b = 255 \/ b = 0 -> wf mem ->
  exists s, config_setup chip o1 Stored mem (repeat b CFG_SIZE) = Some s /\ view (c_cfg s) = factory chip /\
    forall chip' o1' o2' mem', exists s'', config_setup chip' o1' o2' mem' (e_flash (c_ee s)) = Some s'' /\
      view (c_cfg s'') = factory chip /\ c_ee s'' = ee_begin (e_flash (c_ee s)).
Proof. exact c24. Qed.
Print Assumptions C24_blank_flash_gives_factory_settings.

(** Even when the flash refuses the writes, the settings in use are the factory ones. *)
Theorem C24_blank_flash_unwritable : forall b chip o1 o2 mem, b = 255 \/ b = 0 -> wf mem ->
  exists s, config_setup chip o1 o2 mem (repeat b CFG_SIZE) = Some s /\ view (c_cfg s) = factory chip.
Proof. exact c24_volatile. Qed.
Print Assumptions C24_blank_flash_unwritable.

(** The name in the factory settings shows the chip id, in upper case hexadecimal, on six digits at least. *)
Theorem C24_name : forall chip, 0 <= chip < 4294967296 ->
  exists k digits, s_host (factory chip) = str "WifInfo-" ++ digits /\ (6 <= k <= 8)%nat /\ shows k chip digits.
Proof. exact c24_name. Qed.
Print Assumptions C24_name.
Example C24_case : wf zeroed /\ s_host (view (c_cfg fresh)) = str "WifInfo-123456" /\ view (c_cfg fresh) = factory chip1.
Proof.
  split; [exact zeroed_wf|]. rewrite (proj1 (proj2 fresh_facts)). split; [vm_compute; reflexivity|reflexivity].
Qed.

(** ** C25: strings are terminated *)

(** Whatever the flash holds at start-up and whatever happens then (forms, factory resets, serial commands, adoption of
    the SDK network, restarts, flash failures), nothing is written outside the configuration, and every text field holds
    a NUL. *)
Theorem C25_strings_are_terminated : forall chip o1 o2 mem flash es, flash_ok flash -> Forall event_ok es ->
  exists s0 s, config_setup chip o1 o2 mem flash = Some s0 /\ csteps es s0 = Some s /\ terminated (c_cfg s) /\ wf (c_cfg s).
Proof. exact c25. Qed.
Print Assumptions C25_strings_are_terminated.

(** Flash bytes without a single NUL. *)
Example C25_case : flash_ok (repeat 65 CFG_SIZE) /\
  Forall event_ok [Post (Torn 100) false form1; Adopt NotErased (repeat 66 99) (repeat 67 99)].
Proof.
  split; [apply repeat_ok; unfold is_byte; lia|]. constructor; [apply form1_ok|]. constructor; [|constructor].
  split; apply byteb_ok; vm_compute; reflexivity.
Qed.

(** ** C26: the form *)

(** After a form post the settings are exactly those of the form ([after_form]), the bytes that belong to no setting are
    unchanged, and the answer is 200, whatever the flash does. *)
Theorem C26_posted_settings : forall o restricted fm s, reachable s -> form_bytes fm -> ticked fm "save" = true ->
  exists s', config_handle_form o restricted fm s = Some (s', 200) /\
    view (c_cfg s') = after_form restricted fm (view (c_cfg s)) /\ unused (c_cfg s') = unused (c_cfg s).
Proof. exact c26. Qed.
Print Assumptions C26_posted_settings.

(** Without the argument "save" nothing changes and the answer is 400. *)
Theorem C26_no_save_no_change : forall o restricted fm s, ticked fm "save" = false ->
  config_handle_form o restricted fm s = Some (s, 400).
Proof. exact c26_no_save. Qed.
Print Assumptions C26_no_save_no_change.

(** The numeric settings after a form are in their documented ranges, and a decimal number in the range is taken as
    such. *)
Theorem C26_numbers_in_range : forall fm s, in_range (after_form false fm s).
Proof. exact after_form_range. Qed.
Print Assumptions C26_numbers_in_range.
Theorem C26_plain_numbers_are_taken : forall v, forallb isdigit v = true -> v <> [] -> written_int v = dec_value v.
Proof. exact digits_number. Qed.
Print Assumptions C26_plain_numbers_are_taken.

(** jdom_freq 99999 is out of range and becomes 0; the other values are those posted. *)
Example C26_case : reachable fresh /\ form_bytes form1 /\ ticked form1 "save" = true /\
  let s := after_form false form1 (factory chip1) in view (c_cfg posted1) = s /\
  s_ssid s = str "home" /\ s_jdom_host s = str "jeedom.local" /\ s_jdom_freq s = 0 /\ s_http_port s = 8080 /\
  s_ptec s = true /\ s_adps s = false /\ s_seuil_haut s = 5500 /\ s_seuil_bas s = 4200.
Proof.
  split; [exact fresh_reachable|]. split; [exact form1_ok|]. split; [reflexivity|].
  cbv zeta. split; [exact posted1_view|]. repeat split; vm_compute; reflexivity.
Qed.

(** ** C27: restricted client *)

(** A form posted by a restricted client leaves the Wi-Fi, OTA and login settings unchanged (the other settings change as
    for an ordinary client). *)
Theorem C27_restricted_form_keeps_wifi_ota_login : forall o fm s, reachable s -> form_bytes fm ->
  ticked fm "save" = true ->
  exists s', config_handle_form o true fm s = Some (s', 200) /\
    let a := view (c_cfg s) in let b := view (c_cfg s') in let n := after_form false fm a in
    b = mk_settings (s_ssid a) (s_psk a) (s_host a) (s_ap_psk a) (s_ota_auth a) (s_ota_port a) (s_username a) (s_password a)
     (s_sse_freq n) (s_led n) (s_emon_host n) (s_emon_key n) (s_emon_url n) (s_emon_port n) (s_emon_node n) (s_emon_freq n)
     (s_jdom_host n) (s_jdom_key n) (s_jdom_url n) (s_jdom_adco n) (s_jdom_port n) (s_jdom_freq n)
     (s_http_host n) (s_http_url n) (s_http_port n) (s_http_freq n) (s_adps n) (s_ptec n) (s_seuils n) (s_use_post n)
     (s_seuil_haut n) (s_seuil_bas n).
Proof. exact c27_step. Qed.
Print Assumptions C27_restricted_form_keeps_wifi_ota_login.

Example C27_case : reachable posted1 /\ form_bytes form2 /\ ticked form2 "save" = true /\
  s_psk (after_form true form2 (view (c_cfg posted1))) = str "secretacU0" /\
  s_psk (after_form false form2 (view (c_cfg posted1))) = str "abcdef".
Proof.
  split; [exact posted1_reachable|]. split; [exact form2_ok|]. split; [reflexivity|]. rewrite posted1_view.
  split; vm_compute; reflexivity.
Qed.

(** ** C29: 200 means stored *)

(** Proved part: if the flash takes the write, the posted settings are those of every later start. Missing: the answer is
    also 200 when the flash does not take it (next theorem). *)
Theorem C29_ok_means_stored_partial : forall restricted fm s, reachable s -> form_bytes fm -> ticked fm "save" = true ->
  exists s', config_handle_form Stored restricted fm s = Some (s', 200) /\
    forall chip, settings_at_start chip (e_flash (c_ee s')) (after_form restricted fm (view (c_cfg s))).
Proof. exact c29_stored. Qed.
Print Assumptions C29_ok_means_stored_partial.

(** The full claim is false: the result of EEPROM.commit() is ignored and the verification reads the RAM copy. *)
Theorem C29_ok_means_stored_refuted : exists s fm s', reachable s /\ form_bytes fm /\
  config_handle_form NotErased false fm s = Some (s', 200) /\
  forall chip, ~ settings_at_start chip (e_flash (c_ee s')) (after_form false fm (view (c_cfg s))).
Proof. exact c29_refuted. Qed.
Print Assumptions C29_ok_means_stored_refuted.

(** ** C30: power cut during a save *)

(** Proved part: after a save during which the flash does anything, the flash is as before, or the next start uses the
    new settings or the factory settings - except if the sector was cut short and the 16-bit CRC of the cut image is
    right by coincidence. *)
Theorem C30_power_cut_while_saving_partial : forall o s, reachable s ->
  exists s', config_save o s = Some (s', true) /\
    forall chip, let flash := e_flash (c_ee s') in
      flash = e_flash (c_ee s) \/
      settings_at_start chip flash (view (c_cfg s)) \/
      settings_at_start chip flash (factory chip) \/
      (exists n, o = Torn n /\ (n < CFG_SIZE)%nat /\ crc_of flash = 0).
Proof. exact c30_partial. Qed.
Print Assumptions C30_power_cut_while_saving_partial.

(** The exception is real: with this form and a cut after 512 bytes the next start uses the new Wi-Fi settings together
    with erased bytes. *)
Theorem C30_power_cut_while_saving_refuted : exists s fm n s', reachable s /\ form_bytes fm /\
  config_handle_form (Torn n) false fm s = Some (s', 200) /\
  forall chip, exists r, settings_at_start chip (e_flash (c_ee s')) r /\
    r <> factory chip /\ r <> view (c_cfg s) /\ r <> view (c_cfg s') /\
    s_ssid r = s_ssid (view (c_cfg s')) /\ s_jdom_host r = str "je" ++ repeat 255 30.
Proof. exact c30_refuted. Qed.
Print Assumptions C30_power_cut_while_saving_refuted.

(** A user's configuration, different from the factory settings, about to be saved again. *)
Example C30_case : reachable posted1 /\ s_ssid (view (c_cfg posted1)) <> s_ssid (factory chip1).
Proof. split; [exact posted1_reachable|]. rewrite posted1_view. vm_compute. discriminate. Qed.

(** ** C31: tools/eeprom.py *)

(** The tool accepts exactly the settings whose numbers fit; the firmware then starts with those settings, texts cut to
    what their field can hold. *)
Theorem C31_tool_image_is_accepted : forall s img, texts_bytes s -> write_eeprom s = Some img ->
  flash_ok img /\ crc_of img = 0 /\ forall chip, settings_at_start chip img (fitted s).
Proof. exact c31_write. Qed.
Print Assumptions C31_tool_image_is_accepted.
Theorem C31_tool_image_has_these_settings : forall s, texts_bytes s -> fits s -> numbers_fit s ->
  exists img, write_eeprom s = Some img /\ forall chip, settings_at_start chip img s.
Proof. exact c31_write_exact. Qed.
Print Assumptions C31_tool_image_has_these_settings.
Theorem C31_tool_refuses_other_numbers : forall s, texts_bytes s ->
  (exists img, write_eeprom s = Some img) <-> numbers_fit s.
Proof. exact c31_write_refuses. Qed.
Print Assumptions C31_tool_refuses_other_numbers.

(** An image saved by the firmware in ordinary use is read by the tool with the same settings, if the texts are UTF-8.
    Missing: after an adoption of the SDK network, and for texts that are not UTF-8 (next theorems). *)
Theorem C31_saved_image_is_read_partial : forall s, ordinarily_reachable s ->
  exists s', config_save Stored s = Some (s', true) /\ view (c_cfg s') = view (c_cfg s) /\
    (texts_utf8 (view (c_cfg s)) -> read_eeprom (e_flash (c_ee s')) = Some (view (c_cfg s))).
Proof. exact c31_read. Qed.
Print Assumptions C31_saved_image_is_read_partial.
Theorem C31_tool_reads_its_own_image : forall s, texts_bytes s -> fits s -> numbers_fit s -> texts_utf8 s ->
  exists img, write_eeprom s = Some img /\ read_eeprom img = Some s.
Proof. exact c31_tool_roundtrip. Qed.
Print Assumptions C31_tool_reads_its_own_image.

(** After adopting an open network the tool shows the end of the previous key. *)
Theorem C31_saved_image_is_read_refuted : exists s v r, reachable s /\
  (forall chip, settings_at_start chip (e_flash (c_ee s)) v) /\
  read_eeprom (e_flash (c_ee s)) = Some r /\ s_psk v = [] /\ s_psk r = [0] ++ str "bcdef".
Proof. exact c31_adopt_refuted. Qed.
Print Assumptions C31_saved_image_is_read_refuted.
(** A UTF-8 text cut by the form handler in the middle of a character makes the tool fail. *)
Theorem C31_cut_utf8_text_refuted : exists s fm, ordinarily_reachable s /\ form_bytes fm /\
  Forall (fun p => is_utf8 (snd p) = true) fm /\ cstep (Post Stored false fm) fresh = Some s /\
  read_eeprom (e_flash (c_ee s)) = None.
Proof. exact c31_utf8_refuted. Qed.
Print Assumptions C31_cut_utf8_text_refuted.

Example C31_case : let s := view (c_cfg posted1) in
  ordinarily_reachable posted1 /\ texts_bytes s /\ fits s /\ numbers_fit s /\ texts_utf8 s /\ s_psk s = str "secretacU0".
Proof.
  cbv zeta. split; [exact posted1_ordinary|]. rewrite posted1_view.
  split; [apply texts_bytes_ok; vm_compute; reflexivity|].
  split; [apply fits_ok; vm_compute; reflexivity|].
  split; [apply numbers_ok; vm_compute; reflexivity|].
  split; [apply utf8_ok; vm_compute; reflexivity|]. vm_compute. reflexivity.
Qed.

(** The texts the tool decodes are exactly those in UTF-8 ([utf8_text], Utf8Spec.v, written from the definition of the encoding). *)
Theorem C31_utf8 : forall b, is_utf8 b = true <-> utf8_text b.
Proof. exact c31_utf8. Qed.
Print Assumptions C31_utf8.
(** An e acute and a euro sign; the first byte of an e acute followed by a letter. *)
Example C31_ex_utf8 : utf8_text [195; 169; 226; 130; 172] /\ ~ utf8_text [195; 97].
Proof.
  split; [exists [233; 8364]; split; [repeat constructor; lia|reflexivity]|]. rewrite <- c31_utf8. discriminate.
Qed.
(** The tool reads an image saved by the firmware in ordinary use exactly when all its texts are in UTF-8. *)
Theorem C31_read_exactly_utf8 : forall s, ordinarily_reachable s ->
  exists s', config_save Stored s = Some (s', true) /\
    ((exists r, read_eeprom (e_flash (c_ee s')) = Some r) <-> Forall (fun p => utf8_text (snd p)) (texts (view (c_cfg s)))).
Proof. exact c31_read_exact. Qed.
Print Assumptions C31_read_exactly_utf8.
Example C31_ex_exactly : ordinarily_reachable posted1 /\ Forall (fun p => utf8_text (snd p)) (texts (view (c_cfg posted1))).
Proof.
  split; [exact posted1_ordinary|]. rewrite posted1_view. apply Forall_forall. intros p I. apply c31_utf8. revert p I. apply Forall_forall.
  apply utf8_ok. vm_compute. reflexivity.
Qed.
