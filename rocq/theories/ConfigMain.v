(** Start-up, forms and histories of the configuration. *)
From Coq Require Import ZArith List Bool Lia ZifyBool ZifyNat.
From Verif Require Import Base BaseFacts Config ConfigSpec CrcProofs ConfigProofs.
Import ListNotations.
Open Scope Z_scope.

(** ** Numbers in memory *)
Lemma le32_value : forall v, 0 <= v < 4294967296 -> le_value (le32 v) = v.
Proof.
  intros. unfold le32. cbn [le_value].
  pose proof (Z.div_mod v 256 ltac:(lia)).
  pose proof (Z.div_mod (v / 256) 256 ltac:(lia)).
  pose proof (Z.div_mod (v / 256 / 256) 256 ltac:(lia)).
  replace (v / 65536) with (v / 256 / 256) by (rewrite Z.div_div by lia; reflexivity).
  replace (v / 16777216) with (v / 256 / 256 / 256) by (rewrite !Z.div_div by lia; reflexivity).
  rewrite (Z.mod_small (v / 256 / 256 / 256)); [lia|].
  rewrite !Z.div_div by lia. split; [apply Z.div_pos; lia|apply Z.div_lt_upper_bound; lia].
Qed.
Lemma le32_bytes : forall v, bytes (le32 v).
Proof. intros. unfold le32. repeat constructor; unfold is_byte; apply Z.mod_pos_bound; lia. Qed.

(** ** Start-up *)
Lemma factory_field_ok : forall chip f, length (factory_field chip f) = fsize f /\ bytes (factory_field chip f).
Proof.
  intros. destruct (config_defaults_spec chip) as (c & _ & Hw & Hg). rewrite <- Hg. split;
    [apply get_len|apply get_bytes]; auto.
Qed.

Lemma in_padded : forall f s, (length s < fsize f)%nat -> In 0 (padded f s).
Proof.
  intros. unfold padded. apply in_app_iff. right.
  replace (fsize f - length s)%nat with (S (fsize f - length s - 1)) by lia. left. auto.
Qed.
Lemma in_zeros : forall n, (0 < n)%nat -> In 0 (repeat 0 n).
Proof. destruct n; [lia|]. intros. left. auto. Qed.

Lemma factory_terminated : forall chip c, (forall f, get f c = factory_field chip f) -> terminated c.
Proof.
  intros chip c Hg f Hf. rewrite Hg. destruct f; try discriminate; cbn [factory_field];
    first [ apply in_zeros; cbn; lia
          | apply in_padded; first [apply host_text_ok | vm_compute; lia] ].
Qed.

Lemma text_padded : forall f s c, get f c = padded f s -> (length s < fsize f)%nat -> Forall clean_char s ->
  text f c = s.
Proof. intros. unfold text. rewrite H. apply padded_text; auto. Qed.
Lemma text_zeros : forall f c, get f c = repeat 0 (fsize f) -> text f c = [].
Proof. intros. unfold text. rewrite H. destruct (fsize f); reflexivity. Qed.
Lemma num_zeros : forall f c, get f c = repeat 0 (fsize f) -> num f c = 0.
Proof.
  intros f c H. unfold num. rewrite H. clear H. generalize (fsize f). induction n; cbn [repeat le_value]; auto. lia.
Qed.

Lemma factory_view : forall chip c, (forall f, get f c = factory_field chip f) -> view c = factory chip.
Proof.
  intros chip c Hg. destruct (host_text_ok chip) as [HL HC]. unfold view, factory, bit.
  rewrite !(num_zeros Options), !(num_zeros HFlags) by (rewrite Hg; reflexivity). rewrite !Z.bits_0.
  rewrite !(num_zeros ENode), !(num_zeros EFreq), !(num_zeros JFreq), !(num_zeros HFreq), !(num_zeros HSeuilHaut),
    !(num_zeros HSeuilBas) by (rewrite Hg; reflexivity).
  rewrite (text_zeros Ssid), (text_zeros Psk), (text_zeros ApPsk), (text_zeros Username), (text_zeros Password),
    (text_zeros EKey), (text_zeros JHost), (text_zeros JKey), (text_zeros JAdco), (text_zeros HHost)
    by (rewrite Hg; reflexivity).
  rewrite (text_padded Host (str "WifInfo-" ++ hex6 chip)); [|rewrite Hg; reflexivity|auto|auto].
  rewrite (text_padded OtaAuth (str "OTA_WifInfo")); [|rewrite Hg; reflexivity|vm_compute; lia|apply cleanb_spec; reflexivity].
  rewrite (text_padded EHost (str "emoncms.org")); [|rewrite Hg; reflexivity|vm_compute; lia|apply cleanb_spec; reflexivity].
  rewrite (text_padded EUrl (str "/input/post.json")); [|rewrite Hg; reflexivity|vm_compute; lia|apply cleanb_spec; reflexivity].
  rewrite (text_padded JUrl default_jdom_url); [|rewrite Hg; reflexivity|vm_compute; lia|apply cleanb_spec; reflexivity].
  rewrite (text_padded HUrl default_http_url); [|rewrite Hg; reflexivity|vm_compute; lia|apply cleanb_spec; reflexivity].
  unfold num. rewrite !Hg. reflexivity.
Qed.

(** Invariant of the configuration state. *)
Definition Inv (s : cstate) : Prop := wf (c_cfg s) /\ terminated (c_cfg s) /\ EE (c_ee s).

Lemma save_inv : forall o s, wf (c_cfg s) -> EE (c_ee s) ->
  exists s', config_save o s = Some (s', true) /\ Inv s'.
Proof.
  intros o s Hw He. destruct (config_save_spec o s Hw He) as (s' & E & Ec & Hee & _).
  exists s'. split; auto. unfold Inv. rewrite Ec. split; [apply secured_wf, sealed_wf; auto|].
  split; [apply secured_terminated|auto].
Qed.

Lemma reset_spec : forall chip o s, EE (c_ee s) ->
  exists s', config_reset chip o s = Some s' /\ Inv s' /\ view (c_cfg s') = factory chip /\
    (o = Stored -> crc_of (e_flash (c_ee s')) = 0 /\ secured (of_image (e_flash (c_ee s'))) = c_cfg s').
Proof.
  intros chip o s He. unfold config_reset. destruct (config_defaults_spec chip) as (c & E & Hw & Hg). rewrite E.
  destruct (config_save_spec o (mk_cs c (c_ee s)) Hw He) as (s' & E' & Ec & Hee & _ & _ & Hst & _). rewrite E'.
  cbn [c_cfg] in *. exists s'. split; auto. split.
  { unfold Inv. rewrite Ec. split; [apply secured_wf, sealed_wf; auto|]. split; [apply secured_terminated|auto]. }
  assert (Ht : terminated c) by (eapply factory_terminated; eauto).
  split.
  - rewrite Ec, view_secured by (try apply sealed_wf; try apply terminated_set_crc; auto).
    unfold sealed. rewrite view_set_crc. apply factory_view; auto.
  - intros Ho. rewrite (Hst Ho). split; [apply crc_sealed; auto|]. rewrite of_image_image by (apply sealed_wf; auto).
    auto.
Qed.

Lemma setup_good : forall chip o1 o2 mem flash, flash_ok flash -> crc_of flash = 0 ->
  config_setup chip o1 o2 mem flash = Some (mk_cs (secured (of_image flash)) (ee_begin flash)).
Proof.
  intros. unfold config_setup. rewrite config_read_spec by auto. cbn [c_ee ee_begin e_buf].
  rewrite H0. reflexivity.
Qed.

Lemma setup_bad : forall chip o1 o2 mem flash, flash_ok flash -> crc_of flash <> 0 ->
  exists s, config_setup chip o1 o2 mem flash = Some s /\ Inv s /\ view (c_cfg s) = factory chip /\
    (o2 = Stored -> crc_of (e_flash (c_ee s)) = 0 /\ secured (of_image (e_flash (c_ee s))) = c_cfg s).
Proof.
  intros chip o1 o2 mem flash Hf Hc. unfold config_setup. rewrite config_read_spec by auto. cbn [c_ee ee_begin e_buf].
  replace (crc_of flash =? 0) with false by lia.
  destruct (reset_spec chip o1 (mk_cs zeroed (ee_begin flash)) (ee_begin_ok _ Hf)) as (s1 & E1 & (W1 & T1 & E1e) & V1 & _).
  rewrite E1.
  destruct (config_save_spec o2 s1 W1 E1e) as (s' & E' & Ec & Hee & _ & _ & Hst & _). rewrite E'.
  exists s'. split; auto. split.
  { unfold Inv. rewrite Ec. split; [apply secured_wf, sealed_wf; auto|]. split; [apply secured_terminated|auto]. }
  split.
  - rewrite Ec, view_secured by (try apply sealed_wf; try apply terminated_set_crc; auto).
    unfold sealed. rewrite view_set_crc. auto.
  - intros Ho. rewrite (Hst Ho). split; [apply crc_sealed; auto|]. rewrite of_image_image by (apply sealed_wf; auto).
    auto.
Qed.

Lemma setup_inv : forall chip o1 o2 mem flash, flash_ok flash ->
  exists s, config_setup chip o1 o2 mem flash = Some s /\ Inv s.
Proof.
  intros chip o1 o2 mem flash Hf. destruct (Z.eq_dec (crc_of flash) 0) as [Hc|Hc].
  - eexists. split; [apply setup_good; auto|]. split; [apply secured_wf, of_image_wf; auto|].
    split; [apply secured_terminated|apply ee_begin_ok; auto].
  - destruct (setup_bad chip o1 o2 mem flash Hf Hc) as (s & E & I & _). eauto.
Qed.

(** ** Copies of strings *)
Lemma strncpy_length : forall s n, length (strncpy_bytes s n) = n.
Proof. intros. unfold strncpy_bytes. rewrite app_length, repeat_length, firstn_length. lia. Qed.
Lemma cstr_bytes : forall s, bytes s -> bytes (cstr s).
Proof. induction 1; cbn [cstr]; [constructor|]. destruct (x =? 0); constructor; auto. Qed.
Lemma strncpy_bytes_ok : forall s n, bytes s -> bytes (strncpy_bytes s n ++ [0]).
Proof.
  intros. apply Forall_app. split; [|constructor; [unfold is_byte; lia|constructor]]. unfold strncpy_bytes.
  apply Forall_app. split; [apply firstn_bytes, cstr_bytes; auto|]. apply Forall_forall. intros x Hx.
  apply repeat_spec in Hx. subst. unfold is_byte. lia.
Qed.
Lemma cstr_idem : forall s, cstr (cstr s) = cstr s.
Proof. induction s; cbn [cstr]; auto. destruct (a =? 0) eqn:E; auto. cbn [cstr]. rewrite E. f_equal. auto. Qed.
Lemma cstr_strncpy : forall s n, cstr (strncpy_bytes s n ++ [0]) = cut n s.
Proof.
  intros. unfold strncpy_bytes, cut. rewrite <- app_assoc.
  assert (E : forall k, repeat 0 k ++ [0] = 0 :: repeat 0 k).
  { induction k; auto. cbn [repeat app]. rewrite IHk. auto. }
  rewrite E, cstr_app_nul. rewrite cstr_firstn, cstr_idem. reflexivity.
Qed.

Lemma strncpy_s_spec : forall f s n c, wf c -> S n = fsize f ->
  strncpy_s f s n c = Some (set f (strncpy_bytes s n ++ [0]) c).
Proof.
  intros. unfold strncpy_s. rewrite app_length, strncpy_length, get_len by auto. cbn [length].
  replace (Nat.leb (n + 1) (fsize f)) with true by lia.
  rewrite skipn_all2 by (rewrite get_len; auto; lia). rewrite app_nil_r. reflexivity.
Qed.

(** ** Requests *)
Lemma arg_posted : forall fm name, arg (str name) fm = posted fm name.
Proof.
  intros. unfold posted. induction fm as [|[n v] fm IH]; cbn [arg find fst snd]; auto. destruct (beq n (str name)); auto.
Qed.
Lemma has_arg_ticked : forall fm name, has_arg (str name) fm = ticked fm name.
Proof. intros. unfold ticked. induction fm as [|[n v] fm IH]; cbn [has_arg existsb fst]; auto. rewrite IH. auto. Qed.
Lemma posted_bytes : forall fm name, form_bytes fm -> bytes (posted fm name).
Proof.
  intros fm name H. unfold posted. destruct (find _ fm) as [p|] eqn:E; [|constructor].
  apply find_some in E. destruct E as [E _]. unfold form_bytes in H. rewrite Forall_forall in H. apply H in E. apply E.
Qed.

Lemma skip_space_eq : forall s, skip_space s = without_space s.
Proof. reflexivity. Qed.
Lemma take_digits_eq : forall s, take_digits s = leading_digits s.
Proof. reflexivity. Qed.
Lemma to_int_written : forall s, to_int s = clamp32 (written_int s).
Proof.
  intros. unfold to_int, written_int. rewrite skip_space_eq. destruct (without_space (cstr s)) as [|c t]; auto.
  rewrite !take_digits_eq. destruct (c =? 45); auto. destruct (c =? 43); auto.
Qed.
Lemma validate_ranged : forall s hi d, hi < 2147483647 -> validate_int s 0 hi d = ranged hi d s.
Proof.
  intros. unfold validate_int, ranged. rewrite to_int_written. unfold clamp32.
  set (n := written_int s). clearbody n.
  destruct ((0 <=? n) && (n <=? hi)) eqn:E.
  - replace (Z.max (-2147483648) (Z.min 2147483647 n)) with n by lia. rewrite E. auto.
  - replace ((0 <=? Z.max (-2147483648) (Z.min 2147483647 n)) && (Z.max (-2147483648) (Z.min 2147483647 n) <=? hi)) with false; [reflexivity|].
    symmetry. apply andb_false_iff. apply andb_false_iff in E. destruct E; [left|right]; lia.
Qed.
Lemma ranged_bounds : forall s hi d, 0 <= d <= hi -> 0 <= ranged hi d s <= hi.
Proof. intros. unfold ranged. destruct ((0 <=? written_int s) && (written_int s <=? hi)) eqn:E; lia. Qed.

(** ** Bit-fields *)
Definition with_bit (n : Z) (v : bool) (b : Z) : Z :=
  if v then Z.lor b (Z.shiftl 1 n) else Z.land b (255 - Z.shiftl 1 n).
Lemma num1 : forall f x c, length c = 35%nat -> num f (set f [x] c) = x.
Proof. intros. unfold num. rewrite get_set_same by auto. cbn [le_value]. lia. Qed.
Lemma num_other : forall f g v c, f <> g -> num g (set f v c) = num g c.
Proof. intros. unfold num. rewrite get_set_other by auto. auto. Qed.

Lemma with_bit_byte : forall n v b, 0 <= n < 8 -> is_byte b -> is_byte (with_bit n v b).
Proof.
  intros n v b Hn Hb. unfold is_byte in *. unfold with_bit. destruct v.
  - assert (0 <= Z.lor b (Z.shiftl 1 n)) by (apply Z.lor_nonneg; split; [lia|apply Z.shiftl_nonneg; lia]).
    split; auto. change 256 with (2 ^ 8). apply bits_small; try lia. intros q Hq.
    rewrite Z.lor_spec, (small_bits 8 b), Z.shiftl_spec by lia. cbn [orb].
    apply (small_bits 1); lia.
  - assert (0 <= Z.land b (255 - Z.shiftl 1 n)) by (apply Z.land_nonneg; lia).
    split; auto. change 256 with (2 ^ 8). apply bits_small; try lia. intros q Hq.
    rewrite Z.land_spec, (small_bits 8 b) by lia. auto.
Qed.

(** ** Effect of the form on each member *)
Definition flags_after (fm : form) (b : Z) : Z :=
  with_bit 2 (ticked fm "httpreq_trigger_seuils")
    (with_bit 1 (ticked fm "httpreq_trigger_ptec")
      (with_bit 0 (ticked fm "httpreq_trigger_adps")
        (with_bit 7 (ticked fm "httpreq_use_post") b))).

Definition form_wifi_field (fm : form) (old : fld -> list Z) (f : fld) : list Z :=
  match f with
  | Ssid => strncpy_bytes (posted fm "ssid") 32 ++ [0]
  | Psk => strncpy_bytes (posted fm "psk") 64 ++ [0]
  | Host => strncpy_bytes (posted fm "host") 16 ++ [0]
  | ApPsk => strncpy_bytes (posted fm "ap_psk") 64 ++ [0]
  | OtaAuth => strncpy_bytes (posted fm "ota_auth") 64 ++ [0]
  | OtaPort => le16 (ranged 65535 8266 (posted fm "ota_port"))
  | Username => strncpy_bytes (posted fm "username") 31 ++ [0]
  | Password => strncpy_bytes (posted fm "password") 31 ++ [0]
  | f => old f
  end.

Definition form_common_field (fm : form) (old : fld -> list Z) (f : fld) : list Z :=
  match f with
  | SseFreq => le16 (ranged 360 0 (posted fm "sse_freq"))
  | Options => le32 (if ticked fm "cfg_led_tinfo" then 1 else 0)
  | EHost => strncpy_bytes (posted fm "emon_host") 32 ++ [0]
  | EKey => strncpy_bytes (posted fm "emon_apikey") 32 ++ [0]
  | EUrl => strncpy_bytes (posted fm "emon_url") 32 ++ [0]
  | EPort => le16 (ranged 65535 80 (posted fm "emon_port"))
  | ENode => [ranged 255 0 (posted fm "emon_node") mod 256]
  | EFreq => le32 (ranged 86400 0 (posted fm "emon_freq"))
  | JHost => strncpy_bytes (posted fm "jdom_host") 32 ++ [0]
  | JKey => strncpy_bytes (posted fm "jdom_apikey") 48 ++ [0]
  | JUrl => strncpy_bytes (posted fm "jdom_url") 64 ++ [0]
  | JAdco => strncpy_bytes (posted fm "jdom_adco") 12 ++ [0]
  | JPort => le16 (ranged 65535 80 (posted fm "jdom_port"))
  | JFreq => le32 (ranged 86400 0 (posted fm "jdom_freq"))
  | HHost => strncpy_bytes (posted fm "httpreq_host") 32 ++ [0]
  | HUrl => strncpy_bytes (posted fm "httpreq_url") 150 ++ [0]
  | HPort => le16 (ranged 65535 80 (posted fm "httpreq_port"))
  | HFreq => le32 (ranged 86400 0 (posted fm "httpreq_freq"))
  | HFlags => [flags_after fm (le_value (old HFlags))]
  | HSeuilBas => le16 (ranged 20000 0 (posted fm "httpreq_seuil_bas"))
  | HSeuilHaut => le16 (ranged 20000 0 (posted fm "httpreq_seuil_haut"))
  | f => old f
  end.

(** One assignment: the object after it and what its members are. *)
Definition Is (c : cfg) (g : fld -> list Z) : Prop := wf c /\ forall f, get f c = g f.
Definition over (f : fld) (v : list Z) (g : fld -> list Z) (x : fld) : list Z := if feq_dec f x then v else g x.

Lemma is_set : forall c g f v, Is c g -> length v = fsize f -> bytes v -> Is (set f v c) (over f v g).
Proof.
  intros c g f v [Hw Hg] Hl Hb. split; [apply set_wf; auto|]. intros x. unfold over.
  destruct (feq_dec f x) as [->|Hn].
  - apply get_set_same, wf_length; auto.
  - rewrite get_set_other by auto. auto.
Qed.
Lemma is_strncpy : forall c g f s n, Is c g -> S n = fsize f -> bytes s ->
  exists c', strncpy_s f s n c = Some c' /\ Is c' (over f (strncpy_bytes s n ++ [0]) g).
Proof.
  intros c g f s n H Hn Hb. eexists. split; [apply strncpy_s_spec; auto; apply H|].
  apply is_set; auto; [rewrite app_length, strncpy_length; cbn; lia|apply strncpy_bytes_ok; auto].
Qed.
Lemma is_put16 : forall c g f v, Is c g -> fsize f = 2%nat -> Is (put16 f v c) (over f (le16 v) g).
Proof. intros. apply is_set; [auto|rewrite H0; reflexivity|apply le16_bytes]. Qed.
Lemma is_put32 : forall c g f v, Is c g -> fsize f = 4%nat -> Is (put32 f v c) (over f (le32 v) g).
Proof. intros. apply is_set; [auto|rewrite H0; reflexivity|apply le32_bytes]. Qed.
Lemma is_put8 : forall c g f v, Is c g -> fsize f = 1%nat -> Is (put8 f v c) (over f [v mod 256] g).
Proof.
  intros. apply is_set; auto. constructor; [|constructor]. unfold is_byte. apply Z.mod_pos_bound. lia.
Qed.
Lemma is_set_bit : forall c g n v, Is c g -> 0 <= n < 8 ->
  Is (set_bit n v c) (over HFlags [with_bit n v (le_value (g HFlags))] g).
Proof.
  intros c g n v [Hw Hg] Hn. unfold set_bit. cbv zeta. fold (with_bit n v (num HFlags c)). unfold num. rewrite Hg.
  apply is_set; [split; auto|reflexivity|]. constructor; [|constructor]. apply with_bit_byte; auto.
  pose proof (get_len HFlags c Hw) as L. pose proof (get_bytes HFlags c Hw) as B. rewrite Hg in L, B.
  destruct (g HFlags) as [|x [|y t]]; try discriminate L. inv B. cbn [le_value]. rewrite Z.mul_0_r, Z.add_0_r. auto.
Qed.

Lemma is_ext : forall c g h, Is c g -> (forall f, g f = h f) -> Is c h.
Proof. intros c g h [Hw Hg] E. split; auto. intros. rewrite Hg. auto. Qed.

Lemma form_wifi_spec : forall fm c g, form_bytes fm -> Is c g ->
  exists c', form_wifi fm c = Some c' /\ Is c' (form_wifi_field fm g).
Proof.
  intros fm c g Hf H. unfold form_wifi. rewrite !arg_posted, validate_ranged by lia.
  edestruct (is_strncpy c g Ssid (posted fm "ssid") 32 H) as (c1 & -> & H1); [reflexivity|apply posted_bytes; auto|].
  edestruct (is_strncpy c1 _ Psk (posted fm "psk") 64 H1) as (c2 & -> & H2); [reflexivity|apply posted_bytes; auto|].
  edestruct (is_strncpy c2 _ Host (posted fm "host") 16 H2) as (c3 & -> & H3); [reflexivity|apply posted_bytes; auto|].
  edestruct (is_strncpy c3 _ ApPsk (posted fm "ap_psk") 64 H3) as (c4 & -> & H4); [reflexivity|apply posted_bytes; auto|].
  edestruct (is_strncpy c4 _ OtaAuth (posted fm "ota_auth") 64 H4) as (c5 & -> & H5); [reflexivity|apply posted_bytes; auto|].
  cbv zeta. pose proof (is_put16 c5 _ OtaPort (ranged 65535 8266 (posted fm "ota_port")) H5 eq_refl) as H6.
  edestruct (is_strncpy _ _ Username (posted fm "username") 31 H6) as (c7 & -> & H7); [reflexivity|apply posted_bytes; auto|].
  edestruct (is_strncpy _ _ Password (posted fm "password") 31 H7) as (c8 & -> & H8); [reflexivity|apply posted_bytes; auto|].
  exists c8. split; auto. eapply is_ext; [apply H8|]. intros f. destruct f; reflexivity.
Qed.

Lemma form_common_spec : forall fm c g, form_bytes fm -> Is c g ->
  exists c', form_common fm c = Some c' /\ Is c' (form_common_field fm g).
Proof.
  intros fm c g Hf H. unfold form_common. rewrite !arg_posted, !has_arg_ticked, !validate_ranged by lia.
  cbv zeta.
  pose proof (is_put16 c g SseFreq (ranged 360 0 (posted fm "sse_freq")) H eq_refl) as H1.
  pose proof (is_put32 _ _ Options 0 H1 eq_refl) as H2.
  assert (H3 : Is (if ticked fm "cfg_led_tinfo"
     then put32 Options (Z.lor (num Options (put32 Options 0 (put16 SseFreq (ranged 360 0 (posted fm "sse_freq")) c))) 1)
            (put32 Options 0 (put16 SseFreq (ranged 360 0 (posted fm "sse_freq")) c))
     else put32 Options 0 (put16 SseFreq (ranged 360 0 (posted fm "sse_freq")) c))
     (over Options (le32 (if ticked fm "cfg_led_tinfo" then 1 else 0))
       (over SseFreq (le16 (ranged 360 0 (posted fm "sse_freq"))) g))).
  { destruct (ticked fm "cfg_led_tinfo"); [|exact H2].
    replace (num Options _) with 0.
    - pose proof (is_put32 _ _ Options (Z.lor 0 1) H2 eq_refl) as H3. eapply is_ext; [apply H3|].
      intros f. unfold over. destruct (feq_dec Options f); auto.
    - unfold num. destruct H2 as [_ H2]. rewrite H2. reflexivity. }
  set (c3 := if ticked fm "cfg_led_tinfo" then _ else _) in *. clearbody c3. clear H1 H2.
  edestruct (is_strncpy c3 _ EHost (posted fm "emon_host") 32 H3) as (c4 & -> & H4); [reflexivity|apply posted_bytes; auto|].
  pose proof (is_put16 c4 _ EPort (ranged 65535 80 (posted fm "emon_port")) H4 eq_refl) as H5.
  edestruct (is_strncpy _ _ EUrl (posted fm "emon_url") 32 H5) as (c6 & -> & H6); [reflexivity|apply posted_bytes; auto|].
  edestruct (is_strncpy _ _ EKey (posted fm "emon_apikey") 32 H6) as (c7 & -> & H7); [reflexivity|apply posted_bytes; auto|].
  pose proof (is_put8 c7 _ ENode (ranged 255 0 (posted fm "emon_node")) H7 eq_refl) as H8.
  pose proof (is_put32 _ _ EFreq (ranged 86400 0 (posted fm "emon_freq")) H8 eq_refl) as H9.
  edestruct (is_strncpy _ _ JHost (posted fm "jdom_host") 32 H9) as (c10 & -> & H10); [reflexivity|apply posted_bytes; auto|].
  pose proof (is_put16 c10 _ JPort (ranged 65535 80 (posted fm "jdom_port")) H10 eq_refl) as H11.
  edestruct (is_strncpy _ _ JUrl (posted fm "jdom_url") 64 H11) as (c12 & -> & H12); [reflexivity|apply posted_bytes; auto|].
  edestruct (is_strncpy _ _ JKey (posted fm "jdom_apikey") 48 H12) as (c13 & -> & H13); [reflexivity|apply posted_bytes; auto|].
  edestruct (is_strncpy _ _ JAdco (posted fm "jdom_adco") 12 H13) as (c14 & -> & H14); [reflexivity|apply posted_bytes; auto|].
  pose proof (is_put32 c14 _ JFreq (ranged 86400 0 (posted fm "jdom_freq")) H14 eq_refl) as H15.
  edestruct (is_strncpy _ _ HHost (posted fm "httpreq_host") 32 H15) as (c16 & -> & H16); [reflexivity|apply posted_bytes; auto|].
  pose proof (is_put16 c16 _ HPort (ranged 65535 80 (posted fm "httpreq_port")) H16 eq_refl) as H17.
  edestruct (is_strncpy _ _ HUrl (posted fm "httpreq_url") 150 H17) as (c18 & -> & H18); [reflexivity|apply posted_bytes; auto|].
  pose proof (is_set_bit c18 _ 7 (ticked fm "httpreq_use_post") H18 ltac:(lia)) as H19.
  pose proof (is_put32 _ _ HFreq (ranged 86400 0 (posted fm "httpreq_freq")) H19 eq_refl) as H20.
  pose proof (is_set_bit _ _ 0 (ticked fm "httpreq_trigger_adps") H20 ltac:(lia)) as H21.
  pose proof (is_set_bit _ _ 1 (ticked fm "httpreq_trigger_ptec") H21 ltac:(lia)) as H22.
  pose proof (is_set_bit _ _ 2 (ticked fm "httpreq_trigger_seuils") H22 ltac:(lia)) as H23.
  pose proof (is_put16 _ _ HSeuilBas (ranged 20000 0 (posted fm "httpreq_seuil_bas")) H23 eq_refl) as H24.
  pose proof (is_put16 _ _ HSeuilHaut (ranged 20000 0 (posted fm "httpreq_seuil_haut")) H24 eq_refl) as H25.
  eexists. split; [reflexivity|]. eapply is_ext; [apply H25|].
  unfold flags_after in *.
  intros f. destruct f; try reflexivity.
  unfold over. cbn [feq_dec le_value]. cbn [form_common_field].
  cbv beta iota delta [feq_dec fld_rec fld_rect]. cbn [le_value]. rewrite !Z.mul_0_r, !Z.add_0_r. reflexivity.
Qed.
