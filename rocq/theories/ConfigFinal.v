(** Flash failures and counterexamples. *)
From Coq Require Import ZArith List Bool Lia ZifyBool ZifyNat.
From Verif Require Import Base BaseFacts Config ConfigSpec CrcProofs ConfigProofs ConfigMain ConfigHist ConfigSamples
  EepromTool ToolSpec ToolProofs ToolMain.
Import ListNotations.
Open Scope Z_scope.

Lemma some_pair : forall A B (a a' : A) (b b' : B), Some (a, b) = Some (a', b') -> a = a'.
Proof. intros. injection H. auto. Qed.

Lemma c29_stored : forall restricted fm s, reachable s -> form_bytes fm -> ticked fm "save" = true ->
  exists s', config_handle_form Stored restricted fm s = Some (s', 200) /\
    forall chip, settings_at_start chip (e_flash (c_ee s')) (after_form restricted fm (view (c_cfg s))).
Proof.
  intros restricted fm s R Hf Hs.
  destruct (handle_form_spec Stored restricted fm s (reachable_inv s R) Hf Hs) as (s' & E & (_ & _ & He) & V & _ & St).
  destruct (St eq_refl) as [C Q]. exists s'. split; auto. intros chip. rewrite <- V, <- Q.
  apply good_flash; auto. apply He.
Qed.

Lemma start_unique : forall chip flash r r', settings_at_start chip flash r -> settings_at_start chip flash r' -> r = r'.
Proof.
  intros chip flash r r' H H'. destruct (H Stored Stored zeroed zeroed_wf) as (s & E & V).
  destruct (H' Stored Stored zeroed zeroed_wf) as (s' & E' & V'). rewrite E in E'. inv E'. auto.
Qed.

Lemma handle_form_flash : forall o restricted fm s, Inv s -> form_bytes fm -> ticked fm "save" = true ->
  exists s', config_handle_form o restricted fm s = Some (s', 200) /\
    (o = NotErased -> e_flash (c_ee s') = e_flash (c_ee s)).
Proof.
  intros o restricted fm s (Hw & Ht & He) Hf Hs. unfold config_handle_form. rewrite has_arg_ticked, Hs.
  destruct (form_object restricted fm (c_cfg s) Hf Hw) as (c1 & c2 & -> & -> & I).
  destruct (config_save_spec o (mk_cs c2 (c_ee s)) (proj1 I) He) as (s' & E' & _ & _ & _ & _ & _ & K). rewrite E'.
  eauto.
Qed.

Lemma c29_refuted : exists s fm s', reachable s /\ form_bytes fm /\
  config_handle_form NotErased false fm s = Some (s', 200) /\
  forall chip, ~ settings_at_start chip (e_flash (c_ee s')) (after_form false fm (view (c_cfg s))).
Proof.
  exists fresh, form1, kept1. split; [apply fresh_reachable|]. split; [apply form1_ok|]. split; [apply kept1_step|].
  intros chip H.
  assert (F : e_flash (c_ee kept1) = e_flash (c_ee fresh)).
  { destruct (handle_form_flash NotErased false form1 fresh (reachable_inv _ fresh_reachable) form1_ok eq_refl)
      as (s' & E & K). rewrite kept1_step in E. apply some_pair in E. rewrite E. exact (K eq_refl). }
  rewrite F in H. destruct fresh_facts as (_ & V & C & S).
  assert (G := good_flash (e_flash (c_ee fresh)) (proj1 (proj2 (proj2 (proj2 (reachable_inv _ fresh_reachable))))) C chip).
  rewrite S, V in G. rewrite V in H. pose proof (start_unique _ _ _ _ H G) as E.
  assert (B : s_ssid (after_form false form1 (factory chip1)) <> s_ssid (factory chip1)) by (vm_compute; discriminate).
  exact (B (f_equal s_ssid E)).
Qed.

Lemma c30_partial : forall o s, reachable s ->
  exists s', config_save o s = Some (s', true) /\
    forall chip, let flash := e_flash (c_ee s') in
      flash = e_flash (c_ee s) \/
      settings_at_start chip flash (view (c_cfg s)) \/
      settings_at_start chip flash (factory chip) \/
      (exists n, o = Torn n /\ (n < CFG_SIZE)%nat /\ crc_of flash = 0).
Proof.
  intros o s R. destruct (reachable_inv s R) as (Hw & Ht & He).
  destruct (config_save_spec o s Hw He) as (s' & E & Ec & Hee & _ & Hcase & _ & _).
  exists s'. split; auto. intros chip flash. subst flash.
  assert (G : e_flash (c_ee s') = image (sealed (c_cfg s)) -> settings_at_start chip (e_flash (c_ee s')) (view (c_cfg s))).
  { intros ->. assert (W := sealed_wf _ Hw).
    replace (view (c_cfg s)) with (view (secured (of_image (image (sealed (c_cfg s)))))).
    - apply good_flash; [apply image_flash_ok; auto|apply crc_sealed; auto].
    - rewrite of_image_image by auto.
      rewrite view_secured by (try apply terminated_set_crc; auto). unfold sealed. apply view_set_crc. }
  destruct Hcase as [H|[H|(n & Ho & H)]]; auto.
  destruct (le_lt_dec CFG_SIZE n) as [Hn|Hn].
  - right. left. apply G. rewrite H. unfold torn.
    rewrite firstn_all2 by (rewrite image_length by (apply sealed_wf; auto); auto).
    replace (length _ - n)%nat with 0%nat by (rewrite image_length by (apply sealed_wf; auto); lia).
    apply app_nil_r.
  - destruct (Z.eq_dec (crc_of (e_flash (c_ee s'))) 0) as [Hc|Hc].
    + right. right. right. eauto.
    + right. right. left. apply bad_flash; auto. apply Hee.
Qed.

Lemma torn_check_spec : forall flash, torn_check flash = true ->
  crc_of flash = 0 /\ s_ssid (view (secured (of_image flash))) = str "home" /\
  s_jdom_host (view (secured (of_image flash))) = str "je" ++ repeat 255 30.
Proof.
  intros flash K. unfold torn_check in K. apply andb_true_iff in K. destruct K as [K K3].
  apply andb_true_iff in K. destruct K as [K1 K2]. apply Z.eqb_eq in K1. apply beq_eq in K2, K3. auto.
Qed.

Lemma c30_refuted : exists s fm n s', reachable s /\ form_bytes fm /\
  config_handle_form (Torn n) false fm s = Some (s', 200) /\
  forall chip, exists r, settings_at_start chip (e_flash (c_ee s')) r /\
    r <> factory chip /\ r <> view (c_cfg s) /\ r <> view (c_cfg s') /\
    s_ssid r = s_ssid (view (c_cfg s')) /\ s_jdom_host r = str "je" ++ repeat 255 30.
Proof.
  exists fresh, form1, 512%nat, torn1. split; [apply fresh_reachable|]. split; [apply form1_ok|].
  split; [apply torn1_step|]. intros chip. exists (view (secured (of_image (e_flash (c_ee torn1))))).
  destruct (torn_check_spec _ torn1_check) as (K1 & K2 & K3).
  split.
  { apply good_flash; [|apply K1].
    destruct (handle_form_spec (Torn 512) false form1 fresh (reachable_inv _ fresh_reachable) form1_ok eq_refl)
      as (s' & E & (_ & _ & He) & _). rewrite torn1_step in E. apply some_pair in E. rewrite E. apply He. }
  rewrite torn1_view, (proj1 (proj2 fresh_facts)).
  split; [intros E; apply (f_equal s_ssid) in E; rewrite K2 in E; discriminate E|].
  split; [intros E; apply (f_equal s_ssid) in E; rewrite K2 in E; discriminate E|].
  split; [intros E; apply (f_equal s_jdom_host) in E; rewrite K3 in E; discriminate E|].
  rewrite K2, K3. split; reflexivity.
Qed.

(** The key of a previous configuration shows through when the SDK network has no key. *)
Definition adopted : cstate := unwrap (cstep (Adopt Stored (str "open") []) posted2).
Lemma some_eq : forall A (a b : A), Some a = Some b -> a = b.
Proof. congruence. Qed.
Lemma one_step : forall i s a, csteps [i] s = Some a -> cstep i s = Some a.
Proof. intros i s a H. cbn [csteps] in H. destruct (cstep i s); [exact H|discriminate H]. Qed.
Lemma two_steps : forall i j s a b, csteps [i] s = Some a -> cstep j a = Some b -> csteps [i; j] s = Some b.
Proof. intros i j s a b H K. cbn [csteps] in *. destruct (cstep i s) as [x|]; [|discriminate H]. inv H. now rewrite K. Qed.
Lemma unwrap_some : forall (x : option cstate) y, x = Some y -> x = Some (unwrap x).
Proof. intros x y ->. reflexivity. Qed.
Lemma adopted_step : csteps [Post Stored false form2; Adopt Stored (str "open") []] fresh = Some adopted.
Proof.
  refine (two_steps _ _ _ _ _ posted2_step _). unfold adopted.
  destruct (step_inv (Adopt Stored (str "open") []) posted2) as (s' & E' & _).
  - split; apply byteb_ok; reflexivity.
  - apply reachable_inv, posted2_reachable.
  - exact (unwrap_some _ _ E').
Qed.
Lemma adopted_reachable : reachable adopted.
Proof.
  refine (from_fresh _ _ _ adopted_step). constructor; [apply form2_ok|]. constructor; [|constructor].
  split; apply byteb_ok; vm_compute; reflexivity.
Qed.
Definition adopt_check (s : cstate) : bool :=
  let flash := e_flash (c_ee s) in
  (crc_of flash =? 0) &&
  match read_eeprom flash with Some r => beq (s_psk r) ([0] ++ str "bcdef") | None => false end &&
  Nat.eqb (length (s_psk (view (secured (of_image flash))))) 0.
Lemma adopted_check : adopt_check adopted = true.
Proof. vm_compute. reflexivity. Qed.
Lemma adopt_check_spec : forall s, adopt_check s = true ->
  crc_of (e_flash (c_ee s)) = 0 /\
  (exists r, read_eeprom (e_flash (c_ee s)) = Some r /\ s_psk r = [0] ++ str "bcdef") /\
  s_psk (view (secured (of_image (e_flash (c_ee s))))) = [].
Proof.
  intros s K. unfold adopt_check in K. cbv zeta in K.
  apply andb_true_iff in K. destruct K as [K K3]. apply andb_true_iff in K. destruct K as [K1 K2].
  apply Z.eqb_eq in K1. apply Nat.eqb_eq in K3. split; [exact K1|]. split.
  - destruct (read_eeprom (e_flash (c_ee s))) as [r|]; [|discriminate K2]. apply beq_eq in K2. eauto.
  - destruct (s_psk _); [reflexivity|discriminate K3].
Qed.
Lemma c31_adopt_refuted : exists s v r, reachable s /\
  (forall chip, settings_at_start chip (e_flash (c_ee s)) v) /\
  read_eeprom (e_flash (c_ee s)) = Some r /\ s_psk v = [] /\ s_psk r = [0] ++ str "bcdef".
Proof.
  destruct (adopt_check_spec _ adopted_check) as (K1 & (r & E & K2) & K3).
  exists adopted, (view (secured (of_image (e_flash (c_ee adopted))))), r. split; [apply adopted_reachable|]. split.
  { intros chip. apply good_flash; [|exact K1]. apply (reachable_inv _ adopted_reachable). }
  split; [exact E|]. split; [exact K3|exact K2].
Qed.
(** A text cut in the middle of a UTF-8 character cannot be read by the tool. *)
Lemma c31_utf8_refuted : exists s fm, ordinarily_reachable s /\ form_bytes fm /\
  Forall (fun p => is_utf8 (snd p) = true) fm /\ cstep (Post Stored false fm) fresh = Some s /\
  read_eeprom (e_flash (c_ee s)) = None.
Proof.
  exists posted3, form3. split; [apply posted3_ordinary|]. split; [apply form3_ok|].
  split; [repeat constructor|]. split; [|vm_compute; reflexivity].
  exact (one_step _ _ _ posted3_step).
Qed.

(** Adoption cuts a key of 33 to 64 characters to 32 (also C48). *)
Lemma adopt_step : forall o a b s s', cstep (Adopt o a b) s = Some s' -> adopt_sdk o a b s = Some s'.
Proof. auto. Qed.
Lemma c48_psk_cut_refuted : exists ssid psk s s', reachable s /\ bytes ssid /\ bytes psk /\ (length psk <= 64)%nat /\
  adopt_sdk Stored ssid psk s = Some s' /\ text Psk (c_cfg s') <> psk.
Proof.
  exists (str "home"), (repeat 97 63), fresh, (unwrap (adopt_sdk Stored (str "home") (repeat 97 63) fresh)).
  split; [apply fresh_reachable|]. split; [apply byteb_ok; vm_compute; reflexivity|].
  split; [apply byteb_ok; vm_compute; reflexivity|]. split; [vm_compute; lia|]. split.
  - destruct (step_inv (Adopt Stored (str "home") (repeat 97 63)) fresh) as (s' & E & _).
    + split; apply byteb_ok; reflexivity.
    + apply reachable_inv, fresh_reachable.
    + exact (unwrap_some _ _ (adopt_step _ _ _ _ _ E)).
  - assert (B : length (text Psk (c_cfg (unwrap (adopt_sdk Stored (str "home") (repeat 97 63) fresh)))) = 32%nat)
      by (vm_compute; reflexivity).
    intros E. rewrite E in B. discriminate B.
Qed.

Lemma first_byte_bits : forall x y t q, bit_at (x :: t) q <> bit_at (y :: t) q -> (q < 0 + 8)%nat.
Proof.
  intros x y t q H. destruct (le_lt_dec 8 q); [|lia]. exfalso. apply H. unfold bit_at.
  assert (1 <= q / 8)%nat by (apply Nat.div_le_lower_bound; lia).
  destruct (q / 8)%nat; [lia|reflexivity].
Qed.

(** Flipping the first bit of a stored image. *)
Definition flip_first (b : list Z) : list Z := Z.lxor (hd 0 b) 1 :: tl b.
Lemma flip_first_damage : forall b, flash_ok b -> damaged_within 0 8 b (flip_first b).
Proof.
  intros b [L B]. destruct b as [|x t]; [discriminate L|]. unfold flip_first. cbn [hd tl]. inv B.
  assert (R : is_byte (Z.lxor x 1)).
  { unfold is_byte in *. apply (lxor_small 8); lia. }
  split; [reflexivity|]. split; [constructor; auto|]. split.
  - intros E. injection E as E. assert (Z.testbit (Z.lxor x 1) 0 = Z.testbit x 0) by congruence.
    rewrite Z.lxor_spec in H. destruct (Z.testbit x 0); discriminate H.
  - intros q H. split; [lia|]. eapply first_byte_bits; eauto.
Qed.
