(** Concrete starts for the examples. *)
From Coq Require Import ZArith List Bool Lia String.
From Verif Require Import Base BaseFacts Config ConfigSpec ConfigProofs ConfigMain ConfigHist ConfigFinal Tic TicSpec Pages Sse Cpu Web WebSpec Wifi WifiSpec Device Publish Samples SamplesFacts TicSamples WebSamples ChainSamples Startup StartupSpec StartupProofs.
From Verif Require ConfigSamples Ota OtaSpec.
Import ListNotations.
Open Scope list_scope.
Open Scope Z_scope.

Definition cfg_home : cfg := text_field Ssid "home" cfg0.
Definition start_home (st : nat -> Z) : start := mk_start ConfigSamples.chip1 zeroed (image (sealed cfg_home)) Stored Stored Stored st [] [] 0 blank blank.
Lemma home_wf : wf cfg_home.
Proof. apply wfb_spec; vm_compute; reflexivity. Qed.
Lemma home_ok : forall st, start_ok (start_home st).
Proof.
  intros st. split; [cbn; unfold ConfigSamples.chip1; lia|]. split; [apply zeroed_wf|]. split; [exact (image_flash_ok _ (sealed_wf _ home_wf))|].
  split; [constructor|]. split; [constructor|]. split; reflexivity.
Qed.
Lemma home_ssid : forall v, text Ssid (secured (set Crc v cfg_home)) = str "home".
Proof. intros v. vm_compute. reflexivity. Qed.
Lemma home_sealed : text Ssid (secured (sealed cfg_home)) = 104 :: str "ome".
Proof. unfold sealed. apply home_ssid. Qed.
(** The settings read are kept. *)
Lemma boot_keeps : forall fl s st d acts x t, config_setup ConfigSamples.chip1 Stored Stored zeroed fl = Some s -> text Ssid (c_cfg s) = x :: t ->
  boot (mk_start ConfigSamples.chip1 zeroed fl Stored Stored Stored st [] [] 0 blank blank) = Some (d, acts) -> cfg_of d = c_cfg s.
Proof.
  intros fl s st d acts x t H T. unfold boot. cbn [b_chip b_o1 b_o2 b_mem b_flash b_o3 b_status b_ssid b_psk b_g1 b_g2 b_now]. rewrite H.
  unfold sys_wifi_connect, adopt_sdk. rewrite T. cbv beta iota zeta. rewrite T. destruct (wait_loop 50 st 1) as [[r k] w]. intros E.
  apply (f_equal (fun o => match o with Some (d, _) => cfg_of d | None => [] end)) in E. cbv beta iota in E. rewrite <- E. reflexivity.
Qed.
Lemma sealed_keeps : forall c ota st d ms x t, wf c -> text Ssid (secured (sealed c)) = x :: t ->
  setup ota (mk_start ConfigSamples.chip1 zeroed (image (sealed c)) Stored Stored Stored st [] [] 0 blank blank) = Some (d, ms) -> text Ssid (cfg_of d) = x :: t.
Proof.
  intros c ota st d ms x t W T H. unfold setup in H. destruct (boot _) as [[d' acts]|] eqn:B; [|discriminate].
  assert (E : d' = d) by (apply (f_equal (fun o => match o with Some (d, _) => d | None => d' end)) in H; exact H). subst d'.
  rewrite (boot_keeps (image (sealed c)) (mk_cs (secured (sealed c)) (ee_begin (image (sealed c)))) st d acts x t); [exact T| |exact T|exact B].
  rewrite (setup_good ConfigSamples.chip1 Stored Stored zeroed (image (sealed c)) (image_flash_ok (sealed c) (sealed_wf c W)) (crc_sealed c W)).
  rewrite (of_image_image (sealed c) (sealed_wf c W)). reflexivity.
Qed.
Lemma home_boot : forall ota st d ms, setup ota (start_home st) = Some (d, ms) -> text Ssid (cfg_of d) = str "home".
Proof. intros ota st d ms H. exact (sealed_keeps cfg_home ota st d ms 104 (str "ome") home_wf home_sealed H). Qed.
Lemma home_case : exists d ms d' ms', start_ok (start_home (fun _ => 6)) /\ setup true (start_home (fun _ => 6)) = Some (d, ms) /\ text Ssid (cfg_of d) = str "home" /\
  spent ms = 13400 /\ start_ok (start_home (fun k => if Nat.eqb k 3 then 3 else 6)) /\
  setup false (start_home (fun k => if Nat.eqb k 3 then 3 else 6)) = Some (d', ms') /\
  seen false ms' = ([(true, 100); (true, 50); (false, 150); (true, 50); (false, 150)], false).
Proof.
  destruct (c114_start true _ (home_ok (fun _ => 6))) as (d & ms & w & k & S & _).
  destruct (c114_start false _ (home_ok (fun k => if Nat.eqb k 3 then 3 else 6))) as (d' & ms' & w' & k' & S' & L & Q & SE & _).
  exists d, ms, d', ms'. split; [exact (home_ok _)|]. split; [exact S|]. split; [exact (home_boot _ _ _ _ S)|].
  split. { refine (proj1 (c114_alone true _ d ms (home_ok _) S _ _)); [rewrite (home_boot _ _ _ _ S); discriminate|intros i; cbn [start_home b_status]; discriminate]. }
  split; [exact (home_ok _)|]. split; [exact S'|]. rewrite SE.
  rewrite (home_boot _ _ _ _ S') in Q. change (waited (fun k => if Nat.eqb k 3 then 3 else 6) w' k') in Q. destruct Q as (_ & Q1 & Q2).
  assert (w' = 2%nat) as ->; [|reflexivity]. clear SE S S' L.
  destruct k'.
  - destruct (Nat.eqb_spec (Datatypes.S w') 3) as [E|E]; [lia|discriminate].
  - destruct Q2 as [-> _]. exfalso. apply (Q1 2%nat); [lia|reflexivity].
Qed.

(** A toy digest; a wrong answer, then the right one, between calls of ArduinoOTA.handle. *)
Definition toy (l : list Z) : list Z := firstn 32 (dec (fold_left (fun h c => (h * 31 + c) mod 1000003) l 7) ++ repeat 48 32).
Lemma toy32 : OtaSpec.digits32 toy.
Proof.
  intros l. unfold toy. rewrite firstn_length, app_length. change (List.length (repeat 48 32)) with 32%nat.
  apply Nat.min_l. apply Nat.le_add_l.
Qed.
Definition nonce32 : list Z := repeat 97 32.
Definition turn : Ota.event := Ota.Handles true true [233; 1].
Definition two_tries : list Ota.event :=
  [turn; Ota.Comes 1 (Ota.Invite 0 8000 2 (toy [233; 1])) (str "n1"); turn; Ota.Comes 2 (Ota.Answer nonce32 nonce32) []; turn;
   Ota.Comes 1 (Ota.Invite 0 8000 2 (toy [233; 1])) (str "n2"); turn;
   Ota.Comes 1 (Ota.Answer nonce32 (OtaSpec.response toy (text OtaAuth cfg_home) (str "n2") nonce32)) []; turn].
