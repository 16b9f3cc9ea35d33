(** The module of ChainSamples, started twice; a command is typed in the middle of a frame. *)
From Coq Require Import ZArith List Bool Lia String.
From Verif Require Import Base BaseFacts Teleinfo TeleinfoSpec Publish HistorySpec Config ConfigSpec ConfigProofs ConfigMain ConfigHist Json
  Tic TicSpec Sse Cpu Web Wifi Device WebSpec WebProofs DeviceProofs SlotSpec ChainSpec ChainProofs ChainMain Samples SamplesFacts TicSamples WebSamples ChainSamples
  Cli CliSpec CliProofs Life LifeSpec LifeProofs LifeMain LifeFinal LifeSamples SessionSpec SessionProofs.
From Verif Require ConfigSamples.
Import ListNotations.
Open Scope Z_scope.

Definition typed1 : list Z := [27] ++ str "tic" ++ [13].
Definition keyboard1 : list devent :=
  bytes_at 1000 (frame_of groups_a) ++ [DHttp (at_ms 2000) (ask "/json")] ++
  bytes_at 31000 (firstn 9 (frame_of groups_b) ++ typed1 ++ skipn 9 (frame_of groups_b)) ++
  [DUpload (at_ms 40000) (UpStart (str "firmware.bin") 10 true true)] ++
  bytes_at 50000 (frame_of [(str "PTEC", str "HP.."); (str "PAPP", str "00300")]) ++
  [DUpload (at_ms 60000) (UpWrite (str "abc") false true)] ++
  bytes_at 70000 (frame_of groups_c).
Lemma bytes_ordinary : forall n l, bytesb l = true -> Forall ordinary_event (bytes_at n l).
Proof.
  intros n l H. unfold bytes_at. rewrite Forall_map. apply Forall_forall. intros c I. split; [|exact Logic.I].
  assert (X := bytesb_spec _ H). unfold bytes in X. rewrite Forall_forall in X. exact (X _ I).
Qed.
Lemma keyboard1_ordinary : Forall ordinary_event keyboard1.
Proof.
  unfold keyboard1. rewrite !Forall_app. repeat split; try (apply bytes_ordinary; vm_compute; reflexivity);
    repeat constructor; cbn; try lia; discriminate.
Qed.
Lemma keyboard1_env : Forall (same_env env0) keyboard1.
Proof. unfold keyboard1, bytes_at. rewrite !Forall_app, !Forall_map. repeat split; repeat constructor; apply Forall_forall; intros; reflexivity. Qed.
Lemma keyboard1_removed : keyboard_removed true keyboard1 history1 [str "tic" ++ [13]].
Proof.
  assert (L : exists s meter, cli_listen (serial_at 0 keyboard1) cli_init = (s, meter, [str "tic" ++ [13]]) /\ history1 = only meter 0 keyboard1).
  { do 2 eexists. split; [vm_compute; reflexivity|vm_compute; reflexivity]. }
  destruct L as (s & meter & L & E). exists meter. split; [|exact E].
  exact (proj1 (listen_spec _ (serial_bytes _ 0 keyboard1_ordinary)) _ _ _ L).
Qed.
Lemma keyboard1_run : forall v ee,
  match lrun 256 only_tic (map (fun p => Event (fst p) (snd p)) (with_raw keyboard1)) (On (dev_at v ee) cli_init) with
  | Done (On d cl, os) => Some (map fst (requests (effects_of os)), commands_of os)
  | _ => None
  end = Some ([PTEC; HAUT; ADPS; EMONCMS; BAS; NORM; MAJ; EMONCMS], [str "tic" ++ [13]]).
Proof. intros v ee. vm_compute. reflexivity. Qed.
Lemma on_flash_same : forall b f, f = b_flash b -> on_flash f b = b.
Proof. intros b f ->. destruct b. reflexivity. Qed.
Lemma boot1_flash : exists v ee, boot start1 = Some (dev_at v ee, [StationMode; AutoReconnect]) /\ e_flash ee = b_flash start1.
Proof.
  exists (le16 (crc_of (firstn (CFG_SIZE - 2) (image cfg0)))), (ee_begin (image (sealed cfg0))). split; [|reflexivity].
  exact (sealed_boot cfg0 cfg0_wf (no_ssid (le16 (crc_of (firstn (CFG_SIZE - 2) (image cfg0)))))).
Qed.
Lemma power_on : forall fuel bd m b d acts, flash_of m = b_flash b -> boot b = Some (d, acts) ->
  lstep fuel bd (PowerOn b) m = Done (On d cli_init, map Radio acts).
Proof.
  intros fuel bd m b d acts F B. cbn [lstep]. fold (on_flash (flash_of m) b). rewrite (on_flash_same b _ F), B. reflexivity.
Qed.
Lemma sitting1 : exists d cl os,
  lrun 256 only_tic ([PowerOn start1] ++ started start1 (with_raw keyboard1)) (Off (b_flash start1)) = Done (On d cl, os) /\
  commands_of (skipn 2 os) = [str "tic" ++ [13]] /\ map fst (requests (effects_of (skipn 2 os))) = [PTEC; HAUT; ADPS; EMONCMS; BAS; NORM; MAJ; EMONCMS].
Proof.
  destruct boot1_flash as (v & ee & B & E). assert (X := keyboard1_run v ee).
  destruct (lrun 256 only_tic (map (fun p => Event (fst p) (snd p)) (with_raw keyboard1)) (On (dev_at v ee) cli_init)) as [[m os]| |] eqn:R; try discriminate X.
  destruct m as [f|d cl]; [discriminate X|]. assert (X1 : map fst (requests (effects_of os)) = [PTEC; HAUT; ADPS; EMONCMS; BAS; NORM; MAJ; EMONCMS]) by congruence.
  assert (X2 : commands_of os = [str "tic" ++ [13]]) by congruence. clear X.
  exists d, cl, (map Radio [StationMode; AutoReconnect] :: map Radio [StationMode; AutoReconnect] :: os).
  split; [|split; [exact X2|exact X1]]. unfold started. cbn [app].
  apply (run_cons _ _ _ _ _ _ _ _ _ (power_on 256 only_tic (Off (b_flash start1)) start1 _ _ eq_refl B)).
  exact (run_cons _ _ _ _ _ _ _ _ _ (power_on 256 only_tic (On (dev_at v ee) cli_init) start1 _ _ E B) R).
Qed.
