(** The module of ChainSamples; a browser follows the stream; "set timers", then "sse hi", are typed. *)
From Coq Require Import ZArith List Bool Lia String.
From Verif Require Import Base BaseFacts Teleinfo TeleinfoSpec Publish HistorySpec Config ConfigSpec ConfigProofs ConfigMain ConfigHist Json
  Tic TicSpec Sse SseSpec Cpu Web Wifi Device WebSpec WebProofs DeviceProofs SlotSpec ChainSpec ChainProofs ChainMain Samples SamplesFacts TicSamples WebSamples ChainSamples
  Cli CliSpec CliProofs Life LifeSpec LifeProofs LifeMain LifeFinal LifeSamples SessionSpec SessionProofs SessionSamples MeddleSpec.
From Verif Require ConfigSamples.
Import ListNotations.
Open Scope Z_scope.
Open Scope list_scope.

Definition meddler : build :=
  mk_build true true (fun l => if beq l (str "set timers" ++ [13]) then CSet [str "timers"]
                               else if beq l (str "sse hi" ++ [13]) then CSse (str "hi") else CBad).
Lemma meddler_ok : build_ok meddler.
Proof.
  intros l _. cbn [bd_parse meddler]. destruct (beq l _); [cbn [command_bytes]; constructor; [apply str_is_byte; reflexivity|constructor]|].
  destruct (beq l _); [apply str_is_byte; reflexivity|exact Logic.I].
Qed.
Definition keyboard2 : list devent :=
  bytes_at 1000 (frame_of groups_a) ++ [DHttp (at_ms 2000) (ask "/tic")] ++
  bytes_at 31000 (frame_of groups_b ++ [27] ++ str "set timers" ++ [13]) ++
  bytes_at 32000 ([27] ++ str "sse hi" ++ [13]) ++ bytes_at 70000 (frame_of groups_c).
Definition without2 : list devent :=
  bytes_at 1000 (frame_of groups_a) ++ [DHttp (at_ms 2000) (ask "/tic")] ++
  bytes_at 31000 (frame_of groups_b) ++ bytes_at 70000 (frame_of groups_c).
Definition lines2 : list (list Z) := [str "set timers" ++ [13]; str "sse hi" ++ [13]].
Lemma keyboard2_ordinary : Forall ordinary_event keyboard2.
Proof.
  unfold keyboard2. rewrite !Forall_app. repeat split; try (apply bytes_ordinary; vm_compute; reflexivity);
    repeat constructor; cbn; try lia; discriminate.
Qed.
Lemma keyboard2_env : Forall (same_env env0) keyboard2.
Proof. unfold keyboard2, bytes_at. rewrite !Forall_app, !Forall_map. repeat split; repeat constructor; apply Forall_forall; intros; reflexivity. Qed.
Lemma keyboard2_removed : keyboard_removed true keyboard2 without2 lines2.
Proof.
  assert (L : exists s meter, cli_listen (serial_at 0 keyboard2) cli_init = (s, meter, lines2) /\ without2 = only meter 0 keyboard2).
  { do 2 eexists. split; [vm_compute; reflexivity|vm_compute; reflexivity]. }
  destruct L as (s & meter & L & E). exists meter. split; [|exact E].
  exact (proj1 (listen_spec _ (serial_bytes _ 0 keyboard2_ordinary)) _ _ _ L).
Qed.
Lemma keyboard2_run : forall v ee,
  match lrun 256 meddler (map (fun p => Event (fst p) (snd p)) (with_raw keyboard2)) (On (dev_at v ee) cli_init) with
  | Done (On d cl, os) => Some (map fst (requests (effects_of os)), commands_of os,
      hd [] (texts_to 0 (flat_map (fun o => match o with Streaming e => [e] | _ => [] end) (skipn 6 (effects_of os)))))
  | _ => None
  end = Some ([PTEC; HAUT; ADPS; EMONCMS; BAS; NORM; EMONCMS], lines2, event_text (str "hi")).
Proof. intros v ee. vm_compute. reflexivity. Qed.
Lemma without2_run : forall v ee, result (fun d os => map fst (requests (List.concat os))) (drun 256 true without2 (dev_at v ee)) =
  Some [PTEC; HAUT; ADPS; EMONCMS; BAS; NORM; MAJ; EMONCMS].
Proof. intros v ee. vm_compute. reflexivity. Qed.
Lemma sitting2 : exists d cl os d0 acts d' outs,
  lrun 256 meddler ([] ++ started start1 (with_raw keyboard2)) (Off (b_flash start1)) = Done (On d cl, os) /\
  commands_of (skipn 1 os) = lines2 /\ map fst (requests (effects_of (skipn 1 os))) = [PTEC; HAUT; ADPS; EMONCMS; BAS; NORM; EMONCMS] /\
  boot start1 = Some (d0, acts) /\ drun 256 true without2 d0 = Done (d', outs) /\
  map fst (requests (List.concat outs)) = [PTEC; HAUT; ADPS; EMONCMS; BAS; NORM; MAJ; EMONCMS].
Proof.
  destruct boot1_flash as (v & ee & B & E). assert (X := keyboard2_run v ee). assert (Y := without2_run v ee).
  destruct (lrun 256 meddler (map (fun p => Event (fst p) (snd p)) (with_raw keyboard2)) (On (dev_at v ee) cli_init)) as [[m os]| |] eqn:R; try discriminate X.
  destruct m as [f|d cl]; [discriminate X|].
  assert (X1 : map fst (requests (effects_of os)) = [PTEC; HAUT; ADPS; EMONCMS; BAS; NORM; EMONCMS]) by congruence.
  assert (X2 : commands_of os = lines2) by congruence. clear X.
  destruct (result_ok _ _ _ _ _ Y) as (d' & outs & Rd & Q).
  exists d, cl, (map Radio [StationMode; AutoReconnect] :: os), (dev_at v ee), [StationMode; AutoReconnect], d', outs.
  split; [|split; [exact X2|split; [exact X1|split; [exact B|split; [exact Rd|exact Q]]]]]. unfold started. cbn [app].
  exact (LifeSamples.run_cons _ _ _ _ _ _ _ _ _ (power_on 256 meddler (Off (b_flash start1)) start1 _ _ eq_refl B) R).
Qed.

(** The last bytes of the two commands. *)
Definition open_stream : list devent := [DHttp (at_ms 2000) (ask "/tic")] ++ bytes_at 3000 ([27] ++ str "sse hi").
Definition half_line : list devent := bytes_at 3000 ([27] ++ str "set timers").
Lemma ordinary_half : Forall ordinary_event open_stream /\ Forall ordinary_event half_line.
Proof.
  split; unfold open_stream, half_line; rewrite ?Forall_app; repeat split; try (apply bytes_ordinary; vm_compute; reflexivity); repeat constructor; cbn; try lia; discriminate.
Qed.
Definition last_byte : levent := Event (DByte (at_ms 3000) (fun _ => true) now0 13) raw0.
Lemma open_run : forall v ee,
  match lrun 256 meddler (map (fun p => Event (fst p) (snd p)) (with_raw open_stream)) (On (dev_at v ee) cli_init) with
  | Done (On d cl, os) => Some (sse_list (d_sse d), match lstep 256 meddler last_byte (On d cl) with Done (_, o) => o | _ => [] end)
  | _ => None
  end = Some ([0%nat], [Command (str "sse hi" ++ [13]); Did (Streaming (SentTo 0 (event_text (str "hi"))))]).
Proof. intros v ee. vm_compute. reflexivity. Qed.
Lemma half_run : forall v ee,
  match lrun 256 meddler (map (fun p => Event (fst p) (snd p)) (with_raw half_line)) (On (dev_at v ee) cli_init) with
  | Done (On d cl, os) => Some (match lstep 256 meddler last_byte (On d cl) with Done (On d' _, o) => Some (map (fun t => tm_start (t (d_tm d'))) [t_http; t_emoncms], o) | _ => None end)
  | _ => None
  end = Some (Some ([3000; 3000], [Command (str "set timers" ++ [13])])).
Proof. intros v ee. vm_compute. reflexivity. Qed.
Lemma typing2 : forall es, (forall v ee, exists d cl os, lrun 256 meddler (map (fun p => Event (fst p) (snd p)) (with_raw es)) (On (dev_at v ee) cli_init) = Done (On d cl, os)) ->
  exists v ee d cl os, lrun 256 meddler (started start1 (with_raw es)) (Off (b_flash start1)) = Done (On d cl, map Radio [StationMode; AutoReconnect] :: os) /\
    lrun 256 meddler (map (fun p => Event (fst p) (snd p)) (with_raw es)) (On (dev_at v ee) cli_init) = Done (On d cl, os).
Proof.
  intros es H. destruct boot1_flash as (v & ee & B & _). destruct (H v ee) as (d & cl & os & R). exists v, ee, d, cl, os. split; [|exact R].
  unfold started. exact (LifeSamples.run_cons _ _ _ _ _ _ _ _ _ (power_on 256 meddler (Off (b_flash start1)) start1 _ _ eq_refl B) R).
Qed.
Lemma typed_sse : exists d cl os m, lrun 256 meddler (started start1 (with_raw open_stream)) (Off (b_flash start1)) = Done (On d cl, os) /\
  sse_list (d_sse d) = [0%nat] /\
  lstep 256 meddler last_byte (On d cl) = Done (m, [Command (str "sse hi" ++ [13]); Did (Streaming (SentTo 0 (event_text (str "hi"))))]).
Proof.
  destruct (typing2 open_stream) as (v & ee & d & cl & os & R & R1).
  { intros v ee. assert (X := open_run v ee). destruct (lrun 256 meddler _ _) as [[[f|d cl] os]| |]; try discriminate X. eauto. }
  assert (X := open_run v ee). rewrite R1 in X. destruct (lstep 256 meddler last_byte (On d cl)) as [[m o]| |] eqn:S; [|discriminate X|discriminate X].
  assert (X1 : sse_list (d_sse d) = [0%nat]) by congruence.
  assert (X2 : o = [Command (str "sse hi" ++ [13]); Did (Streaming (SentTo 0 (event_text (str "hi"))))]) by congruence.
  exists d, cl, (map Radio [StationMode; AutoReconnect] :: os), m. rewrite S, X2. auto.
Qed.
Lemma typed_timers : exists d cl os d' cl', lrun 256 meddler (started start1 (with_raw half_line)) (Off (b_flash start1)) = Done (On d cl, os) /\
  lstep 256 meddler last_byte (On d cl) = Done (On d' cl', [Command (str "set timers" ++ [13])]) /\
  map (fun t => tm_start (t (d_tm d'))) [t_http; t_emoncms] = [3000; 3000].
Proof.
  destruct (typing2 half_line) as (v & ee & d & cl & os & R & R1).
  { intros v ee. assert (X := half_run v ee). destruct (lrun 256 meddler _ _) as [[[f|d cl] os]| |]; try discriminate X. eauto. }
  assert (X := half_run v ee). rewrite R1 in X. destruct (lstep 256 meddler last_byte (On d cl)) as [[[f|d' cl'] o]| |] eqn:S; try discriminate X.
  assert (X1 : map (fun t => tm_start (t (d_tm d'))) [t_http; t_emoncms] = [3000; 3000]) by congruence.
  assert (X2 : o = [Command (str "set timers" ++ [13])]) by congruence.
  exists d, cl, (map Radio [StationMode; AutoReconnect] :: os), d', cl'. rewrite S, X2. auto.
Qed.
