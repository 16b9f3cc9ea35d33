(** The life of a module: bytes, commands, requests, uploads, restarts and power cuts. *)
From Coq Require Import ZArith List Bool Lia.
From Verif Require Import Base BaseFacts Teleinfo TeleinfoSpec Publish HistorySpec Config ConfigSpec ConfigHist Json JsonBuild Tic TicSpec Pages PagesSpec
  Sse SseSpec Cpu Web Wifi Device WebSpec WebProofs DeviceProofs DeviceMain DeviceSafe DeviceFinal DevicePages Samples SamplesFacts TicSamples WebSamples
  Cli CliSpec CliProofs Life LifeSpec LifeProofs LifeMain LifeFinal LifeSamples.
From Verif Require ConfigSamples.
Import ListNotations.
Open Scope Z_scope.

(** C65. Whatever the flash holds at first, however often and whenever the module is switched off and on, whatever comes
    on the serial port (commands included), from browsers and in uploads: no undefined behaviour and no endless loop,
    under the conditions of C57. *)
Theorem C65_whole_life_partial : forall fuel bd flash es, build_ok bd -> flash_ok flash -> Forall ordinary_life es -> (256 <= fuel)%nat ->
  (exists m os, lrun fuel bd es (Off flash) = Done (m, os)) \/
  exists es1 es2 d cl os, es = es1 ++ es2 /\ lrun fuel bd es1 (Off flash) = Done (On d cl, os) /\
    unterminated (text HUrl (cfg_of d)) = true.
Proof. exact c65. Qed.
Print Assumptions C65_whole_life_partial.
Example C65_case : build_ok talkative /\ flash_ok ConfigSamples.blank /\
  Forall ordinary_life (PowerOn start0 :: Event (DHttp around0 post_form) raw0 :: owner_restarts ++
    map (fun p => Event (fst p) (snd p)) (with_raw (hear (27 :: str "set wifi a b" ++ [13])))).
Proof.
  split; [exact talkative_ok|]. split; [exact ConfigSamples.blank_ok|]. constructor; [exact start0_ok|].
  rewrite app_comm_cons. apply Forall_app. split; [exact owner_ordinary|]. apply with_raw_ordinary. apply hear_ordinary. reflexivity.
Qed.

(** C66. Settings posted with "save" by a client that is not refused, and stored by the flash, are in use ever after,
    across any number of restarts and power cuts, as long as nothing writes them again - if they name a Wi-Fi network. *)
Theorem C66_saved_settings_last : forall fuel bd flash es1 d cl os1 a q raw es2 m o os2, build_ok bd -> flash_ok flash ->
  Forall ordinary_life (es1 ++ Event (DHttp a q) raw :: es2) ->
  lrun fuel bd es1 (Off flash) = Done (On d cl, os1) ->
  q_uri q = str "/config_form.json" -> ~ refused q d -> ticked (q_args q) "save" = true -> a_flash a = Stored ->
  lrun fuel bd (Event (DHttp a q) raw :: es2) (On d cl) = Done (m, o :: os2) ->
  Forall2 (leaves_settings bd) es2 os2 ->
  exists r, (r = true <-> restricted q d) /\ o = [Did (Reply 200 Text (str "OK"))] /\
    let s := after_form r (q_args q) (view (cfg_of d)) in
    (s_ssid s <> [] -> (forall chip, settings_at_start chip (flash_of m) s) /\
       match m with On d' _ => view (cfg_of d') = s | Off _ => True end).
Proof. exact c66. Qed.
Print Assumptions C66_saved_settings_last.
Example C66_case : exists d cl os1 d' cl' o os2, lrun 256 talkative [PowerOn start0] (Off ConfigSamples.blank) = Done (On d cl, os1) /\
  Forall ordinary_life ([PowerOn start0] ++ Event (DHttp around0 post_form) raw0 :: owner_restarts) /\
  ~ refused post_form d /\ ticked (q_args post_form) "save" = true /\ a_flash around0 = Stored /\
  lrun 256 talkative (Event (DHttp around0 post_form) raw0 :: owner_restarts) (On d cl) = Done (On d' cl', o :: os2) /\
  Forall2 (leaves_settings talkative) owner_restarts os2 /\ map (fun o => existsb restarts o) os2 = [true; false; false] /\
  s_ssid (after_form false (q_args post_form) (view (cfg_of d))) = str "home".
Proof.
  destruct (owner_life dev0 cli_init dev0_ok (Forall_nil _) dev0_login) as (d' & cl' & o & os2 & R & L & _ & _ & _ & Z).
  { assert (D := dev0_cs). unfold cfg_of. rewrite D. apply fresh_texts. }
  exists dev0, cli_init, [map Radio acts0], d', cl', o, os2. split; [exact (one_step _ _ _ _ _ _ (first_start _ _))|].
  split; [constructor; [exact start0_ok|exact owner_ordinary]|]. split; [exact (not_refused_open _ _ dev0_login)|].
  split; [reflexivity|]. split; [reflexivity|]. split; [exact R|]. split; [exact L|]. split; [exact Z|].
  exact (proj1 (owner_settings (view (cfg_of dev0)) false eq_refl)).
Qed.

(** C67. What the flash holds changes only by a form of a client that is not refused, a factory reset with full access, a
    command "set wifi", "set ap" or "esp reset", or a start whose settings (the factory ones if those stored are damaged)
    name no network. *)
Theorem C67_what_writes_the_settings : forall fuel bd flash es e m os m' o, build_ok bd -> flash_ok flash -> Forall ordinary_life (es ++ [e]) ->
  lrun fuel bd es (Off flash) = Done (m, os) -> lstep fuel bd e m = Done (m', o) ->
  flash_of m' = flash_of m \/
  (exists a q raw d cl, e = Event (DHttp a q) raw /\ m = On d cl /\
     (q_uri q = str "/config_form.json" /\ ~ refused q d \/ q_uri q = str "/factory_reset" /\ fully_allowed q d)) \/
  (exists line, In (Command line) o /\ writer (bd_parse bd line)) \/
  (exists b, e = PowerOn b /\ forall r, settings_at_start (b_chip b) (flash_of m) r -> s_ssid r = []).
Proof. exact c67_writes. Qed.
Print Assumptions C67_what_writes_the_settings.
(** A running module restarts only by /reset from a client that is not refused, /factory_reset with full access, or one of
    the commands "set wifi", "set ap", "esp reset", "esp restart". *)
Theorem C67_what_restarts : forall fuel bd e raw d cl flash o, ordinary_event e -> lstep fuel bd (Event e raw) (On d cl) = Done (Off flash, o) ->
  (exists a q, e = DHttp a q /\ (q_uri q = str "/reset" /\ ~ refused q d \/ q_uri q = str "/factory_reset" /\ fully_allowed q d)) \/
  exists line, In (Command line) o /\ restarter (bd_parse bd line).
Proof. exact c67_restarts. Qed.
Print Assumptions C67_what_restarts.
Example C67_case : forall d, lstep 256 talkative (Event (DByte around0 (fun _ => true) now0 13) raw0) (On d (mk_cli true (str "esp restart"))) =
  Done (Off (e_flash (c_ee (d_cs d))), [Command (str "esp restart" ++ [13]); Did RestartNow]) /\ ordinary_event (DByte around0 (fun _ => true) now0 13) /\
  restarter (bd_parse talkative (str "esp restart" ++ [13])).
Proof. intros d. split; [reflexivity|]. split; [split; [cbn; unfold is_byte; lia|exact I]|]. right. reflexivity. Qed.

(** C68. After any life, since the last start: the bytes that came divide into commands, which were carried out, and the
    bytes of the meter; /json shows the last valid frame in the latter (those that came during an upload being lost). *)
Theorem C68_json_after_a_life : forall fuel bd flash es b evs d cl os a q, build_ok bd -> flash_ok flash -> Forall ordinary_life (es ++ started b evs) ->
  lrun fuel bd (es ++ started b evs) (Off flash) = Done (On d cl, os) -> ~ refused q d -> q_uri q = str "/json" ->
  exists data r, hears (bd_cli bd) (map fst evs) data (commands_of (skipn (S (List.length es)) os)) /\ last_valid data r /\
    match r with
    | None => handle fuel a q d = Done (d, [Reply 200 Json (str "{}")])
    | Some (t0, bodies) => quotable (iso (a_env a) (tv_sec t0)) = true -> Forall json_ready (pairs_of (content bodies)) ->
        exists body, handle fuel a q d = Done (d, [Reply 200 Json body]) /\
          json_of body = Some (JObj ((str "timestamp", JStr (iso (a_env a) (tv_sec t0))) :: (str "seconds", JStr (seconds_text t0)) ::
            map (fun g => (fst g, json_value (snd g))) (pairs_of (content bodies))))
    end.
Proof. exact c68. Qed.
Print Assumptions C68_json_after_a_life.
(** C69. The command "tic" prints the time and the groups of that frame, one per line. *)
Theorem C69_command_tic : forall fuel bd flash es b evs d cl os a up tv c raw m l o, build_ok bd -> flash_ok flash -> Forall ordinary_life (es ++ started b evs) ->
  lrun fuel bd (es ++ started b evs) (Off flash) = Done (On d cl, os) ->
  is_byte c -> List.length raw = 350%nat -> lstep fuel bd (Event (DByte a up tv c) raw) (On d cl) = Done (m, Command l :: o) -> bd_parse bd l = CTic ->
  exists data r, hears (bd_cli bd) (map fst evs) data (commands_of (skipn (S (List.length es)) os)) /\ last_valid data r /\
    forall t0 gs, r = Some (t0, map enc_t gs) -> Forall good_t gs ->
    o = [Printed (iso (a_env a) (tv_sec t0) ++ [13; 10] ++ concat (map (fun x => line (TeleinfoSpec.shown (snd x))) gs) ++ [13; 10])].
Proof. exact c69. Qed.
Print Assumptions C69_command_tic.

(** A command typed in the middle of a frame, then an upload, then "tic" without its end of line. *)
Definition c68_bytes : list Z := frame_of [(str "PAPP", str "00100"); (str "PTEC", str "HP..")].
Definition c68_history : list devent :=
  hear (firstn 9 c68_bytes ++ [27] ++ str "tic" ++ [13] ++ skipn 9 c68_bytes) ++ [DUpload around0 (UpStart (str "firmware.bin") 10 true true)] ++
  hear (frame_of [(str "PAPP", str "00200")]) ++ [DUpload around0 (UpWrite (str "abc") false true)] ++ hear ([27] ++ str "tic").
Lemma c68_ordinary : Forall ordinary_event c68_history /\ Forall no_request c68_history.
Proof.
  unfold c68_history. split; repeat (apply Forall_app; split); try (apply hear_ordinary; vm_compute; reflexivity); repeat constructor.
Qed.
Lemma c68_hears : hears true c68_history (ev c68_bytes) [str "tic" ++ [13]].
Proof.
  assert (B : Forall is_byte (map snd (arrivals false c68_history))) by (apply arrivals_bytes; apply c68_ordinary).
  assert (L : exists s data, cli_listen (arrivals false c68_history) cli_init = (s, data, [str "tic" ++ [13]]) /\ not_lost data = ev c68_bytes).
  { do 2 eexists. split; [vm_compute; reflexivity|vm_compute; reflexivity]. }
  destruct L as (s & data & L & E). exists data. split; [exact (proj1 (listen_spec _ B) _ _ _ L)|]. symmetry. exact E.
Qed.
Example C68_case : build_ok only_tic /\ flash_ok ConfigSamples.blank /\ Forall ordinary_life ([] ++ started start0 (with_raw c68_history)) /\
  exists d cl os, lrun 256 only_tic ([] ++ started start0 (with_raw c68_history)) (Off ConfigSamples.blank) = Done (On d cl, os) /\
    ~ refused (ask "/json") d /\ hears true (map fst (with_raw c68_history)) (ev c68_bytes) [str "tic" ++ [13]] /\
    c68_bytes = frame_bytes (map enc_t [(32, (str "PAPP", str "00100")); (32, (str "PTEC", str "HP.."))]) /\
    valid_frame (map enc_t [(32, (str "PAPP", str "00100")); (32, (str "PTEC", str "HP.."))]).
Proof.
  split; [exact only_tic_ok|]. split; [exact ConfigSamples.blank_ok|].
  split; [constructor; [exact start0_ok|apply with_raw_ordinary, c68_ordinary]|].
  destruct (quiet_start c68_history (proj1 c68_ordinary) (proj2 c68_ordinary)) as (d & cl & os & R & U & _ & _). exists d, cl, os.
  split; [exact R|]. split; [exact (not_refused_open _ _ U)|]. rewrite fst_with_raw. split; [exact c68_hears|]. split; [reflexivity|].
  apply valid_frameb_spec. vm_compute. reflexivity.
Qed.
Example C69_case : exists d cl os o, lrun 256 only_tic ([] ++ started start0 (with_raw c68_history)) (Off ConfigSamples.blank) = Done (On d cl, os) /\
  lstep 256 only_tic (Event (DByte around0 (fun _ => true) now0 13) raw0) (On d cl) = Done (On d cli_init, Command (str "tic" ++ [13]) :: o) /\
  bd_parse only_tic (str "tic" ++ [13]) = CTic /\
  (let gs := [(32, (str "PAPP", str "00100")); (32, (str "PTEC", str "HP.."))] in
   Forall good_t gs /\ concat (map (fun x => line (TeleinfoSpec.shown (snd x))) gs) = str "PAPP 00100" ++ [10] ++ str "PTEC HP" ++ [10]).
Proof.
  destruct (quiet_start c68_history (proj1 c68_ordinary) (proj2 c68_ordinary)) as (d & cl & os & R & U & M & _).
  assert (L : exists data cmds, cli_listen (arrivals false c68_history) cli_init = (mk_cli true (str "tic"), data, cmds)).
  { do 2 eexists. vm_compute. reflexivity. }
  destruct L as (data & cmds & L). assert (C := typed_so_far _ _ _ _ _ _ _ (proj1 c68_ordinary) R L). subst cl.
  destruct (end_of_tic d (proj1 M)) as (o & E). exists d, (mk_cli true (str "tic")), os, o. split; [exact R|]. split; [exact E|]. split; [reflexivity|].
  split; [apply goods_spec; reflexivity|reflexivity].
Qed.
