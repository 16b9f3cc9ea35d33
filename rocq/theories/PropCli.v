(** Property theorems C49, C61-C64: serial command line (src/cli.cpp, src/main.cpp) and simulated meter (tools/simutic.py). *)
From Coq Require Import ZArith List Bool Lia.
From Verif Require Import Base BaseFacts Config ConfigSpec ConfigProofs ConfigMain ConfigHist Teleinfo TeleinfoSpec Samples SamplesFacts
  Cli CliSpec CliProofs CliDumpProofs EraseProofs Simu SimuSpec SimuProofs.
From Verif Require ConfigSamples.
Import ListNotations.
Open Scope Z_scope.

(** ** C49: commands and teleinformation on the same line *)

(** Whatever is received, the bytes divide in exactly one way into bytes of the meter and commands; the decoder gets the
    former, unchanged and in order, and the interpreter the latter. *)
Theorem C49_session : forall es : list event, Forall is_byte (map snd es) -> exists s data cmds,
  cli_listen es cli_init = (s, data, cmds) /\ session es data cmds /\
  forall data' cmds', session es data' cmds' -> data' = data /\ cmds' = cmds.
Proof. exact c49. Qed.
Print Assumptions C49_session.

Theorem C49_commands_are_short : forall (es : list event) s data cmds, Forall is_byte (map snd es) ->
  cli_listen es cli_init = (s, data, cmds) -> Forall (fun l => (1 <= length l <= 128)%nat) cmds.
Proof. exact listen_short. Qed.
Print Assumptions C49_commands_are_short.

(** Without TAB, ESC or back quote everything reaches the decoder. *)
Theorem C49_meter_alone : forall es : list event, Forall is_byte (map snd es) ->
  (forall c, In c (map snd es) -> c <> 9 /\ c <> 27 /\ c <> 96) ->
  exists s, cli_listen es cli_init = (s, es, []).
Proof. exact listen_plain. Qed.
Print Assumptions C49_meter_alone.

(** A command typed between two frames (or anywhere) removes only its own bytes. *)
Theorem C49_command_leaves_the_rest : forall (before : list event) t o body t' last after,
  Forall is_byte (map snd (before ++ (t, o) :: body ++ (t', last) :: after)) ->
  (forall c, In c (map snd (before ++ after)) -> c <> 9 /\ c <> 27 /\ c <> 96) ->
  (o = 9 \/ o = 27 \/ o = 96) -> (last = 10 \/ last = 13) -> (length body < 127)%nat ->
  (forall c, In c (map snd body) -> c <> 10 /\ c <> 13 /\ c <> 9 /\ c <> 27 /\ c <> 96) ->
  exists s, cli_listen (before ++ (t, o) :: body ++ (t', last) :: after) cli_init =
    (s, before ++ after, [map snd body ++ [last]]).
Proof. exact listen_command. Qed.
Print Assumptions C49_command_leaves_the_rest.

(** A line that is too long is executed after 128 characters: the rest of it reaches the decoder. *)
Example C49_case :
  let es := ev (frame_bytes (map enc_t (firstn 9 meter)) ++ [27] ++ str "esp" ++ [9] ++ str " restart" ++ [13] ++ [2; 10] ++
                [96] ++ repeat 65 130) in
  exists s, cli_listen es cli_init =
    (s, ev (frame_bytes (map enc_t (firstn 9 meter)) ++ [2; 10] ++ [65; 65]), [str "esp restart" ++ [13]; repeat 65 128]).
Proof. eexists. vm_compute. reflexivity. Qed.

(** ** C61: the command "esp reset" *)

(** In every state, and whatever the flash does (all written, power cut after any number of bytes): the next start uses
    the factory settings; or, if the sector could not even be erased, nothing has changed. *)
Theorem C61_erase : forall o s, reachable s -> exists s', cli_erase o s = Some s' /\
  ((forall chip, settings_at_start chip (e_flash (c_ee s')) (factory chip)) \/
   (o = NotErased /\ e_flash (c_ee s') = e_flash (c_ee s))).
Proof. exact c61. Qed.
Print Assumptions C61_erase.

Example C61_case : reachable ConfigSamples.posted1 /\ s_ssid (view (c_cfg ConfigSamples.posted1)) = str "home".
Proof. split; [exact ConfigSamples.posted1_reachable|]. rewrite ConfigSamples.posted1_view. vm_compute. reflexivity. Qed.

(** ** C62: the command "dump" *)

(** 64 lines; line r shows the address 16 r and the 16 bytes of the EEPROM at this address. *)
Theorem C62_dump : forall s, reachable s -> exists lines, cli_dump s = Some ([13; 10] ++ concat lines) /\ length lines = 64%nat /\
  forall r, (r < 64)%nat -> dump_line (16 * Z.of_nat r) (slice (16 * r) 16 (e_buf (c_ee s))) (nth r lines []).
Proof. exact c62. Qed.
Print Assumptions C62_dump.

Example C62_case : reachable ConfigSamples.posted1 /\
  dump_line 16 (str "ABC") (str "0010 : 41 42 43 " ++ [13; 10]).
Proof.
  split; [exact ConfigSamples.posted1_reachable|]. exists (str "0010"), [str "41"; str "42"; str "43"].
  split; [exact (hex_pad_shows 4 16 ltac:(lia) ltac:(cbn; lia))|]. split; [|reflexivity].
  constructor; [exact (hex_pad_shows 2 65 ltac:(lia) ltac:(cbn; lia))|].
  constructor; [exact (hex_pad_shows 2 66 ltac:(lia) ltac:(cbn; lia))|].
  constructor; [exact (hex_pad_shows 2 67 ltac:(lia) ltac:(cbn; lia))|constructor].
Qed.

(** ** C63: the simulated meter *)

(** After any use of the simulator, the frame it sends is accepted by the decoder in any state, and the groups read are
    those of [told_groups]: the last measures, the last meter number, the tariff and the threshold after their switches, ADPS
    exactly when there is an overload. *)
Theorem C63_simulated_frames : forall es sgn garbage pre, Forall sim_event_ok es ->
  length garbage = 350%nat -> Forall is_byte (map snd pre) ->
  exists bs, trame (sim_history es) = Some bs /\ hd_error bs = Some 2 /\
    forall t0 rest, map snd ((t0, 2) :: rest) = bs ->
    exists d, run sgn (pre ++ (t0, 2) :: rest) (dec_init garbage) = Some d /\ ready d = true /\ d_ts d = t0 /\
      all_pairs (d_frame d) (d_size d) = Some (told_groups es).
Proof. exact c63_all. Qed.
Print Assumptions C63_simulated_frames.

Example C63_case : Forall sim_event_ok [SetAdco (str "42"); Bascule Overload; Bascule Threshold; Bascule Tariff; Measure 7 52000001 20 4600] /\
  told_groups [SetAdco (str "42"); Bascule Overload; Bascule Threshold; Bascule Tariff; Measure 7 52000001 20 4600] =
  [ (str "ADCO", str "000000000042"); (str "OPTARIF", str "HC"); (str "ISOUSC", str "30"); (str "HCHC", str "000000007");
    (str "HCHP", str "052000001"); (str "PTEC", str "HC"); (str "IINST", str "020"); (str "IMAX", str "042");
    (str "PAPP", str "08600"); (str "ADPS", str "031"); (str "HHPHC", str "D"); (str "MOTDETAT", str "000000") ].
Proof.
  split; [|vm_compute; reflexivity]. constructor; [apply char7b_spec; reflexivity|]. do 3 (constructor; [exact I|]).
  constructor; [cbn; lia|constructor].
Qed.

(** ** C64: every frame of the decoder is a frame of the module with the command line *)

(** True of every history in which TAB, ESC and back quote do not occur. *)
Theorem C64_no_command_character_partial : forall es sgn d, Forall is_byte (map snd es) ->
  (forall c, In c (map snd es) -> c <> 9 /\ c <> 27 /\ c <> 96) ->
  exists s data cmds, cli_listen es cli_init = (s, data, cmds) /\ run sgn data d = run sgn es d /\ cmds = [].
Proof. exact listen_decodes. Qed.
Print Assumptions C64_no_command_character_partial.

Example C64_case : forall c, In c (frame_bytes (map enc_t (firstn 9 meter))) -> c <> 9 /\ c <> 27 /\ c <> 96.
Proof.
  intros c H. assert (G : forallb (fun c => negb (opens c)) (frame_bytes (map enc_t (firstn 9 meter))) = true) by (vm_compute; reflexivity).
  rewrite forallb_forall in G. specialize (G c H). unfold opens in G. repeat split; intros ->; discriminate G.
Qed.

(** A frame the decoder would publish, in which one group uses TAB as separator, is lost: the end of this group is taken as
    a command. (The decoder accepts both separators, C02.) *)
Theorem C64_tab_separator_refuted : exists gs d d' s data cmds,
  Forall good_t gs /\ Forall is_byte (map snd (ev (frame_bytes (map enc_t gs)))) /\
  run true (ev (frame_bytes (map enc_t gs))) (dec_init blank) = Some d /\ ready d = true /\
  cli_listen (ev (frame_bytes (map enc_t gs))) cli_init = (s, data, cmds) /\ cmds = [str "D" ++ [88; 13]] /\
  run true data (dec_init blank) = Some d' /\ ready d' = false.
Proof.
  exists meter. do 5 eexists. split; [apply goods_spec; vm_compute; reflexivity|]. split; [apply bytesb_spec; vm_compute; reflexivity|].
  split; [vm_compute; reflexivity|]. split; [vm_compute; reflexivity|]. split; [vm_compute; reflexivity|].
  split; [vm_compute; reflexivity|]. split; [vm_compute; reflexivity|vm_compute; reflexivity].
Qed.
Print Assumptions C64_tab_separator_refuted.
