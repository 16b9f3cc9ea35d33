(** Property theorems C90: the terminal of tools/cli.py, the command line of the module (src/cli.cpp) and its decoder (src/teleinfo.h). *)
From Coq Require Import ZArith List Bool Lia.
From Verif Require Import Base BaseFacts Teleinfo TeleinfoSpec Samples Cli CliSpec Simu SimuSpec Console ConsoleSpec ConsoleProofs.
Import ListNotations.
Open Scope Z_scope.

(** C90. In the course of a dialogue (commands of printable characters, frames asked for, automatic frames, switches, stray keys), each command
    typed is run once, in order, and the decoder accepts each frame sent and nothing else. No automatic frame during a command. *)
Theorem C90_terminal_partial : forall automatic es commands frames sgn garbage stream,
  dialogue (negb automatic) sim_init es commands frames -> length garbage = 350%nat ->
  map snd stream = snd (con_run es (con_start automatic)) ->
  exists s data, cli_listen stream cli_init = (s, data, map (fun w => w ++ [13]) commands) /\
    accepted sgn data (dec_init garbage) = Some (map (fun m => Some (expected m)) frames).
Proof. exact c90. Qed.
Print Assumptions C90_terminal_partial.

(** An automatic frame during a command: another command is run, the frame is lost. *)
Theorem C90_frame_in_command_refuted : exists s data,
  cli_listen (ev (snd (con_run [Key 27; Key 108; Tick; Key 115; Key 10] (con_start true)))) cli_init = (s, data, [str "l" ++ [2; 10]]) /\
  accepted true data (dec_init blank) = Some [].
Proof.
  set (r := cli_listen (ev (snd (con_run [Key 27; Key 108; Tick; Key 115; Key 10] (con_start true)))) cli_init).
  exists (fst (fst r)), (snd (fst r)). split; vm_compute; reflexivity.
Qed.
Print Assumptions C90_frame_in_command_refuted.
(** The key Backspace does not correct: the wrong letter stays in the command, with a control character. *)
Theorem C90_backspace_refuted : exists s data,
  cli_listen (ev (snd (con_run [Key 27; Key 108; Key 122; Key 127; Key 115; Key 10] (con_start false)))) cli_init = (s, data, [str "lz" ++ [8] ++ str "s" ++ [13]]).
Proof. match goal with |- exists s data, ?l = _ => exists (fst (fst l)), (snd (fst l)) end. vm_compute. reflexivity. Qed.
Print Assumptions C90_backspace_refuted.
(** A character that is not ASCII (here e acute) becomes a question mark, without a word. *)
Theorem C90_accent_refuted : exists s data,
  cli_listen (ev (snd (con_run [Key 27; Key 99; Key 97; Key 102; Key 233; Key 10] (con_start false)))) cli_init = (s, data, [str "caf?" ++ [13]]).
Proof. match goal with |- exists s data, ?l = _ => exists (fst (fst l)), (snd (fst l)) end. vm_compute. reflexivity. Qed.
Print Assumptions C90_accent_refuted.

(** Automatic frames; the user stops them, types "ls" while the timer goes on, starts them again, switches the tariff, presses Enter twice and
    quits. *)
Definition talk1 : list con_event :=
  [Tick; Measures 52000001 49000000 3 690; Tick; Key 25; Key 27; Key 108; Tick; Key 115; Key 10; Key 25; Key 16; Key 10; Key 10; Tick; Key 3; Tick].
Definition meter1 : simu := with_measures 52000001 49000000 3 690 sim_init.
Definition sent1 : list simu := [sim_init; meter1; bascule Tariff meter1; bascule Tariff meter1].
Example C90_case : dialogue (negb true) sim_init talk1 [str "ls"] sent1 /\ length blank = 350%nat /\
  match cli_listen (ev (snd (con_run talk1 (con_start true)))) cli_init with
  | (_, data, cmds) => cmds = [str "ls" ++ [13]] /\ length data = 685%nat /\
      option_map (map (option_map (fun gs => nth 5 gs ([], [])))) (accepted true data (dec_init blank)) =
        Some [Some (str "PTEC", str "HP"); Some (str "PTEC", str "HP"); Some (str "PTEC", str "HC"); Some (str "PTEC", str "HC")]
  end.
Proof.
  split; [|split; [reflexivity|vm_compute; split; [reflexivity|split; reflexivity]]].
  unfold talk1, sent1. apply dg_automatic. apply dg_measures; [unfold measured; lia|]. fold meter1. apply dg_automatic. apply dg_toggle. cbn [negb].
  apply (dg_command true meter1 27 [Key 108; Tick; Key 115] (str "ls") meter1 [Key 25; Key 16; Key 10; Key 10; Tick; Key 3; Tick] []); [reflexivity| |cbn; lia|].
  - change (str "ls") with [108; 115]. apply typing_char; [unfold printable; lia|]. apply typing_tick; [reflexivity|]. apply typing_char; [unfold printable; lia|]. apply typing_nothing.
  - apply dg_toggle. cbn [negb]. apply (dg_switch false meter1 16 Tariff); [left; reflexivity|].
    do 2 (apply dg_stray; [lia|reflexivity|unfold own_key; lia|]). apply dg_automatic. apply dg_quit.
Qed.
