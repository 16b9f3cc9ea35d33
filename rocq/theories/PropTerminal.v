(** Property theorems C112: the screen of the terminal (tools/cli.py), the prompt and the echo of the module (src/cli.cpp). *)
From Coq Require Import ZArith List Bool Lia.
From Verif Require Import Base Cli CliSpec Simu Console ConsoleSpec Terminal TerminalSpec TerminalProofs.
Import ListNotations.
Open Scope Z_scope.

(** C112. As long as the program runs, the user sees in order: what the module sent, in cyan; one red line by frame, with its time; each control
    character that they typed. Nothing else, and in these colours, however the bytes of the module come. *)
Theorem C112_screen : forall es automatic k t, term_run es (con_start automatic) = (k, t) -> con_alive k = true -> Forall quiet es ->
  screen t = to_be_seen (negb automatic) es.
Proof. exact c112_screen. Qed.
Print Assumptions C112_screen.
(** What is seen in cyan is what the module sent, whatever is typed and sent meanwhile. *)
Theorem C112_cyan : forall es automatic k t, term_run es (con_start automatic) = (k, t) -> con_alive k = true -> Forall quiet es ->
  written_in cyan (screen t) = map seen_byte (bytes_read es).
Proof. exact c112_cyan. Qed.
Print Assumptions C112_cyan.
(** The module prints a prompt when a command is opened, then the command as it is typed, its answer, and a new line. Nothing for a frame, nor
    for a key out of a command. *)
Theorem C112_echo : forall answer automatic es cs fs, dialogue (negb automatic) sim_init es cs fs ->
  exists tail, (tail = [] \/ exists w, tail = str "$ " ++ w /\ Forall printable w) /\
    cli_says answer 0 (snd (con_run es (con_start automatic))) cli_init = conversation answer 0 cs ++ tail.
Proof. exact c112_echo. Qed.
Print Assumptions C112_echo.
(** So the user sees in cyan the conversation, whole, and nothing else, whatever the frames sent in the course of it. *)
Theorem C112_conversation : forall answer automatic es cs fs tes k t,
  dialogue (negb automatic) sim_init es cs fs -> (forall n l, no_escape (answer n l)) ->
  Forall (fun e => match e with Local stamp (Key c) => no_escape stamp /\ 0 <= c | Local stamp _ => no_escape stamp | Read _ => True end) tes ->
  local_events tes = es -> bytes_read tes = cli_says answer 0 (snd (con_run es (con_start automatic))) cli_init ->
  term_run tes (con_start automatic) = (k, t) -> con_alive k = true ->
  exists tail, (tail = [] \/ exists w, tail = str "$ " ++ w /\ Forall printable w) /\
    written_in cyan (screen t) = map seen_byte (conversation answer 0 cs ++ tail).
Proof. exact c112_conversation. Qed.
Print Assumptions C112_conversation.

(** An escape character sent by the module (a setting may hold one) is not filtered: the same bytes are seen in other colours when they come in
    two parts, and a part of the text is not in cyan. *)
Definition coloured : list Z := str "A" ++ [27] ++ str "[0m" ++ str "BC".
Theorem C112_escape_refuted : exists es es' k t k' t', bytes_read es = bytes_read es' /\ local_events es = [] /\ local_events es' = [] /\
  term_run es (con_start false) = (k, t) /\ term_run es' (con_start false) = (k', t') /\
  written_in cyan (screen t) = str "A" /\ written_in cyan (screen t') = str "AC".
Proof.
  exists [Read coloured], [Read (firstn 6 coloured); Read (skipn 6 coloured)]. do 4 eexists. do 3 (split; [reflexivity|]).
  split; [reflexivity|]. split; [reflexivity|]. split; reflexivity.
Qed.
Print Assumptions C112_escape_refuted.
(** Backspace in a command is shown, and sent back by the module, but the letter stays in the command: the screen does not say what is run. *)
Theorem C112_backspace_refuted : exists s data,
  cli_listen (map (fun b => (tt, b)) (snd (con_run [Key 27; Key 108; Key 122; Key 127; Key 115; Key 10] (con_start false)))) cli_init =
    (s, data, [str "lz" ++ [8] ++ str "s" ++ [13]]) /\
  cli_says (fun _ _ => []) 0 (snd (con_run [Key 27; Key 108; Key 122; Key 127; Key 115; Key 10] (con_start false))) cli_init =
    str "$ lz" ++ [8] ++ str "s" ++ [13; 13; 10].
Proof. do 2 eexists. split; reflexivity. Qed.
Print Assumptions C112_backspace_refuted.

(** Automatic frames; the user stops them, types "ls", then DEL, and opens another command; the module answers "a" and a letter that is not ASCII. *)
Definition eight : list Z := str "08:00:00.123456".
Definition talk2 : list con_event := [Tick; Key 25; Key 27; Key 108; Tick; Key 115; Key 10; Key 127; Key 20; Key 9; Key 120].
Definition answer2 (n : nat) (l : list Z) : list Z := str "a" ++ [195; 169; 13; 10].
Definition seen2 : list term_event :=
  [Local eight Tick; Local [] (Key 25); Local [] (Key 27); Read (str "$ "); Local [] (Key 108); Local [] Tick; Read (str "l"); Local [] (Key 115);
   Local [] (Key 10); Read (str "s" ++ [13] ++ str "a" ++ [195]); Local [] (Key 127); Read [169; 13; 10]; Local eight (Key 20); Read [13; 10];
   Local [] (Key 9); Local [] (Key 120); Read (str "$ x")].
Example C112_case : dialogue (negb true) sim_init talk2 [str "ls"] [sim_init; sim_init] /\ (forall n l, no_escape (answer2 n l)) /\
  Forall quiet seen2 /\ local_events seen2 = talk2 /\ bytes_read seen2 = cli_says answer2 0 (snd (con_run talk2 (con_start true))) cli_init /\
  con_alive (fst (term_run seen2 (con_start true))) = true /\
  let s := screen (snd (term_run seen2 (con_start true))) in
  s = to_be_seen false seen2 /\
  written_in cyan s = str "$ ls" ++ [13] ++ str "a" ++ [65533; 65533; 13; 10; 13; 10] ++ str "$ x" /\
  written_in red s = str "08:00:00.123456 trame TIC" ++ [10] ++ str "08:00:00.123456 trame TIC" ++ [10] /\
  written_in faint s = str "<1b><0a><08><09>".
Proof.
  split; [|split].
  - unfold talk2. apply dg_automatic. apply dg_toggle. cbn [negb].
    apply (dg_command true sim_init 27 [Key 108; Tick; Key 115] (str "ls") sim_init [Key 127; Key 20; Key 9; Key 120] []); [reflexivity| |cbn; lia|].
    + change (str "ls") with [108; 115]. apply typing_char; [unfold printable; lia|]. apply typing_tick; [reflexivity|]. apply typing_char; [unfold printable; lia|]. apply typing_nothing.
    + apply dg_stray; [lia|reflexivity|unfold own_key; lia|]. apply dg_frame. apply (dg_unfinished true sim_init 9 [Key 120] [120] sim_init); [reflexivity| |cbn; lia].
      apply typing_char; [unfold printable; lia|]. apply typing_nothing.
  - intros n l. repeat constructor; discriminate.
  - split; [repeat constructor; try discriminate; lia|]. split; [reflexivity|]. split; [vm_compute; reflexivity|]. split; [vm_compute; reflexivity|].
    vm_compute. repeat split; reflexivity.
Qed.
