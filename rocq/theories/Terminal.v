(** Model of what tools/cli.py writes on the screen, and of what src/cli.cpp prints while a command is typed. *)
From Coq Require Import ZArith List Bool Lia.
From Verif Require Import Base Config Cli Simu Console.
Import ListNotations.
Open Scope Z_scope.

(** ** The screen *)

(** What happens to the terminal: bytes read on the serial port, or one of the events of Console.v, with the time of the day as
    send_tic writes it (if it does). *)
Inductive term_event := Read (data : list Z) | Local (stamp : list Z) (e : con_event).

(** Colorize, tools/cli.py:212-224 *)
Definition input_color : list Z := [27] ++ str "[36m".
Definition echo_color : list Z := [27] ++ str "[31m".
(** The decoder "ascii" with errors="replace", tools/cli.py:334-337, 506: a byte above 127 becomes U+FFFD. *)
Definition ascii_char (b : Z) : Z := if b <? 128 then b else 65533.
(** reader, tools/cli.py:344-358: the two transformations are Colorize, then CRLF, which changes nothing. Each call of console.write is taken
    as atomic. *)
Definition show_data (data : list Z) : list Z := match data with [] => [] | _ => input_color ++ map ascii_char data end.
(** send_tic, tools/cli.py:417-424: the message is written before the frame is sent. *)
Definition show_sent (stamp : list Z) : list Z := echo_color ++ stamp ++ str " trame TIC" ++ [10].
(** "%02x" of a number below 256 *)
Definition hex_digit (n : Z) : Z := if n <? 10 then 48 + n else 87 + n.
Definition hex02 (n : Z) : list Z := [hex_digit (n / 16); hex_digit (n mod 16)].
(** print("\033[36;2m<%02x>\033[0m" % ord(c)), tools/cli.py:397-398 *)
Definition show_control (c : Z) : list Z := [27] ++ str "[36;2m<" ++ hex02 c ++ str ">" ++ [27] ++ str "[0m" ++ [10].

(** writer and send_tic_periodic, tools/cli.py:360-415: what is written on the screen. *)
Definition show_local (stamp : list Z) (e : con_event) (k : console) : list Z :=
  match e with
  | Tick => if con_pause k then [] else show_sent stamp
  | Key key =>
      let c := getkey key in
      if (c =? 20) || (c =? 16) || (c =? 1) || (c =? 4) then show_sent stamp
      else if (c =? 25) || (c =? 3) then []
      else if c <? 32 then show_control c
      else []
  | Measures _ _ _ _ | EndOfInput => []
  end.
(** Once the program is stopped nothing more is shown (the thread that reads may in fact show what it is reading). *)
Definition term_step (e : term_event) (k : console) : console * list Z :=
  if con_alive k then
    match e with
    | Read data => (k, show_data data)
    | Local stamp e => (fst (con_step e k), show_local stamp e k)
    end
  else (k, []).
Fixpoint term_run (es : list term_event) (k : console) : console * list Z :=
  match es with
  | [] => (k, [])
  | e :: r => let '(k1, t) := term_step e k in let '(k2, ts) := term_run r k1 in (k2, t ++ ts)
  end.

(** ** The prompt and the echo *)

(** What cli_loop_read prints, src/cli.cpp:268-304; [answer]: what the command prints. *)
Definition cli_echo (c : Z) (s : cli) (answer : list Z) : list Z :=
  if (c =? 9) || (c =? 27) || (c =? 96) then str "$ "
  else if cl_mode s && (0 <=? c) && (c <=? 255) then
    [c] ++ (if (c =? 10) || (c =? 13) || (128 <=? length (cl_input s ++ [c]))%nat then answer ++ [13; 10] else [])
  else [].
(** For every byte received; [answer n l]: what the command number [n], the line [l], prints. *)
Fixpoint cli_says (answer : nat -> list Z -> list Z) (n : nat) (bs : list Z) (s : cli) : list Z :=
  match bs with
  | [] => []
  | b :: r =>
      let '(s1, _, cmd) := cli_loop_read b s in
      cli_echo b s (match cmd with Some l => answer n l | None => [] end)
      ++ cli_says answer (match cmd with Some _ => S n | None => n end) r s1
  end.
