(** Model of tools/cli.py: the terminal used to type commands to a module and to send it simulated frames. *)
From Coq Require Import ZArith List Bool Lia.
From Verif Require Import Base Simu.
Import ListNotations.
Open Scope Z_scope.

(** The attributes alive and pause_tic of Miniterm, and the meter of tools/simutic.py. *)
Record console := mk_con { con_alive : bool; con_pause : bool; con_meter : simu }.

(** What happens: a key (a Unicode character read on the standard input, Enter being LF) or the end of the input; the thread Periodic wakes
    up; the measures of the simulated meter change (they depend on the clock and on random numbers). *)
Inductive con_event := Key (c : Z) | EndOfInput | Tick | Measures (hchc hchp iinst papp : Z).

(** Console.getkey, tools/cli.py:112-116 *)
Definition getkey (c : Z) : Z := if c =? 127 then 8 else c.
(** CRLF.tx (Colorize.tx changes nothing) and the encoder "ascii" with errors="replace", tools/cli.py:144-148, 339-342, 506-508 *)
Definition tx (c : Z) : list Z := if c =? 10 then [13; 10] else [if c <? 128 then c else 63].

(** send_tic, tools/cli.py:417-424; an exception of trame() ends the program. *)
Definition send_tic (k : console) : console * list Z :=
  match trame (con_meter k) with Some b => (k, b) | None => (mk_con false (con_pause k) (con_meter k), []) end.
Definition switched (w : what) (k : console) : console := mk_con (con_alive k) (con_pause k) (bascule w (con_meter k)).

(** writer, tools/cli.py:360-411, send_tic_periodic, :413-415: the bytes written on the serial port. Each call of serial.write is taken as
    atomic. ord("") raises an exception at the end of the input. *)
Definition con_step (e : con_event) (k : console) : console * list Z :=
  if con_alive k then
    match e with
    | Tick => if con_pause k then (k, []) else send_tic k
    | Measures c p i a =>
        let m := con_meter k in
        (mk_con true (con_pause k) (mk_sim (sm_creuses m) c p i a (sm_adps m) (sm_adco m) (sm_pseuil m)), [])
    | EndOfInput => (mk_con false (con_pause k) (con_meter k), [])
    | Key key =>
        let c := getkey key in
        if c =? 20 then send_tic k
        else if c =? 25 then (mk_con true (negb (con_pause k)) (con_meter k), [])
        else if c =? 16 then send_tic (switched Tariff k)
        else if c =? 1 then send_tic (switched Overload k)
        else if c =? 4 then send_tic (switched Threshold k)
        else if c =? 3 then (mk_con false (con_pause k) (con_meter k), [])
        else (k, tx c)
    end
  else (k, []).
Fixpoint con_run (es : list con_event) (k : console) : console * list Z :=
  match es with
  | [] => (k, [])
  | e :: r => let '(k1, b) := con_step e k in let '(k2, bs) := con_run r k1 in (k2, b ++ bs)
  end.
(** main, tools/cli.py:466-518: the option -a starts the automatic frames. *)
Definition con_start (automatic : bool) : console := mk_con true (negb automatic) sim_init.
