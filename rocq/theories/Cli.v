(** Model of src/cli.cpp: the serial command line. The command interpreter itself (library SimpleCLI) is not modelled: a
    complete line is what it is given. *)
From Coq Require Import ZArith List Bool Lia.
From Verif Require Import Base Config Teleinfo.
Import ListNotations.
Open Scope Z_scope.

(** cli_mode and cli_input, src/cli.cpp:35-36 *)
Record cli := mk_cli { cl_mode : bool; cl_input : list Z }.
Definition cli_init : cli := mk_cli false [].

(** cli_loop_read when a byte [c] is available, src/cli.cpp:271-304: the value returned (-1: nothing for the
    teleinformation) and the line handed to cli.parse. Echo and prompt on the serial output are in
    Terminal.v; the blinking LED is in Blink.v. Serial.read() returns a number from 0 to 255 since a byte is available. *)
Definition cli_loop_read (c : Z) (s : cli) : cli * Z * option (list Z) :=
  if (c =? 9) || (c =? 27) || (c =? 96) then (mk_cli true (cl_input s), -1, None)
  else if cl_mode s && (0 <=? c) && (c <=? 255) then
    let line := cl_input s ++ [c] in
    if (c =? 10) || (c =? 13) || (128 <=? length line)%nat
    then (mk_cli false [], -1, Some line)
    else (mk_cli true line, -1, None)
  else (s, c, None).

(** The last lines of loop, src/main.cpp:96-109, for every byte received: the bytes given to tic_decode (each with
    whatever comes with it, as the time of its arrival) and the commands, in order. *)
Fixpoint cli_listen {T} (es : list (T * Z)) (s : cli) : cli * list (T * Z) * list (list Z) :=
  match es with
  | [] => (s, [], [])
  | (t, b) :: r =>
      let '(s1, c, cmd) := cli_loop_read b s in
      let '(s2, out, cmds) := cli_listen r s1 in
      (s2, (if negb (c =? -1) then (t, c) :: out else out),
           match cmd with Some l => l :: cmds | None => cmds end)
  end.

(** ** cli_eeprom_dump, src/cli.cpp:306-341: what is printed. Serial.println() ends a line with CR LF. *)

(** printf "%04X", "%02X" of a non-negative number *)
Definition hex_pad (k : nat) (n : Z) : list Z := pad0 k (hex n).

(** the loop; [j] bytes are already on the line *)
Fixpoint dump_loop (n i j per_row : nat) (e : eeprom) : option (list Z) :=
  match n with
  | O => Some []
  | S n' =>
      b <- rd (e_buf e) i ;;
      let head := if (j =? 0)%nat then hex_pad 4 (Z.of_nat i) ++ str " : " else [] in
      let one := head ++ hex_pad 2 b ++ [32] in
      if (per_row <=? S j)%nat
      then (r <- dump_loop n' (S i) 0 per_row e ;; Some (one ++ [13; 10] ++ r))
      else (r <- dump_loop n' (S i) (S j) per_row e ;; Some (one ++ r))
  end.
Definition eeprom_dump (per_row : Z) (size : nat) (e : eeprom) : option (list Z) :=
  let k := if u8 per_row =? 0 then 16 else u8 per_row in
  r <- dump_loop size 0 0 (Z.to_nat k) e ;;
  Some ([13; 10] ++ r).
(** The command "dump", src/cli.cpp:80-82 *)
Definition cli_dump (s : cstate) : option (list Z) := eeprom_dump 16 1024 (c_ee s).
