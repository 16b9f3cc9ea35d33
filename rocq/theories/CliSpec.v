(** Specification of the serial command line. *)
From Coq Require Import ZArith List Bool Lia.
From Verif Require Import Base Teleinfo.
Import ListNotations.
Open Scope Z_scope.

(** TAB, ESC and the back quote open a command; LF or CR closes it. *)
Definition opens (c : Z) : bool := (c =? 9) || (c =? 27) || (c =? 96).
Definition closes (c : Z) : bool := (c =? 10) || (c =? 13).

(** What is typed during a command: an opening character met there is ignored. *)
Definition typed {T} (es : list (T * Z)) : list Z := filter (fun c => negb (opens c)) (map snd es).

(** A command being typed: no end of line yet, fewer than 128 characters. *)
Definition unfinished (w : list Z) : Prop := (length w < 128)%nat /\ forallb (fun c => negb (closes c)) w = true.

(** [session es data commands]: how a sequence of received bytes divides into bytes of the meter and commands. Each
    byte comes with something, for instance the time of its arrival. *)
Inductive session {T} : list (T * Z) -> list (T * Z) -> list (list Z) -> Prop :=
| no_byte : session [] [] []
| meter_byte : forall t c r data commands, opens c = false ->
    session r data commands -> session ((t, c) :: r) ((t, c) :: data) commands
| command : forall t o body t' last r data commands, opens o = true -> unfinished (typed body) -> opens last = false ->
    closes last = true \/ length (typed body ++ [last]) = 128%nat ->
    session r data commands ->
    session ((t, o) :: body ++ (t', last) :: r) data ((typed body ++ [last]) :: commands)
| open_command : forall t o body, opens o = true -> unfinished (typed body) ->
    session ((t, o) :: body) [] [].

(** ** Hexadecimal text *)
Definition hex_char (c v : Z) : Prop := (48 <= c <= 57 /\ v = c - 48) \/ (65 <= c <= 70 /\ v = c - 55).
(** [shows k v t]: [t] is the number [v] on exactly [k] hexadecimal digits. *)
Fixpoint shows (k : nat) (v : Z) (t : list Z) : Prop :=
  match k, t with
  | O, [] => v = 0
  | S k', c :: t' => exists d, hex_char c d /\ shows k' (v - d * 16 ^ Z.of_nat k') t'
  | _, _ => False
  end.

(** A line of the dump: address of the first byte, the bytes, end of line. *)
Definition dump_line (addr : Z) (bs : list Z) (line : list Z) : Prop :=
  exists a cells, shows 4 addr a /\ Forall2 (shows 2) bs cells /\
    line = a ++ str " : " ++ concat (map (fun c => c ++ [32]) cells) ++ [13; 10].
