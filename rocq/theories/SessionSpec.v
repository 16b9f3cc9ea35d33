(** Specification: what remains of the events of a module when what is typed on its serial port is taken away. *)
From Coq Require Import ZArith List Bool.
From Verif Require Import Base Config Tic Web Device Cli CliSpec Life LifeSpec.
Import ListNotations.
Open Scope Z_scope.

(** The bytes of the serial port, each with the position of its event, from [n] on. *)
Fixpoint serial_at (n : nat) (es : list devent) : list (nat * Z) :=
  match es with
  | [] => []
  | DByte _ _ _ c :: r => (n, c) :: serial_at (S n) r
  | _ :: r => serial_at (S n) r
  end.
(** All the events, except the bytes of the serial port whose position is not in [l]. *)
Fixpoint only (l : list (nat * Z)) (n : nat) (es : list devent) : list devent :=
  match es with
  | [] => []
  | e :: r =>
      match e with
      | DByte _ _ _ _ => if existsb (fun p => Nat.eqb (fst p) n) l then e :: only l (S n) r else only l (S n) r
      | _ => e :: only l (S n) r
      end
  end.
(** Among the events [es], the commands typed are [commands]; [rest]: the events without the bytes typed. A program built without
    the command line gives everything to the decoder. *)
Definition keyboard_removed (with_cli : bool) (es rest : list devent) (commands : list (list Z)) : Prop :=
  if with_cli then exists meter, session (serial_at 0 es) meter commands /\ rest = only meter 0 es
  else rest = es /\ commands = [].

(** The commands that act on the streams or on the timers. *)
Definition meddles (c : command) : Prop :=
  match c with
  | CSse _ => True
  | CSet (what :: _) => what = str "timers"
  | _ => False
  end.

(** The effects of the module, among what happens. *)
Definition effects_of (os : list (list happening)) : list out :=
  flat_map (fun h => match h with Did o => [o] | _ => [] end) (concat os).
(** The start [b] with the flash as it was left. *)
Definition on_flash (f : list Z) (b : start) : start :=
  mk_start (b_chip b) (b_mem b) f (b_o1 b) (b_o2 b) (b_o3 b) (b_status b) (b_ssid b) (b_psk b) (b_now b) (b_g1 b) (b_g2 b).
