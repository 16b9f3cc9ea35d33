(** Specification for C115: what the LED shows during an update over the air. *)
From Coq Require Import ZArith List Bool.
From Verif Require Import Base Config Ota OtaLed.
Import ListNotations.
Open Scope Z_scope.

(** The effects apart from the LED; the changes of the LED. *)
Definition apart (o : list seen_out) : list out := flat_map (fun x => match x with Does y => [y] | Led _ => [] end) o.
Definition lights (o : list seen_out) : list bool := flat_map (fun x => match x with Led b => [b] | Does _ => [] end) o.

(** On, off, on, off ... : [n] times. *)
Fixpoint blinks (n : nat) (b : bool) : list bool := match n with O => [] | S k => b :: blinks k (negb b) end.
(** The pieces in which something was received. *)
Definition received (ps : list (list Z)) : nat := length (filter (fun p => negb (Nat.eqb (length p) 0)) ps).

(** The pieces of each image are those of the transfer. *)
Definition cut_in (x : event * list (list Z)) : Prop := match fst x with Handles _ _ image => image = concat (snd x) | _ => True end.
