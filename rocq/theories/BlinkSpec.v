(** Specification of the command "led": what can be seen from outside. *)
From Coq Require Import ZArith List Bool.
From Verif Require Import Base Publish Web WebSpec Device Led LedSpec Blink.
Import ListNotations.
Open Scope Z_scope.

(** What loop() met; the milliseconds that passed; the times of the turns of loop(), [t] being that of the beginning. *)
Definition kmet (es : list kevent) : list devent := flat_map (fun e => match e with KMeets e => [e] | _ => [] end) es.
Fixpoint kelapsed (es : list kevent) : Z :=
  match es with [] => 0 | KMs :: r => 1 + kelapsed r | _ :: r => kelapsed r end.
Fixpoint turns (t : Z) (es : list kevent) : list Z :=
  match es with [] => [] | KMs :: r => turns (t + 1) r | KTurn :: r => t :: turns t r | _ :: r => turns t r end.

(** Nobody types the command again, nothing is uploaded. *)
Definition led_alone (es : list kevent) : Prop :=
  (forall w, ~ In (KLed w) es) /\ (forall a u, ~ In (KMeets (DUpload a u)) es).
(** Something that loop() met (not the timer of the command) has switched the LED. *)
Definition flashed (es : list kevent) (os : list (list bout)) : bool :=
  existsb (fun x => match fst x with KMeets _ => negb (Nat.eqb (length (switched (snd x))) 0) | _ => false end) (combine es os).
(** How many times. *)
Definition times (l : list bool) : Z := Z.of_nat (length (filter (fun b => b) l)).
(** The loop is prompt: never more than [p] ms between two turns. *)
Fixpoint prompt (p before : Z) (ds : list Z) : Prop :=
  match ds with [] => True | d :: r => before <= d <= before + p /\ prompt p d r end.
(** The same history for a program without the command line; the effects other than those on the LED. *)
Definition as_board (es : list kevent) : list bevent :=
  flat_map (fun e => match e with KMs => [Ms] | KMeets e => [Meets e] | _ => [] end) es.
Definition rest (os : list bout) : list bout := flat_map (fun o => match o with Lamp _ => [] | _ => [o] end) os.
