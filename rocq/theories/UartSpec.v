(** Characters sent and characters received, with some lost. *)
From Coq Require Import ZArith List Bool.
From Verif Require Import Base TeleinfoSpec Uart.
Import ListNotations.
Open Scope Z_scope.

(** What is sent by the meter, read, shown, and lost during some turns. *)
Definition sent (ts : list turn) : list Z := concat (map (fun t => t_before t ++ t_during t) ts).
Definition bytes_read (xs : list result) : list Z := concat (map (fun x => match r_read x with Some c => [c] | None => [] end) xs).
Definition texts (xs : list result) : list (list Z) := concat (map (fun x => match r_text x with Some t => [t] | None => [] end) xs).
Definition lost (xs : list result) : list Z := concat (map (fun x => r_lost x ++ r_lost_after x) xs).

(** How many times characters are lost for another reason than the requests that follow a frame. *)
Definition some (l : list Z) : nat := match l with [] => 0 | _ => 1 end.
Definition lost_elsewhere (x : result) : nat := some (r_lost x) + match r_text x with None => some (r_lost_after x) | Some _ => 0 end.
Fixpoint times_lost_elsewhere (xs : list result) : nat :=
  match xs with [] => 0 | x :: r => lost_elsewhere x + times_lost_elsewhere r end.

(** The characters received are pieces of those sent: each pair gives the characters lost before a piece, and the piece; [tail] is
    lost (or still to come) at the end. *)
Definition sent_of (ks : list (list Z * list Z)) (tail : list Z) : list Z := concat (map (fun k => fst k ++ snd k) ks) ++ tail.
Definition got_of (ks : list (list Z * list Z)) : list Z := concat (map snd ks).

(** A group of the characters received that is made of two pieces: the end of one of them is strictly inside the group. *)
Definition cut_group (ks : list (list Z * list Z)) (b : list Z) : Prop :=
  exists x y ks1 ks2, ks = ks1 ++ ks2 /\ got_of ks = x ++ enc_body b ++ y /\
    (length x < length (got_of ks1) < length x + length (enc_body b))%nat.

(** The texts that are not those of a frame of the list. *)
Definition strangers (fs : list (list (list Z))) (ts : list (list Z)) : list (list Z) :=
  filter (fun t => negb (existsb (beq t) (map content fs))) ts.
