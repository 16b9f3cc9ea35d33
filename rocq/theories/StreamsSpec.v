(** Specification for C97. *)
From Coq Require Import ZArith List Bool.
From Verif Require Import Base Streams.
Import ListNotations.
Open Scope Z_scope.

(** [es] happened since the module was switched on: state, and messages received by the pages. *)
Definition lived (es : list happening) (w : world) (o : list (nat * list Z)) : Prop := happens es nothing_yet = Some (w, o).

(** The texts broadcast during [es]; the messages received by the page [p]. *)
Definition broadcasts (es : list happening) : list (list Z) :=
  flat_map (fun e => match e with Turn _ _ (Some d) => [d] | _ => [] end) es.
Definition messages (p : nat) (o : list (nat * list Z)) : list (list Z) :=
  map snd (filter (fun m => Nat.eqb (fst m) p) o).
(** A text without line ends, as all those of the module (C38). *)
Definition single_line (d : list Z) : Prop := Forall (fun c => c <> 10 /\ c <> 13) d.

(** Nothing happens to the page [p] nor to its connection; the page is not touched. *)
Definition stays (p : nat) (es : list happening) : Prop := forall e, In e es -> e <> Leaves p /\ e <> Breaks p /\ e <> Restarts.
Definition untouched (p : nat) (es : list happening) : Prop := forall e, In e es -> e <> Leaves p.

(** Only the pages of [ps] ever show their gauges. *)
Definition only (ps : list nat) (es : list happening) : Prop := forall p, In (Shows p) es -> In p ps.

(** Nobody is in a hurry: every closed connection is known at the next turn, and between the moment a page loses its stream
    and its next request the loop makes at least one turn. [pending]: the pages that left since the last turn. *)
Fixpoint calm (pending : list nat) (es : list happening) : Prop :=
  match es with
  | [] => True
  | Shows _ :: r => calm pending r
  | Leaves p :: r | Breaks p :: r => calm (p :: pending) r
  | Restarts :: r => calm [] r
  | Turn ask late _ :: r =>
      (forall id, late id = false) /\ (forall p, ask = Some p -> ~ In p pending) /\ calm [] r
  end.
(** The pages that left since the last turn. *)
Fixpoint just_left (pending : list nat) (es : list happening) : list nat :=
  match es with
  | [] => pending
  | Shows _ :: r => just_left pending r
  | Leaves p :: r | Breaks p :: r => just_left (p :: pending) r
  | Restarts :: r | Turn _ _ _ :: r => just_left [] r
  end.
(** The page [q] has a stream after [es], or had one and left since the last turn. *)
Definition holds (es : list happening) (w : world) (q : nat) : Prop := (exists id, w_page w q = Live id) \/ In q (just_left [] es).
