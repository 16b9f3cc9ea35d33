(** Specification for the collector. *)
From Coq Require Import ZArith List Bool.
From Verif Require Import Base Json TicSpec TeleinfoSpec Collect.
Import ListNotations.
Open Scope Z_scope.

(** A text is the message of the point [p]. *)
Definition carries_point (data : list Z) (p : point) : Prop := exists j, json_of data = Some j /\ point_of j = Some p.

(** The points of the messages that are the first of their period of [freq] seconds; [before]: the period of the message
    before. *)
Definition period (freq ms : Z) : Z := ms / (1000 * freq).
Fixpoint firsts (freq : Z) (before : option Z) (msgs : list (Z * point)) : list (list point) :=
  match msgs with
  | [] => []
  | (ms, p) :: t =>
      (if match before with Some b => b =? period freq ms | None => false end then [] else [p])
      :: firsts freq (Some (period freq ms)) t
  end.

(** The points whose date is not that of the answer before *)
Fixpoint changes (last : option (list Z)) (ps : list (list Z * point)) : list (list point) :=
  match ps with
  | [] => []
  | (ts, p) :: t => (if match last with Some l => beq ts l | None => false end then [] else [p]) :: changes (Some ts) t
  end.
