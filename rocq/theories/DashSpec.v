(** Specification for the tabs of the home page. *)
From Coq Require Import ZArith List Bool.
From Verif Require Import Base Json Dash.
Import ListNotations.
Open Scope Z_scope.

(** A value as it is written: texts as they are, numbers in decimal. *)
Definition written (c : cell) : list Z := match c with Text s => s | Number n => dec n end.
(** The arrow beside a value: none, up or down. *)
Inductive arrow := NoArrow | Up | Down.
Definition with_arrow (c : cell) (a : arrow) : cell :=
  match a with
  | NoArrow => c
  | Up => Text (written c ++ str " <span class=""glyphicon glyphicon-triangle-top""></span>")
  | Down => Text (written c ++ str " <span class=""glyphicon glyphicon-triangle-bottom""></span>")
  end.
(** The arrows really shown beside the successive values of a group. [last]: the value shown just before, if it was shown
    without an arrow. *)
Fixpoint arrows (last : option Z) (vs : list Z) : list arrow :=
  match vs with
  | [] => []
  | v :: t =>
      match last with
      | None => NoArrow :: arrows (Some v) t
      | Some p => if p =? v then NoArrow :: arrows (Some v) t
                  else (if p <? v then Up else Down) :: arrows None t
      end
  end.

(** The values of a group in a sequence of rows, and the cells shown for it. *)
Definition values_of (na : list Z) (rows : list (list Z * cell)) : list cell :=
  map snd (filter (fun r => beq (fst r) na) rows).
Definition cells_of (na : list Z) (rows : list (list Z * cell)) (cells : list cell) : list cell :=
  map snd (filter (fun x => beq (fst (fst x)) na) (combine rows cells)).

(** Values of the same kind: numbers, or texts of [k] digits. *)
Definition of_kind (k : option nat) (c : cell) : Prop :=
  match c, k with
  | Number n, None => 0 <= n
  | Text s, Some k => length s = k /\ s <> [] /\ forallb isdigit s = true
  | _, _ => False
  end.
Definition value (c : cell) : Z := match c with Text s => dec_value s | Number n => n end.

(** The colour of the load bar *)
Definition colour (percent : Z) : list Z :=
  if percent <=? 70 then str "success" else if percent <=? 80 then str "info" else if percent <=? 90 then str "warning" else str "danger".
