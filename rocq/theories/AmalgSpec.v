(** Specification of the single source file. *)
From Coq Require Import ZArith List Bool Lia.
From Verif Require Import Base Amalg.
Import ListNotations.
Open Scope Z_scope.

(** Line [k] of the file [f] includes the file [h]. *)
Definition includes (src : sources) (f : list Z) (k : nat) (h : list Z) : Prop :=
  exists ls l, lines_named src f = Some ls /\ nth_error ls k = Some l /\ kind_of l = Local h.
(** The files that make the program: the units, and what they include. *)
Inductive part_of (src : sources) : list Z -> Prop :=
| part_unit : forall n, In n (units src) -> part_of src n
| part_header : forall f k h, part_of src f -> includes src f k h -> part_of src h.

(** A line of the language: [blanks], then #include "header", then [rest] up to the end of line. *)
Definition include_line (blanks header rest : list Z) : list Z := blanks ++ str "#include " ++ [34] ++ header ++ [34] ++ rest.
Definition system_line (blanks header rest : list Z) : list Z := blanks ++ str "#include <" ++ header ++ str ">" ++ rest.
Definition spaces_only (l : list Z) : Prop := Forall (fun c => c = 32 \/ c = 9) l.

(** All the headers exist and the lines are understood. *)
Definition complete (src : sources) : Prop :=
  forall f ls l, lines_named src f = Some ls -> In l ls -> kind_of l <> Wrong /\ forall h, kind_of l = Local h -> lines_named src h <> None.
(** No header includes itself, even through others. *)
Definition acyclic (src : sources) : Prop := exists rank : list Z -> nat, forall f k h, includes src f k h -> (rank h < rank f)%nat.

(** The lines that come from the file [f], in the order of the result. *)
Definition taken (f : list Z) (out : list item) : list (nat * list Z) :=
  flat_map (fun i => match i with (Some (g, k), l) => if beq g f then [(k, l)] else [] | _ => [] end) out.
(** As they should be: all, in order; the lines that must not act again are commented. *)
Definition disarmed (l : list Z) : list Z :=
  match kind_of l with Once | Local _ => str "// " ++ l | _ => l end.
Definition whole (ls : list (list Z)) : list (nat * list Z) := combine (seq 0 (length ls)) (map disarmed ls).

(** ** A small C preprocessor, to tell what the compiler sees *)

(** #ifdef, #endif, #define without value, #include "...", #pragma once (all headers have it); other lines beginning with # and comments are
    not text. The result: each line of text, with the macros defined there. *)
Record pstate := mk_p { p_macros : list (list Z); p_once : list (list Z); p_skip : nat; p_seen : list (list Z * list (list Z)) }.
Definition word_after (w l : list Z) : list Z := removelast (skipn (length w) l).
Section Lines.
  Context (read : list Z -> pstate -> pstate).
  Definition pline (s : pstate) (l : list Z) : pstate :=
    if begins (str "#endif") l then mk_p (p_macros s) (p_once s) (p_skip s - 1) (p_seen s)
    else if begins (str "#ifdef ") l then
      if Nat.eqb (p_skip s) 0 && existsb (beq (word_after (str "#ifdef ") l)) (p_macros s) then s
      else mk_p (p_macros s) (p_once s) (S (p_skip s)) (p_seen s)
    else if negb (Nat.eqb (p_skip s) 0) then s
    else if begins (str "#define ") l then mk_p (word_after (str "#define ") l :: p_macros s) (p_once s) 0 (p_seen s)
    else match kind_of l with
         | Local h => read h s
         | Other => if begins (str "//") l || begins [10] l || begins (str "#") l then s
                    else mk_p (p_macros s) (p_once s) 0 (p_seen s ++ [(l, p_macros s)])
         | _ => s
         end.
End Lines.
Fixpoint preprocess (fuel : nat) (src : sources) (n : list Z) (s : pstate) : pstate :=
  match fuel with
  | O => s
  | S f =>
      if existsb (beq n) (p_once s) then s
      else match lines_named src n with
           | None => s
           | Some ls => fold_left (pline (preprocess f src)) ls (mk_p (p_macros s) (n :: p_once s) (p_skip s) (p_seen s))
           end
  end.
(** What the compiler sees of a file compiled alone, with the macros [defs] given to it. *)
Definition compiled (src : sources) (defs : list (list Z)) (n : list Z) : list (list Z * list (list Z)) :=
  p_seen (preprocess (S (length src)) src n (mk_p defs [] 0 [])).
Definition single (out : list item) : sources := [(str "wifinfo.ino", map snd out)].
