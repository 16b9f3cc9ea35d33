(** Specification of the CPU load. *)
From Coq Require Import ZArith List Bool Lia.
From Verif Require Import Base Teleinfo Tic TicSpec.
Import ListNotations.
Open Scope Z_scope.

(** The iterations counted at each expiry of the 1000 ms timer: [fs] tells at which iterations it expires, [k] iterations
    were made since the last expiry. *)
Fixpoint counted (k : Z) (fs : list bool) : list Z :=
  match fs with
  | [] => []
  | true :: r => (k + 1) :: counted 0 r
  | false :: r => counted (k + 1) r
  end.
(** Average over the last ten counts (0 for those that have not been made yet). *)
Definition average (counts : list Z) : Z := fold_right Z.add 0 (firstn 10 (rev counts ++ repeat 0 10)) / 10.
(** Times of the iterations, [ds] ms after the start of the timer at [a]. *)
Definition times (a : Z) (ds : list Z) : list Z := map (fun d => u32 (a + d)) ds.
