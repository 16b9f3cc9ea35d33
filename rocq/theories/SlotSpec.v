(** Specification of the rate of the periodic requests (C52). *)
From Coq Require Import ZArith List.
Import ListNotations.
Open Scope Z_scope.

(** Polls at these times, some of which fired. Each firing has a slot of [p] ms that contains its time; the slots of two
    firings do not overlap and are in order; the first one does not begin before [begin + p]. *)
Definition one_per_slot (p begin : Z) (times : list Z) (fired : list bool) : Prop :=
  exists slot : nat -> Z, forall i, nth i fired false = true ->
    begin + p <= slot i /\ slot i <= nth i times 0 < slot i + p /\ forall j, (i < j)%nat -> nth j fired false = true -> slot i + p <= slot j.
