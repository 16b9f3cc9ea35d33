(** Model of tools/simutic.py: the simulated meter used to test the module. *)
From Coq Require Import ZArith List Bool Lia.
From Verif Require Import Base.
Import ListNotations.
Open Scope Z_scope.

(** group, tools/simutic.py:13-24. Python characters are their code points. *)
Fixpoint ord_sum (s : list Z) : Z := match s with [] => 0 | c :: r => c + ord_sum r end.
Definition sim_group (label value : list Z) : list Z :=
  let cksum := ord_sum label + 32 + ord_sum value in
  let cksum := Z.land cksum 63 + 32 in
  [10] ++ label ++ [32] ++ value ++ [32] ++ [cksum] ++ [13].

(** The attributes of SimuTic, tools/simutic.py:32-41. The indexes, currents and powers are computed with floating point
    numbers, the clock and random numbers: here they are the rounded integers, given from outside. [sm_papp] is the power
    without the term _pseuil. _isousc is always 30. *)
Record simu := mk_sim {
  sm_creuses : bool; sm_hchc : Z; sm_hchp : Z; sm_iinst : Z; sm_papp : Z; sm_adps : Z; sm_adco : list Z; sm_pseuil : Z }.
Definition sim_init : simu := mk_sim false 52000000 49000000 0 0 0 (str "012345678123") 0.
Definition ISOUSC : Z := 30.

(** The setter of adps for an integer, tools/simutic.py:174-184 (a Boolean gives 0 or 31). *)
Definition adps_value (v : Z) : Z := if negb ((ISOUSC <=? v) && (v <=? 999)) then 0 else v.
Definition set_adps (v : Z) (m : simu) : simu :=
  mk_sim (sm_creuses m) (sm_hchc m) (sm_hchp m) (sm_iinst m) (sm_papp m) (adps_value v) (sm_adco m) (sm_pseuil m).
(** The setter of adco, tools/simutic.py:71-77; the text of the value is given. *)
Definition adco_text (v : list Z) : list Z :=
  let v := firstn 12 v in repeat 48 (12 - length v) ++ v.
Definition set_adco (v : list Z) (m : simu) : simu :=
  mk_sim (sm_creuses m) (sm_hchc m) (sm_hchp m) (sm_iinst m) (sm_papp m) (sm_adps m) (adco_text v) (sm_pseuil m).
(** bascule, tools/simutic.py:43-55 *)
Inductive what := Tariff | Overload | Threshold.
Definition bascule (w : what) (m : simu) : simu :=
  match w with
  | Tariff => mk_sim (negb (sm_creuses m)) (sm_hchc m) (sm_hchp m) (sm_iinst m) (sm_papp m) (sm_adps m) (sm_adco m) (sm_pseuil m)
  | Overload => if negb (sm_adps m =? 0) then set_adps 0 m else set_adps (ISOUSC + 1) m
  | Threshold => mk_sim (sm_creuses m) (sm_hchc m) (sm_hchp m) (sm_iinst m) (sm_papp m) (sm_adps m) (sm_adco m) (4000 - sm_pseuil m)
  end.

(** f"{n:0kd}" for a non-negative n *)
Definition fmt (k : nat) (n : Z) : list Z := pad0 k (dec n).

(** trame, tools/simutic.py:200-221; [None]: encode("ascii") raises an exception. *)
Definition sim_text (m : simu) : list Z :=
  [2]
  ++ sim_group (str "ADCO") (sm_adco m)
  ++ sim_group (str "OPTARIF") (str "HC..")
  ++ sim_group (str "ISOUSC") (fmt 2 ISOUSC)
  ++ sim_group (str "HCHC") (fmt 9 (sm_hchc m))
  ++ sim_group (str "HCHP") (fmt 9 (sm_hchp m))
  ++ sim_group (str "PTEC") (firstn 4 ((if sm_creuses m then str "HC" else str "HP") ++ str "...."))
  ++ sim_group (str "IINST") (fmt 3 (sm_iinst m))
  ++ sim_group (str "IMAX") (str "042")
  ++ sim_group (str "PAPP") (fmt 5 (sm_papp m + sm_pseuil m))
  ++ (if negb (sm_adps m =? 0) then sim_group (str "ADPS") (fmt 3 (sm_adps m)) else [])
  ++ sim_group (str "HHPHC") (str "D")
  ++ sim_group (str "MOTDETAT") (str "000000")
  ++ [3].
Definition trame (m : simu) : option (list Z) :=
  if forallb (fun c => (0 <=? c) && (c <? 128)) (sim_text m) then Some (sim_text m) else None.
