(** Specification of the simulated meter. *)
From Coq Require Import ZArith List Bool Lia.
From Verif Require Import Base TeleinfoSpec Simu.
Import ListNotations.
Open Scope Z_scope.

(** What can be done to the simulator, and the measures it takes. *)
Inductive sim_event :=
| SetAdco (v : list Z)
| SetAdps (v : Z)
| Bascule (w : what)
| Measure (hchc hchp iinst papp : Z).
Definition sim_step (m : simu) (e : sim_event) : simu :=
  match e with
  | SetAdco v => set_adco v m
  | SetAdps v => set_adps v m
  | Bascule w => bascule w m
  | Measure c p i a => mk_sim (sm_creuses m) c p i a (sm_adps m) (sm_adco m) (sm_pseuil m)
  end.
(** A meter number is made of printable characters; the current is 20 |sin|, the power at most 20 x 230 x 1.15. *)
Definition sim_event_ok (e : sim_event) : Prop :=
  match e with
  | SetAdco v => Forall char7 v
  | Measure c p i a => 0 <= c < 1000000000 /\ 0 <= p < 1000000000 /\ 0 <= i <= 20 /\ 0 <= a <= 5290
  | _ => True
  end.
Definition sim_history (es : list sim_event) : simu := fold_left sim_step es sim_init.

(** [v] on exactly [k] decimal digits. *)
Fixpoint digits (k : nat) (v : Z) : list Z :=
  match k with O => [] | S k' => digits k' (v / 10) ++ [48 + v mod 10] end.

(** The groups sent, with their values as a reader of the frame must get them. *)
Definition expected (m : simu) : list group :=
  [ (str "ADCO", rstrip (sm_adco m)); (str "OPTARIF", str "HC"); (str "ISOUSC", str "30");
    (str "HCHC", digits 9 (sm_hchc m)); (str "HCHP", digits 9 (sm_hchp m));
    (str "PTEC", if sm_creuses m then str "HC" else str "HP"); (str "IINST", digits 3 (sm_iinst m));
    (str "IMAX", str "042"); (str "PAPP", digits 5 (sm_papp m + sm_pseuil m)) ]
  ++ (if sm_adps m =? 0 then [] else [(str "ADPS", digits 3 (sm_adps m))])
  ++ [ (str "HHPHC", str "D"); (str "MOTDETAT", str "000000") ].

(** ** What the last actions were *)
Definition pressed (w : what) (e : sim_event) : bool :=
  match e, w with Bascule Tariff, Tariff | Bascule Overload, Overload | Bascule Threshold, Threshold => true | _, _ => false end.
(** A switch pressed an odd number of times. *)
Definition switched (w : what) (es : list sim_event) : bool := Nat.odd (length (filter (pressed w) es)).
(** The measures taken last (at first, the initial indexes). *)
Definition measured (es : list sim_event) : Z * Z * Z * Z :=
  last (flat_map (fun e => match e with Measure c p i a => [(c, p, i, a)] | _ => [] end) es) (52000000, 49000000, 0, 0).
(** The meter number given last: its first 12 characters, preceded by zeros. *)
Definition meter_number (es : list sim_event) : list Z :=
  last (flat_map (fun e => match e with SetAdco v => [pad0 12 (firstn 12 v)] | _ => [] end) es) (str "012345678123").
(** The overload shown: set to a value (none outside of 30-999 A), or switched between none and 31 A. [r]: the actions, last first. *)
Fixpoint overload (r : list sim_event) : option Z :=
  match r with
  | [] => None
  | SetAdps v :: _ => if (30 <=? v) && (v <=? 999) then Some v else None
  | Bascule Overload :: r' => match overload r' with Some _ => None | None => Some 31 end
  | _ :: r' => overload r'
  end.
(** The groups, from the actions. *)
Definition told_groups (es : list sim_event) : list group :=
  let '(hchc, hchp, iinst, papp) := measured es in
  [ (str "ADCO", rstrip (meter_number es)); (str "OPTARIF", str "HC"); (str "ISOUSC", str "30");
    (str "HCHC", digits 9 hchc); (str "HCHP", digits 9 hchp);
    (str "PTEC", if switched Tariff es then str "HC" else str "HP"); (str "IINST", digits 3 iinst);
    (str "IMAX", str "042"); (str "PAPP", digits 5 (papp + if switched Threshold es then 4000 else 0)) ]
  ++ match overload (rev es) with Some v => [(str "ADPS", digits 3 v)] | None => [] end
  ++ [ (str "HHPHC", str "D"); (str "MOTDETAT", str "000000") ].
