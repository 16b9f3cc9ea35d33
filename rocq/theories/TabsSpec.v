(** Specification for C94. *)
From Coq Require Import ZArith List Bool.
From Verif Require Import Tabs.
Import ListNotations.
Open Scope Z_scope.

(** The page has been opened at [hash], and [es] happened: its state, and all the requests it made. *)
Definition lived (hash : option tab) (es : list happening) (s : script) (o : trace) : Prop :=
  exists s0 o0 o1, opened hash = (s0, o0) /\ happens es s0 = (s, o1) /\ o = o0 ++ o1.

(** The last tab chosen: by a click, or by the address. *)
Definition chosen (hash : option tab) (es : list happening) : option tab :=
  fold_left (fun c e => match e with Clicks t => Some t | _ => c end) es hash.

(** The table of a tab, and how long (ms) the page waits between an answer and the next request. *)
Definition table_of_tab (t : tab) : option resource :=
  match t with TabTinfo => Some RTinfo | TabSys => Some RSys | _ => None end.
Definition pause (r : resource) : Z := match r with RTinfo => 5000 | _ => 1000 end.

(** Requests for [r] in a trace, and the number of them in progress, and of waits before one. *)
Definition requests_for (r : resource) (o : trace) : list Z := map fst (filter (fun a => res_eqb (snd a) r) o).
Definition in_progress (r : resource) (s : script) : nat := length (filter (res_eqb r) (st_asked s)).
Definition waits (r : resource) (s : script) : nat := length (filter (fun t => res_eqb r (tm_table t)) (st_timers s)).

(** No request failed. *)
Definition all_answered (es : list happening) : Prop := forall n, ~ In (Answered n false) es.
(** The user leaves the page alone. *)
Definition untouched (es : list happening) : Prop := forall e, In e es -> match e with Clicks _ | Reloads _ => False | _ => True end.
(** The button of the table [r] is not used. *)
Definition no_button (r : resource) (es : list happening) : Prop := ~ In (Reloads r) es.
(** No click comes while a request for [r] is in progress. *)
Fixpoint patient (r : resource) (es : list happening) (s : script) : Prop :=
  match es with
  | [] => True
  | e :: t => (forall u, e = Clicks u -> ~ In r (st_asked s)) /\ patient r t (fst (happen e s))
  end.

(** Two requests that follow each other are at least [d] ms apart. *)
Fixpoint spaced (d : Z) (l : list Z) : Prop :=
  match l with
  | a :: (b :: _) as t => a + d <= b /\ spaced d t
  | _ => True
  end.

(** What a tab shows comes from these addresses. *)
Definition shown_in (t : tab) : list resource :=
  match t with TabGauges => [RStream] | TabTinfo => [RTinfo] | TabSys => [RSys] | TabCfg => [RConfig; RScan] end.
