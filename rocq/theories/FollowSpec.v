(** Specification: what a home automation server knows of the meter, from the notifications that reach it. *)
From Coq Require Import ZArith List Bool.
From Verif Require Import Base TeleinfoSpec ConfigSpec Tic TicSpec ChainSpec.
Import ListNotations.
Open Scope Z_scope.

(** A frame, and whether the server could be reached when it ended. *)
Notation trial := (moment * bool)%type.
Definition reached (x : trial) : Prop := snd x = true.
(** The notification [w] was sent and reached the server. *)
Definition got (w : reason) (x : trial) : bool := snd x && sends w (fst x).

(** Overload: between "ADPS" and "NORM". *)
Definition overload_known (xs : list trial) : bool :=
  fold_left (fun k x => if got ADPS x then true else if got NORM x then false else k) xs false.
(** High power: between "HAUT" and "BAS". *)
Definition high_known (xs : list trial) : bool :=
  fold_left (fun k x => if got HAUT x then true else if got BAS x then false else k) xs false.
(** Tariff period: the one of the frame notified, which the request carries (C99_http). *)
Definition period_known (xs : list trial) : option (list Z) :=
  fold_left (fun k x => if got PTEC x then lookup (str "PTEC") (m_groups (fst x)) else k) xs None.

(** What the frame says. *)
Definition in_overload (m : moment) : bool := match lookup (str "ADPS") (m_groups m) with Some _ => true | None => false end.
Definition last_frame (xs : list trial) (m : moment) : Prop := exists r before, xs = before ++ [(m, r)].

(** The notifications are on. *)
Definition on (trigger : settings -> bool) (m : moment) : Prop := s_http_host (m_set m) <> [] /\ trigger (m_set m) = true.

(** What the notifications that reach the server post (src/httpreq.cpp:23-27), oldest first, and the last of these texts. *)
Definition posts (x : trial) : list (list Z) :=
  if snd x then flat_map (fun q => match fst q, r_data (snd q) with JEEDOM, _ | EMONCMS, _ => [] | _, Some body => [body] | _, None => [] end) (requests (m_out (fst x)))
  else [].
Definition last_post (xs : list trial) : option (list Z) := hd_error (rev (flat_map posts xs)).

(** The last request for the reason [w] (regular update, Jeedom, emoncms) that reached the server. *)
Definition last_request (w : reason) (xs : list trial) : option request :=
  hd_error (rev (flat_map (fun x : trial => if snd x then map snd (filter (fun q => reason_eqb w (fst q)) (requests (m_out (fst x)))) else []) xs)).
