(** Specification for the whole chain, from the bytes of the meter to the requests sent to the services. *)
From Coq Require Import ZArith List Bool.
From Verif Require Import Base Teleinfo TeleinfoSpec HistorySpec Publish Config ConfigSpec Tic TicSpec Web Device WebSpec.
Import ListNotations.
Open Scope Z_scope.

(** After the events [es], the event [e] is a byte that is heard and that ends a valid frame, whose STX came at [t0] and whose
    groups are [gs]. *)
Definition ends_frame (es : list devent) (e : devent) (a : around) (t0 : timeval) (gs : list group) : Prop :=
  exists up tv c bodies, e = DByte a up tv c /\ heard false (es ++ [e]) = heard false es ++ [(tv, c)] /\
    frame_ends (heard false (es ++ [e])) t0 bodies /\ valid_frame bodies /\ gs = pairs_of (content bodies).

(** A frame of the meter: the settings in force when it ends, millis() then, its date, its groups, what the module does. *)
Record moment := mk_moment { m_set : settings; m_now : Z; m_date : timeval; m_groups : list group; m_out : list out }.

(** The frames that end during the events [es], which follow the events [past] since the start. *)
Inductive frames (fuel : nat) (sgn : bool) (d0 : device) (past : list devent) : list devent -> list moment -> Prop :=
| no_event : frames fuel sgn d0 past [] []
| a_frame : forall es ms e d os d' o a t0 gs, frames fuel sgn d0 past es ms ->
    drun fuel sgn (past ++ es) d0 = Done (d, os) -> dstep fuel sgn e d = Done (d', o) -> ends_frame (past ++ es) e a t0 gs ->
    frames fuel sgn d0 past (es ++ [e]) (ms ++ [mk_moment (view (cfg_of d)) (a_now a) t0 gs o])
| another : forall es ms e, frames fuel sgn d0 past es ms -> (forall a t0 gs, ~ ends_frame (past ++ es) e a t0 gs) ->
    frames fuel sgn d0 past (es ++ [e]) ms.

(** The requests among the effects. *)
Definition requests (o : list out) : list (reason * request) :=
  flat_map (fun x => match x with Sent w r => [(w, r)] | _ => [] end) o.
(** Was such a request sent? *)
Definition sends (w : reason) (m : moment) : bool := existsb (fun x => reason_eqb w (fst x)) (requests (m_out m)).

(** What the frame says, if the notifications are configured and this trigger is ticked. *)
Definition watched {A} (trigger : settings -> bool) (look : list group -> A) (m : moment) : option A :=
  if negb (Nat.eqb (length (s_http_host (m_set m))) 0) && trigger (m_set m) then Some (look (m_groups m)) else None.
(** The apparent power, as written (limited to 31 bits); 0 if absent. *)
Definition power (gs : list group) : Z := match lookup (str "PAPP") gs with Some v => clamp32 (written_int v) | None => 0 end.
(** The last threshold notification sent. *)
Definition last_crossing (ms : list moment) : option reason :=
  hd_error (rev (filter is_threshold (map fst (flat_map (fun m => requests (m_out m)) ms)))).

(** The time zone and the chip do not change. *)
Definition same_env (e : env) (x : devent) : Prop := match x with DByte a _ _ _ => a_env a = e | _ => True end.
(** No form is sent to the settings. *)
Definition no_form (x : devent) : Prop := match x with DHttp _ q => q_uri q <> str "/config_form.json" | _ => True end.

(** The events [es] since the start are the ones until the settings in force were last taken into account, when millis() was
    [now]: nothing yet, or a form sent by someone who is not refused came last. *)
Inductive configured_at (fuel : nat) (sgn : bool) (b : start) (d0 : device) : list devent -> Z -> Prop :=
| by_start : configured_at fuel sgn b d0 [] (b_now b)
| by_form : forall es d os a q, drun fuel sgn es d0 = Done (d, os) -> q_uri q = str "/config_form.json" -> ~ refused q d ->
    configured_at fuel sgn b d0 (es ++ [DHttp a q]) (a_now a).
