(** Which events bring the module down (C57, C65): vocabulary of the theorems. *)
From Coq Require Import ZArith List Bool.
From Verif Require Import Base Teleinfo TeleinfoSpec Publish Config Tic TicSpec Pages Web Device WebSpec Cli Life.
Import ListNotations.
Open Scope Z_scope.

(** The same module, with the URL of its notifications erased. *)
Definition no_url (d : device) : device :=
  mk_dev (mk_cs (set HUrl (repeat 0 151) (cfg_of d)) (c_ee (d_cs d))) (d_pub d) (d_ns d) (d_tm d) (d_sse d) (d_perf d) (d_upd d).
(** The same request, with no argument. *)
Definition bare (q : hreq) : hreq := mk_hreq (q_method q) (q_uri q) [] (q_accepts q) (q_forwarded q).

(** The reasons for which the URL configured is requested. *)
Definition own_reason (w : reason) : Prop := w <> JEEDOM /\ w <> EMONCMS.

(** Replacing the labels of this field of the configuration reads past its end, whatever the data and the reason. *)
Definition runs_out (field : list Z) : Prop :=
  forall e t notif, published_ti t -> expand_url e t notif field = None.

(** A request reads outside the strings of the program or divides by zero (C55). *)
Definition fatal_request (a : around) (q : hreq) (d : device) : Prop :=
  cstr (q_uri q) = [] /\ q_accepts q (text Username (cfg_of d)) (text Password (cfg_of d)) = true \/
  q_uri q = str "/system.json" /\ ~ refused q d /\ i_total (a_info a) = 0.
(** A request is never answered: it would be answered 404 without its arguments, and has 256 of them or more (C35). *)
Definition endless_request (fuel : nat) (a : around) (q : hreq) (d : device) : Prop :=
  (256 <= length (q_args q))%nat /\ exists d' body, handle fuel a (bare q) d = Done (d', [Reply 404 Web.Text body]).
(** A byte completes a frame that the module has to notify, to a URL that reads past the end of its field (C18). *)
Definition fatal_byte (sgn : bool) (a : around) (up : nat -> bool) (tv : timeval) (c : Z) (d : device) : Prop :=
  runs_out (get HUrl (cfg_of d)) /\
  exists d' o w r, receive sgn a up tv c (no_url d) = Some (d', o) /\ In (Sent w r) o /\ own_reason w.

Definition fatal (sgn : bool) (e : devent) (d : device) : Prop :=
  match e with
  | DHttp a q => fatal_request a q d
  | DByte a up tv c => fatal_byte sgn a up tv c d
  | _ => False
  end.
Definition endless (fuel : nat) (e : devent) (d : device) : Prop :=
  match e with DHttp a q => endless_request fuel a q d | _ => False end.

(** With the console compiled in, the byte may belong to a command. *)
Definition fatal_serial (bd : build) (a : around) (up : nat -> bool) (tv : timeval) (c : Z) (raw : list Z) (d : device) (cl : cli) : Prop :=
  runs_out (get HUrl (cfg_of d)) /\
  exists d' cl' o w r, serial_byte bd a up tv c raw (no_url d) cl = Some (d', cl', o) /\ In (Did (Sent w r)) o /\ own_reason w.
Definition fatal_in_life (bd : build) (e : levent) (m : module) : Prop :=
  match e, m with
  | Event (DHttp a q) _, On d _ => fatal_request a q d
  | Event (DByte a up tv c) raw, On d cl => fatal_serial bd a up tv c raw d cl
  | _, _ => False
  end.
Definition endless_in_life (fuel : nat) (e : levent) (m : module) : Prop :=
  match e, m with Event (DHttp a q) _, On d _ => endless_request fuel a q d | _, _ => False end.
(** What may come: bytes, requests whose arguments are bytes; no condition on their number, on the URI or on the files. *)
Definition any_life (e : levent) : Prop :=
  match e with
  | PowerOn b => start_ok b
  | Event e raw => devent_ok e /\ length raw = 350%nat
  end.
