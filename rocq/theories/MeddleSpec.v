(** Specification: what the commands typed on the serial port may change. *)
From Coq Require Import ZArith List Bool.
From Verif Require Import Base Config Tic TicSpec Sse Web Device Life.
Import ListNotations.
Open Scope Z_scope.

(** The same module, but for the timers and the open streams. *)
Definition same_core (d d' : device) : Prop :=
  d_cs d = d_cs d' /\ d_pub d = d_pub d' /\ d_ns d = d_ns d' /\ d_perf d = d_perf d' /\ d_upd d = d_upd d'.
(** The effects, except the streams, the periodic requests and the texts of the answers. *)
Definition essential (o : out) : bool :=
  match o with
  | Streaming _ | Reply _ _ _ => false
  | Sent w _ => negb (periodic w)
  | _ => true
  end.
(** The notifications, among the requests. *)
Definition notification (x : reason * request) : bool := negb (periodic (fst x)).
(** The pages that show something of the streams. *)
Definition about_streams (uri : list Z) : Prop := In uri [str "/tic"; str "/sse/json"; str "/system.json"].

(** What the open streams [ids] get: the event if the browser is still there, or else the stream is closed. *)
Definition to_all (up : nat -> bool) (text : list Z) (ids : list nat) : list sse_effect :=
  map (fun id => if up id then SentTo id (event_text text) else Closed id) ids.
