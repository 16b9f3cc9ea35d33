(** Model of several pages that show the gauges at the same time: the module's list of streams (src/sse.h, Sse.v), its main loop
    (src/webserver.cpp:243-247, src/main.cpp:78-110) and the EventSource of each page (data_src/index.html:852-858, 894-897). *)
From Coq Require Import ZArith List Bool.
From Verif Require Import Base Sse SseSpec.
Import ListNotations.
Open Scope Z_scope.

(** The gauges of a page. [Hidden]: another tab, or no page any more. [Waiting]: an EventSource asks for /sse/json and has no
    answer yet. [Live id]: it receives the stream [id]. [GivenUp]: the answer was not 200; the HTML standard
    ("fail the connection") then closes the EventSource for good, and the page has no handler for that. *)
Inductive gauges := Hidden | Waiting | Live (id : nat) | GivenUp.

(** Pages are named by numbers, streams by the numbers of Sse.v. [w_owner id]: the page that asked for the stream [id]. *)
Record world := mk_world { w_sse : sse; w_page : nat -> gauges; w_owner : nat -> nat }.
Definition nothing_yet : world := mk_world sse_init (fun _ => Hidden) (fun _ => 0%nat).
Definition put {A : Type} (f : nat -> A) (n : nat) (v : A) : nat -> A := fun m => if Nat.eqb m n then v else f m.

(** [Shows p]: the tab of the gauges is shown (new EventSource, line 896; the page was showing another tab).
    [Leaves p]: another tab is shown (source.close(), line 856) or the page is closed. [Breaks p]: the connection of a live page
    is lost; its EventSource asks again (HTML standard, "reestablish the connection").
    [Restarts]: the module restarts; all the connections are lost.
    [Turn ask late data]: one turn of the main loop: the request of the page [ask] is handled, if there is one; the list is
    polled; then a text may be broadcast. [late id]: the connection of the stream [id] is no longer used by a page, but the
    module does not know it yet. Simplification: a request that is not handled yet when its page leaves is forgotten. *)
Inductive happening :=
| Shows (p : nat) | Leaves (p : nat) | Breaks (p : nat) | Restarts
| Turn (ask : option nat) (late : nat -> bool) (data : option (list Z)).

(** Is the stream [id] received by the page that asked for it ? *)
Definition in_use (w : world) (id : nat) : bool :=
  match w_page w (w_owner w id) with Live i => Nat.eqb i id | _ => false end.
(** WiFiClient::connected() *)
Definition up_of (w : world) (late : nat -> bool) (id : nat) : bool := in_use w id || late id.

(** server.handleClient() with a request for /sse/json: SseClients::handle_sse_data, src/sse.h:87-102. Access rules are in Web.v. *)
Definition serve (ask : option nat) (w : world) : world :=
  match ask with
  | None => w
  | Some p =>
      match w_page w p with
      | Waiting =>
          match handle_sse_data (w_sse w) with
          | (s, [Opened id]) => mk_world s (put (w_page w) p (Live id)) (put (w_owner w) id p)
          | (s, _) => mk_world s (put (w_page w) p GivenUp) (w_owner w)
          end
      | _ => w
      end
  end.
(** What the pages receive: the "message" events, with the page. *)
Definition received (w : world) (o : list sse_effect) : list (nat * list Z) :=
  flat_map (fun e => match e with
                     | SentTo id t => if in_use w id then map (pair (w_owner w id)) (events_of t) else []
                     | _ => []
                     end) o.
(** sse_clients.handle_clients(), src/webserver.cpp:246, and handle_clients(&data), src/tic.cpp:123-127 *)
Definition handled (late : nat -> bool) (data : option (list Z)) (w : world) : option (world * list (nat * list Z)) :=
  '(s, o) <- handle_clients (up_of w late) data (w_sse w) ;;
  Some (mk_world s (w_page w) (w_owner w), received w o).

Definition happen (e : happening) (w : world) : option (world * list (nat * list Z)) :=
  match e with
  | Shows p => Some (match w_page w p with
                     | Hidden => mk_world (w_sse w) (put (w_page w) p Waiting) (w_owner w)
                     | _ => w      (* a click on the active tab does nothing *)
                     end, [])
  | Leaves p => Some (mk_world (w_sse w) (put (w_page w) p Hidden) (w_owner w), [])
  | Breaks p => Some (match w_page w p with
                      | Live _ => mk_world (w_sse w) (put (w_page w) p Waiting) (w_owner w)
                      | _ => w
                      end, [])
  | Restarts =>
      (* the streams opened later get new names *)
      Some (mk_world (mk_sse [] [] (sse_next (w_sse w)))
              (fun p => match w_page w p with Live _ => Waiting | g => g end) (w_owner w), [])
  | Turn ask late data =>
      '(w1, o1) <- handled late None (serve ask w) ;;
      match data with
      | None => Some (w1, o1)
      | Some d => '(w2, o2) <- handled late (Some d) w1 ;; Some (w2, o1 ++ o2)
      end
  end.
Fixpoint happens (es : list happening) (w : world) : option (world * list (nat * list Z)) :=
  match es with
  | [] => Some (w, [])
  | e :: r => '(w1, o1) <- happen e w ;; '(w2, o2) <- happens r w1 ;; Some (w2, o1 ++ o2)
  end.
