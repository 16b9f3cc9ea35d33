(** Model of src/sse.h: the list of Server-sent Events clients. *)
From Coq Require Import ZArith List Bool Lia.
From Verif Require Import Base.
Import ListNotations.
Open Scope Z_scope.

(** A client object is named by a number given at its creation (its address in the program). [sse_list]: clients_;
    [sse_heap]: the objects created and not deleted; [sse_next]: name of the next object. *)
Record sse := mk_sse { sse_list : list nat; sse_heap : list nat; sse_next : nat }.
Definition sse_init : sse := mk_sse [] [] 0.

(** What the browsers see: a new stream is opened (headers sent); a request is refused (503); the text of an event is sent;
    a connection is closed (destructor). *)
Inductive sse_effect := Opened (id : nat) | Refused | SentTo (id : nat) (text : list Z) | Closed (id : nat).

(** SseClients::handle_sse_data, src/sse.h:87-102 (the authentication of on() is in Web.v). *)
Definition handle_sse_data (s : sse) : sse * list sse_effect :=
  if Nat.ltb (length (sse_list s)) 2 then
    (mk_sse (sse_list s ++ [sse_next s]) (sse_next s :: sse_heap s) (S (sse_next s)), [Opened (sse_next s)])
  else (s, [Refused]).

(** Text written by SseClient::send_event, src/sse.h:53-60: "data: ", the data, CR LF CR LF *)
Definition event_text (data : list Z) : list Z := str "data: " ++ data ++ [13; 10; 13; 10].

(** delete *it: [None] if the object is not allocated. *)
Definition remove_id (id : nat) (heap : list nat) : list nat := filter (fun x => negb (Nat.eqb x id)) heap.
Definition delete (id : nat) (heap : list nat) : option (list nat) :=
  if existsb (Nat.eqb id) heap then Some (remove_id id heap) else None.

(** The loop of SseClients::handle_clients, src/sse.h:120-151, from the iterator on: [l] is the rest of the list. [up]
    tells which clients are connected at the time of the call; using an object that is not allocated is [None]. Results:
    what remains of [l], the heap, the effects. *)
Fixpoint handle_loop (up : nat -> bool) (data : option (list Z)) (l heap : list nat) : option (list nat * list nat * list sse_effect) :=
  match l with
  | [] => Some ([], heap, [])
  | id :: r =>
      if existsb (Nat.eqb id) heap then
        if up id then
          '(r', h, o) <- handle_loop up data r heap ;;
          Some (id :: r', h, match data with Some d => SentTo id (event_text d) :: o | None => o end)
        else
          heap' <- delete id heap ;;
          '(r', h, o) <- handle_loop up data r heap' ;; Some (r', h, Closed id :: o)
      else None
  end.
Definition handle_clients (up : nat -> bool) (data : option (list Z)) (s : sse) : option (sse * list sse_effect) :=
  match sse_list s with
  | [] => Some (s, [])
  | l => '(l', h, o) <- handle_loop up data l (sse_heap s) ;; Some (mk_sse l' h (sse_next s), o)
  end.

(** What happens to the list: a request on /sse/json or /tic (allowed), the poll of webserver_loop
    (src/webserver.cpp:246), a broadcast (src/tic.cpp:127, src/cli.cpp:65). *)
Inductive sse_event := Ask | Poll (up : nat -> bool) | Broadcast (up : nat -> bool) (data : list Z).
Definition sse_step (e : sse_event) (s : sse) : option (sse * list sse_effect) :=
  match e with
  | Ask => Some (handle_sse_data s)
  | Poll up => handle_clients up None s
  | Broadcast up d => handle_clients up (Some d) s
  end.
(** The effects of each event. *)
Fixpoint sse_run (es : list sse_event) (s : sse) : option (sse * list (list sse_effect)) :=
  match es with
  | [] => Some (s, [])
  | e :: r => '(s1, o) <- sse_step e s ;; '(s2, os) <- sse_run r s1 ;; Some (s2, o :: os)
  end.
