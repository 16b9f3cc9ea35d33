(** Specification of the event streams. *)
From Coq Require Import ZArith List Bool Lia.
From Verif Require Import Base Sse.
Import ListNotations.
Open Scope Z_scope.

(** Number of streams open after some effects. *)
Fixpoint open_streams (now : Z) (os : list sse_effect) : Z :=
  match os with
  | [] => now
  | Opened _ :: r => open_streams (now + 1) r
  | Closed _ :: r => open_streams (now - 1) r
  | _ :: r => open_streams now r
  end.

(** What stream [id] must receive, given what happens once it is open: the data of every broadcast, until the first poll
    or broadcast that finds it disconnected. *)
Fixpoint deliveries (id : nat) (es : list sse_event) : list (list Z) :=
  match es with
  | [] => []
  | Ask :: r => deliveries id r
  | Poll up :: r => if up id then deliveries id r else []
  | Broadcast up d :: r => if up id then d :: deliveries id r else []
  end.
(** Is it found disconnected one day ? *)
Fixpoint lost (id : nat) (es : list sse_event) : bool :=
  match es with
  | [] => false
  | Ask :: r => lost id r
  | Poll up :: r | Broadcast up _ :: r => negb (up id) || lost id r
  end.

(** What was really sent on stream [id], and how many times it was closed, opened. *)
Definition texts_to (id : nat) (os : list sse_effect) : list (list Z) :=
  flat_map (fun o => match o with SentTo i t => if Nat.eqb i id then [t] else [] | _ => [] end) os.
Definition closings (id : nat) (os : list sse_effect) : nat :=
  List.length (filter (fun o => match o with Closed i => Nat.eqb i id | _ => false end) os).
Definition openings (id : nat) (os : list sse_effect) : nat :=
  List.length (filter (fun o => match o with Opened i => Nat.eqb i id | _ => false end) os).

(** ** The browser: parsing an event stream (HTML standard, "Interpreting an event stream", without the BOM and the UTF-8
    decoding, and with the data field only). Lines end with CR LF, LF or CR. A line "data:x" or "data: x" adds x to the
    event; other fields are ignored; an empty line dispatches the event if it has data. *)
Fixpoint lines (cur s : list Z) : list (list Z) :=
  match s with
  | [] => []   (* an unfinished line is ignored *)
  | 13 :: ((10 :: r) as t) => rev cur :: lines [] r
  | c :: r => if (c =? 13) || (c =? 10) then rev cur :: lines [] r else lines (c :: cur) r
  end.
Definition data_field (l : list Z) : option (list Z) :=
  if beq (firstn 5 l) (str "data:") then
    Some (match skipn 5 l with 32 :: v => v | v => v end)
  else None.
Fixpoint dispatch (data : option (list Z)) (ls : list (list Z)) : list (list Z) :=
  match ls with
  | [] => []
  | [] :: r => match data with Some d => d :: dispatch None r | None => dispatch None r end
  | l :: r =>
      match data_field l, data with
      | Some v, None => dispatch (Some v) r
      | Some v, Some d => dispatch (Some (d ++ [10] ++ v)) r
      | None, _ => dispatch data r
      end
  end.
Definition events_of (s : list Z) : list (list Z) := dispatch None (lines [] s).
