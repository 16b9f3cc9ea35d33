(** The reception buffer of the serial port, and what the module shows as the turns of loop go on. *)
From Coq Require Import ZArith List Bool.
From Verif Require Import Base Teleinfo Publish.
Import ListNotations.
Open Scope Z_scope.

(** The buffer of the class HardwareSerial (library, not in the repository): a ring of 256 bytes that holds 255. The program
    keeps the default size (src/main.cpp:31, Serial.begin). *)
Definition capacity : nat := Z.to_nat 255.
(** A byte arrives: when the ring is full the oldest byte is dropped to make room. The result: the ring, and the bytes dropped
    so far. Simplified: the byte goes at once from the hardware to the ring. *)
Definition arrive (s : list Z * list Z) (c : Z) : list Z * list Z :=
  let '(q, lost) := s in
  if Nat.ltb (length q) capacity then (q ++ [c], lost) else (tl q ++ [c], lost ++ firstn 1 q).
Definition arrivals (q : list Z) (burst : list Z) : list Z * list Z := fold_left arrive burst (q, []).

(** A turn of loop, src/main.cpp:81-110: the bytes that arrive while webserver_loop works, the time at which a byte is read,
    and the bytes that arrive while tic_decode works: http_request waits for the answer of the server (src/httpreq.cpp:11-35),
    called by tic_notifs (src/tic.cpp:84-130). *)
Record turn := mk_turn { t_before : list Z; t_now : timeval; t_during : list Z }.
(** What happened: the bytes dropped before the read, the byte read, the text published if tic_decode accepted a frame, the
    bytes dropped while tic_decode worked. *)
Record result := mk_result { r_lost : list Z; r_read : option Z; r_text : option (list Z); r_lost_after : list Z }.

(** loop, src/main.cpp:81-110, without ENABLE_CLI: one byte is read if there is one. The pages leave the decoder alone (the
    update, which pauses it, is left out: see C50, C51). *)
Definition loop_turn (sgn : bool) (t : turn) (q : list Z) (p : pub) : option (list Z * pub * result) :=
  let '(q1, lost) := arrivals q (t_before t) in
  match q1 with
  | [] => let '(q2, lost2) := arrivals [] (t_during t) in Some (q2, p, mk_result lost None None lost2)
  | c :: q2 =>
      '(p', new) <- tic_decode sgn (t_now t) c p ;;
      let '(q3, lost2) := arrivals q2 (t_during t) in
      Some (q3, p', mk_result lost (Some c) (if (new : bool) then Some (published p') else None) lost2)
  end.
Fixpoint loop_run (sgn : bool) (ts : list turn) (q : list Z) (p : pub) : option (list Z * pub * list result) :=
  match ts with
  | [] => Some (q, p, [])
  | t :: r =>
      '(q1, p1, x) <- loop_turn sgn t q p ;;
      '(q2, p2, xs) <- loop_run sgn r q1 p1 ;;
      Some (q2, p2, x :: xs)
  end.
