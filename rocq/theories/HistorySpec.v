(** Specification of "the last valid frame received", over histories of received bytes. *)
From Coq Require Import ZArith List Bool.
From Verif Require Import Base Teleinfo TeleinfoSpec Publish.
Import ListNotations.
Open Scope Z_scope.

(** The history [h] ends with the frame made of the raw groups [bodies], whose STX arrived at [t0]. *)
Definition frame_ends (h : list event) (t0 : timeval) (bodies : list (list Z)) : Prop :=
  exists pre rest, h = pre ++ (t0, 2) :: rest /\ map snd ((t0, 2) :: rest) = frame_bytes bodies.

(** [r] is the last valid frame of [h]: it ends some prefix of [h], and no longer prefix ends with a valid frame. *)
Definition last_valid (h : list event) (r : option (timeval * list (list Z))) : Prop :=
  match r with
  | Some (t0, bodies) =>
      exists h1 h2, h = h1 ++ h2 /\ frame_ends h1 t0 bodies /\ valid_frame bodies /\
       forall k1 k2 t bs, h2 = k1 ++ k2 -> k1 <> [] -> frame_ends (h1 ++ k1) t bs -> ~ valid_frame bs
  | None => forall k1 k2 t bs, h = k1 ++ k2 -> frame_ends k1 t bs -> ~ valid_frame bs
  end.

(** Energy index carried by a frame: HCHP + HCHC, absent or non-numeric labels counting 0 (modulo 2^32). *)
Definition energy (text : list Z) : Z :=
  u32 (int_of 0 (lookup (str "HCHP") (pairs_of text)) + int_of 0 (lookup (str "HCHC") (pairs_of text))).

(** The bytes that arrive while decoding is not paused. *)
Fixpoint fed (paused : bool) (es : list pub_event) : list event :=
  match es with
  | [] => []
  | Byte now c :: r => if paused then fed paused r else (now, c) :: fed paused r
  | Pause b :: r => fed b r
  end.
(** All the bytes that arrive. *)
Fixpoint received (es : list pub_event) : list event :=
  match es with
  | [] => []
  | Byte now c :: r => (now, c) :: received r
  | Pause _ :: r => received r
  end.

(** ** Everything a reader of the frame can ask *)

(** A Teleinfo object as built by its constructor and kept by copy_from: ring of 48 samples, index inside the ring, a
    350-byte buffer. *)
Definition ring_ok (t : teleinfo) : Prop := List.length (t_consos t) = 48%nat /\ (t_i t < 48)%nat /\ List.length (t_frame t) = 350%nat.

Inductive question :=
| AskValue (label : list Z) (strip_zeros : bool)
| AskInt (label : list Z) (default : Z)
| AskNext (st : option nat)
| AskAll
| AskAscii (dst : list Z)
| AskCopy (ts : timeval) (dst : teleinfo).
Inductive answer :=
| AValue (v : option (list Z))
| AInt (n : Z)
| ANext (r : option (list Z * list Z * nat))
| AAll (gs : list group)
| AAscii (r : list Z * nat)
| ACopy (text : list Z) (t : teleinfo).
Definition ask (fr : list Z) (size : nat) (q : question) : option answer :=
  match q with
  | AskValue l rz => v <- get_value fr size l rz ;; Some (AValue v)
  | AskInt l d => n <- get_value_int fr size l d ;; Some (AInt n)
  | AskNext st => r <- get_value_next fr size st ;; Some (ANext r)
  | AskAll => r <- all_pairs fr size ;; Some (AAll r)
  | AskAscii dst => r <- get_frame_ascii fr size dst ;; Some (AAscii r)
  | AskCopy ts t => r <- copy_from fr size ts t ;; Some (ACopy (firstn (t_size r) (t_frame r)) r)
  end.
(** The caller's own obligations: a destination of at least two bytes; a Teleinfo object built by its constructor and
    copy_from (see ring_ok). *)
Definition proper (q : question) : Prop :=
  match q with
  | AskAscii dst => (2 <= List.length dst)%nat
  | AskCopy _ t => ring_ok t
  | _ => True
  end.

