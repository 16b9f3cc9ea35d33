(** Specification of the power estimate, over the list of frames received. *)
From Coq Require Import ZArith List Bool Sorted.
From Verif Require Import Base Teleinfo TeleinfoSpec Publish HistorySpec.
Import ListNotations.
Open Scope Z_scope.

(** A received frame: time of its STX and its raw groups. *)
Definition rframe := (timeval * list (list Z))%type.

(** [frames_in h fs]: [fs] is the list of the valid frames received in [h], oldest first. *)
Inductive frames_in : list event -> list rframe -> Prop :=
| frames_none : frames_in [] []
| frames_more : forall h fs e, frames_in h fs ->
    (forall t bs, frame_ends (h ++ [e]) t bs -> ~ valid_frame bs) -> frames_in (h ++ [e]) fs
| frames_new : forall h fs e t bs, frames_in h fs ->
    frame_ends (h ++ [e]) t bs -> valid_frame bs -> frames_in (h ++ [e]) (fs ++ [(t, bs)]).

(** time of a frame in milliseconds, and its energy index in Wh *)
Definition at_ms (f : rframe) : Z := tv_sec (fst f) * 1000 + tv_usec (fst f) / 1000.
Definition wh (f : rframe) : Z := energy (content (snd f)).

(** The last 48 frames, newest first. *)
Definition recent (fs : list rframe) : list rframe := firstn 48 (rev fs).

(** The oldest of the recent frames that is at most [p] milliseconds older than the newest frame [n]. *)
Definition window_start (p : Z) (n : rframe) (fs : list rframe) : rframe :=
  last (filter (fun f => at_ms n - at_ms f <=? p) (recent fs)) n.

(** Meter and clock in normal operation: among the recent frames the clock did not go back and they span less than 2^32
    ms; the energy index did not decrease since the first frame and has not reached 2^32 - 1; the first frame was not
    received at second 1 (modulo 2^32) of the clock. *)
Definition normal (fs : list rframe) : Prop :=
  match fs with
  | [] => False
  | f1 :: _ =>
      (tv_sec (fst f1) - 1) mod 4294967296 <> 0 /\
      StronglySorted (fun a b => at_ms b <= at_ms a /\ wh b <= wh a) (recent fs) /\
      (forall a b, In a (recent fs) -> In b (recent fs) -> at_ms a - at_ms b < 4294967296) /\
      (forall f, In f fs -> wh f1 <= wh f < 4294967295)
  end.

(** The bytes of a frame, all received at the time of its STX (used for examples and counter-examples). *)
Definition sent (f : rframe) : list event := map (fun c => (fst f, c)) (frame_bytes (snd f)).
Definition arrivals (h : list event) : list pub_event := map (fun e => Byte (fst e) (snd e)) h.
Definition index_frame (s us : Z) (hc : list Z) : rframe :=
  (mk_tv s us, [enc_group 32 (str "HCHC", hc); enc_group 32 (str "HCHP", str "000000000")]).
