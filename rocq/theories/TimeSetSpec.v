(** Specification for C93: the clock of the module starts at a fixed date and is set later. *)
From Coq Require Import ZArith List Bool Sorted.
From Verif Require Import Base Teleinfo TeleinfoSpec Publish HistorySpec WattSpec.
Import ListNotations.
Open Scope Z_scope.

(** The date given to the clock at the start, until a time server answers: RTC_UTC_TEST, 13 November 2017 17:07:05 UTC
    (src/timesync.cpp:35, time_setup, src/timesync.cpp:144-150). *)
Definition start_date : Z := 1510592825.

(** A frame as it came: microseconds since the start of the module, and groups. *)
Definition came := (Z * list (list Z))%type.

(** The time kept with it, when the clock showed the date [d] (in microseconds since 1970) at the start of the module. *)
Definition kept (d : Z) (c : came) : rframe := (mk_tv ((d + fst c) / 1000000) ((d + fst c) mod 1000000), snd c).

(** Power in watts between two frames, from the index (Wh) and the time (ms) they were received at. *)
Definition slope (o n : rframe) : Z := if at_ms n =? at_ms o then 0 else 3600000 * (wh n - wh o) / (at_ms n - at_ms o).

(** [bef] then [aft] were received, the clock having been set in between. The frames received since have increasing times
    (the last 48 span less than 2^32 ms) and the index never decreased; the first frame of all was not received at second
    1 of the clock. Nothing is said of the times kept with [bef]. *)
Definition set_between (bef aft : list rframe) : Prop :=
  match bef ++ aft with
  | [] => False
  | f1 :: _ =>
      (tv_sec (fst f1) - 1) mod 4294967296 <> 0 /\
      StronglySorted (fun a b => at_ms b <= at_ms a /\ wh b <= wh a) (recent aft) /\
      (forall a b, In a (recent aft) -> In b (recent aft) -> at_ms a - at_ms b < 4294967296) /\
      (forall f, In f (bef ++ aft) -> wh f1 <= wh f < 4294967295)
  end.

(** The last frame received before the clock was set does not look like one of the last [p] milliseconds: differences of
    times are kept modulo 2^32 ms (49.7 days). *)
Definition told_apart (p : Z) (bef : list rframe) (n : rframe) : Prop :=
  match rev bef with [] => True | b :: _ => p < (at_ms n - at_ms b) mod 4294967296 end.

(** The energy index (Wh) a frame carries. *)
Definition index_of (c : came) : Z := energy (content (snd c)).

(** Since the start of the module: frames [cs1] before the clock is set, [cs2] after. They come one after the other, the
    index does not decrease and is below 2^32 - 1, and the module has not run (or 49 days have not passed between the last
    48 frames) beyond what its clock can count; [d] is the real date of the start, in microseconds. *)
Definition since_start (d : Z) (cs1 cs2 : list came) : Prop :=
  StronglySorted (fun a b => fst a <= fst b /\ index_of a <= index_of b) (cs1 ++ cs2) /\
  (forall c, In c (cs1 ++ cs2) -> index_of c < 4294967295 /\ 0 <= fst c < 2147483648000000) /\
  (forall a b, In a (firstn 48 (rev cs2)) -> In b (firstn 48 (rev cs2)) -> fst a - fst b < 4294967295000) /\
  start_date * 1000000 <= d < 2147483648000000.

(** The jump of the clock, in milliseconds modulo 2^32, is more than [p], and less than 2^32 by more than the time between
    the last frame before and the newest frame [n]. *)
Definition clear_jump (p d : Z) (cs1 : list came) (n : came) : Prop :=
  match rev cs1 with
  | [] => True
  | b :: _ => p < ((d - start_date * 1000000) / 1000) mod 4294967296 < 4294967296 - (fst n - fst b) / 1000 - 2
  end.
