(** Properties of the command "time". *)
From Coq Require Import ZArith List Bool Lia.
From Verif Require Import Base Clock ClockSpec ClockProofs ShowSpec TimeShow TimeShowSpec TimeShowProofs.
Import ListNotations.
Open Scope Z_scope.

(** C118. The lines printed by "time": the legal time of France and the time at Greenwich of the same instant, field by field
    ([clock_at], [fields_line], [date_text]: TimeShowSpec.v; [summer]: ClockSpec.v); the counters since the start; the
    number of seconds; the date, whose day of the week, day, month and year are those of the local time. *)
Theorem C118_time : forall now sec usec ms us servers, 0 <= now < 253402300800 - 7200 ->
  exists n o y m d j h mi s n' y' m' d' j' h' mi' s',
    clock_at now o n y m d j h mi s /\ (summer now /\ o = 2 \/ ~ summer now /\ o = 1) /\ y <= 9999 /\
    clock_at now 0 n' y' m' d' j' h' mi' s' /\
    lines_of (time_text now sec usec ms us servers) =
      [str "";
       fields_line (str "localtime:") (if o =? 2 then 1 else 0) n y m d j h mi s;
       fields_line (str "gmtime:   ") 0 n' y' m' d' j' h' mi' s';
       str "millis:    " ++ dec ms;
       str "micros:    " ++ dec us;
       str "gtod:      " ++ dec sec ++ str "s / " ++ dec usec ++ str "us";
       str "time:      " ++ dec (now mod 4294967296);
       str "timezone:  CET-1CEST,M3.5.0,M10.5.0/3";
       str "ctime:     " ++ date_text n y m d h mi s] ++ lines_of (servers ++ [13; 10]).
Proof. exact c118. Qed.
Print Assumptions C118_time.
(** On New Year's Eve, when the local year has begun and the year at Greenwich has not; on the last day of a leap year. *)
Example C118_time_case :
  lines_of (time_text 1735687800 1735687800 5 120 120456 []) =
    [[]; str "localtime: isdst=0 yday=0 wday=3 year=125 mon=0 mday=1 hour=0 min=30 sec=0";
     str "gmtime:    isdst=0 yday=365 wday=2 year=124 mon=11 mday=31 hour=23 min=30 sec=0";
     str "millis:    120"; str "micros:    120456"; str "gtod:      1735687800s / 5us"; str "time:      1735687800";
     str "timezone:  CET-1CEST,M3.5.0,M10.5.0/3"; str "ctime:     Wed Jan  1 00:30:00 2025"; []].
Proof. vm_compute. reflexivity. Qed.
Example C118_summer_case :
  nth 1 (lines_of (time_text 1720000000 0 0 0 0 [])) [] = str "localtime: isdst=1 yday=184 wday=3 year=124 mon=6 mday=3 hour=11 min=46 sec=40" /\
  nth 8 (lines_of (time_text 1720000000 0 0 0 0 [])) [] = str "ctime:     Wed Jul  3 11:46:40 2024".
Proof. split; vm_compute; reflexivity. Qed.

(** Two instants never give the same text (as long as the seconds fit 32 bits, until 2106). *)
Theorem C118_instant : forall now now' sec sec' usec usec' ms ms' us us' servers servers',
  0 <= now < 4294967296 -> 0 <= now' < 4294967296 ->
  time_text now sec usec ms us servers = time_text now' sec' usec' ms' us' servers' -> now = now'.
Proof. exact c118_instant. Qed.
Print Assumptions C118_instant.
Example C118_instant_case : time_text 1635640200 0 0 0 0 [] <> time_text 1635643800 0 0 0 0 [].
Proof. intros E. apply C118_instant in E; lia. Qed.

(** The message printed when the time arrives from the network. *)
Theorem C118_set : forall now, 0 <= now < 253402300800 - 7200 -> exists n o y m d j h mi s, clock_at now o n y m d j h mi s /\
  (summer now /\ o = 2 \/ ~ summer now /\ o = 1) /\ y <= 9999 /\
  set_text now = str "SNTP updated, time: " ++ date_text n y m d h mi s ++ [10].
Proof. exact c118_set. Qed.
Print Assumptions C118_set.
Example C118_set_case : set_text 1580000000 = str "SNTP updated, time: Sun Jan 26 01:53:20 2020" ++ [10] /\
  set_text 1709164800 = str "SNTP updated, time: Thu Feb 29 01:00:00 2024" ++ [10].
Proof. split; vm_compute; reflexivity. Qed.
(** That message alone does not tell the instant: the hour that comes twice in October. *)
Theorem C118_set_refuted : exists now now', 0 <= now < now' /\ now' < 4294967296 /\ set_text now = set_text now'.
Proof. exists 1635640200, 1635643800. split; [lia|]. split; [lia|]. vm_compute. reflexivity. Qed.
Print Assumptions C118_set_refuted.

(** The field "mon" is not the month of the date: it counts from 0, and "year" from 1900. On January 26th, 2020: *)
Theorem C118_month_refuted : exists now n y m d, clock_at now 0 n y m d 25 0 53 20 /\ y = 2020 /\ m = 1 /\
  nth 2 (lines_of (time_text now now 0 0 0 [])) [] =
    str "gmtime:    isdst=0 yday=25 wday=0 year=120 mon=0 mday=26 hour=0 min=53 sec=20".
Proof.
  exists 1580000000, (Z.to_nat 18287), 2020, 1, 26. split; [|split; [reflexivity|split; [reflexivity | vm_compute; reflexivity]]].
  assert (D : forall z, 0 <= z -> date_of (Z.to_nat z) = civil1 z) by (intros z H; rewrite <- civil_date, Z2Nat.id by exact H; reflexivity).
  split; [rewrite D by lia; reflexivity|]. split; [exists (Z.to_nat 18262); rewrite D by lia; split; [reflexivity | lia]|].
  repeat split; lia.
Qed.
Print Assumptions C118_month_refuted.
