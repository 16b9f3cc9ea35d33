(** Model of the command "time": time_show and print_tm (src/timesync.cpp:52-133), printed by a program built with
    ENABLE_DEBUG (src/emptyserial.h). gmtime and localtime are those of Clock.v, with the fields tm_yday and tm_isdst that
    Clock.v leaves out; they and asctime are written after newlib, which is not in /repo. The list of the SNTP servers
    (src/timesync.cpp:114-131) is an argument, a text. *)
From Coq Require Import ZArith List Bool.
From Verif Require Import Base Tic Clock.
Import ListNotations.
Open Scope Z_scope.

(** gmtime_r, tm_yday: the days since January 1st, from the day of a year that begins in March (see [civil], Clock.v) *)
Definition gm_yday (t : Z) : Z :=
  let days := t / 86400 + 719468 in
  let era := days / 146097 in
  let eraday := days - era * 146097 in
  let erayear := (eraday - eraday / 1460 + eraday / 36524 - eraday / 146096) / 365 in
  let yearday := eraday - (365 * erayear + erayear / 4 - erayear / 100) in
  if 306 <=? yearday then yearday - 306 else yearday + 59 + (if isleap erayear then 1 else 0).
(** localtime_r, tm_yday: one more when the local day is the next one, 0 when it is in the next year *)
Definition local_yday (t : Z) : Z :=
  let g := gmtime t in
  if 24 <=? tm_hour g - offset_of t / 3600 then
    if (mon_lengths (tm_year g) (tm_mon g) <? tm_mday g + 1) && (tm_mon g + 1 =? 12) then 0 else gm_yday t + 1
  else gm_yday t.
(** localtime_r, tm_isdst *)
Definition local_isdst (t : Z) : Z := if offset_of t =? r_offset rule_winter then 1 else 0.

(** print_tm, src/timesync.cpp:52-69: every field as the C library keeps it. No field is negative from 1970 on. *)
Definition print_tm (what : list Z) (isdst yday : Z) (r : tm) : list Z :=
  what ++ str " isdst=" ++ dec isdst ++ str " yday=" ++ dec yday ++ str " wday=" ++ dec (tm_wday r) ++
  str " year=" ++ dec (tm_year r - 1900) ++ str " mon=" ++ dec (tm_mon r) ++ str " mday=" ++ dec (tm_mday r) ++
  str " hour=" ++ dec (tm_hour r) ++ str " min=" ++ dec (tm_min r) ++ str " sec=" ++ dec (tm_sec r).

(** asctime_r: "%.3s %.3s%3d %.2d:%.2d:%.2d %d\n" *)
Definition day_name (w : Z) : list Z :=
  nth (Z.to_nat w) [str "Sun"; str "Mon"; str "Tue"; str "Wed"; str "Thu"; str "Fri"; str "Sat"] [].
Definition mon_name (m : Z) : list Z :=
  nth (Z.to_nat m) [str "Jan"; str "Feb"; str "Mar"; str "Apr"; str "May"; str "Jun"; str "Jul"; str "Aug"; str "Sep";
    str "Oct"; str "Nov"; str "Dec"] [].
Definition asctime (r : tm) : list Z :=
  day_name (tm_wday r) ++ [32] ++ mon_name (tm_mon r) ++ repeat 32 (3 - length (dec (tm_mday r))) ++ dec (tm_mday r) ++ [32] ++
  padded 2 (tm_hour r) ++ [58] ++ padded 2 (tm_min r) ++ [58] ++ padded 2 (tm_sec r) ++ [32] ++ dec (tm_year r) ++ [10].
(** ctime *)
Definition ctime (t : Z) : list Z := asctime (localtime t).

(** time_show, src/timesync.cpp:71-133. [now]: time(nullptr); [sec], [usec]: gettimeofday, read before; [ms], [us]: millis()
    and micros(); MYTZ is TZ_Europe_Paris. println ends with CR LF, printf and ctime with LF. *)
Definition time_text (now sec usec ms us : Z) (servers : list Z) : list Z :=
  [13; 10] ++
  print_tm (str "localtime:") (local_isdst now) (local_yday now) (localtime now) ++ [13; 10] ++
  print_tm (str "gmtime:   ") 0 (gm_yday now) (gmtime now) ++ [13; 10] ++
  str "millis:    " ++ dec ms ++ [13; 10] ++
  str "micros:    " ++ dec us ++ [13; 10] ++
  str "gtod:      " ++ dec sec ++ str "s / " ++ dec usec ++ str "us" ++ [13; 10] ++
  str "time:      " ++ dec (now mod 4294967296) ++ [13; 10] ++
  str "timezone:  CET-1CEST,M3.5.0,M10.5.0/3" ++ [10] ++
  str "ctime:     " ++ ctime now ++
  servers ++ [13; 10].

(** time_is_set_scheduled, src/timesync.cpp:135-140 *)
Definition set_text (now : Z) : list Z := str "SNTP updated, time: " ++ ctime now.
