(** Model of the local time texts: Teleinfo::get_timestamp_iso8601 (src/teleinfo.h:331-337) and sys_time_now
    (src/sys.cpp:80-88), in the time zone of src/timesync.cpp:49 (TZ_Europe_Paris). gmtime, localtime and strftime are
    those of the C library of the target (newlib), which is not in /repo: they are written here after its source,
    function by function, restricted to what the two callers use. *)
From Coq Require Import ZArith List Bool Lia.
From Verif Require Import Base Tic.
Import ListNotations.
Open Scope Z_scope.

(** struct tm, with the full year (C stores year - 1900) and the months from 0; tm_yday is not used. *)
Record tm := mk_tm { tm_year : Z; tm_mon : Z; tm_mday : Z; tm_hour : Z; tm_min : Z; tm_sec : Z; tm_wday : Z }.

(** gmtime_r, days part, for days since 1970-01-01: years begin in March, eras have 400 years. Months from 0. *)
Definition civil (days : Z) : Z * Z * Z :=
  let days := days + 719468 in
  let era := days / 146097 in
  let eraday := days - era * 146097 in
  let erayear := (eraday - eraday / 1460 + eraday / 36524 - eraday / 146096) / 365 in
  let yearday := eraday - (365 * erayear + erayear / 4 - erayear / 100) in
  let month := (5 * yearday + 2) / 153 in
  let day := yearday - (153 * month + 2) / 5 + 1 in
  let month := if month <? 10 then month + 2 else month - 10 in
  let year := erayear + era * 400 + (if month <=? 1 then 1 else 0) in
  (year, month, day).

(** gmtime_r. [t] is a time_t; the time is never before 1970 (it starts from RTC_UTC_TEST, src/timesync.cpp:35). *)
Definition gmtime (t : Z) : tm :=
  let days := t / 86400 in
  let rem := t mod 86400 in
  let '(y, m, d) := civil days in
  mk_tm y m d (rem / 3600) (rem mod 3600 / 60) (rem mod 3600 mod 60) ((4 + days) mod 7).

(** isleap and __month_lengths *)
Definition isleap (y : Z) : bool := ((y mod 4 =? 0) && negb (y mod 100 =? 0)) || (y mod 400 =? 0).
Definition mon_lengths (y m : Z) : Z :=
  if m =? 1 then (if isleap y then 29 else 28)
  else if (m =? 3) || (m =? 5) || (m =? 8) || (m =? 10) then 30 else 31.

(** __tzcalc_limits: the days from 1970-01-01 to January 1st of the year *)
Definition year_days (y : Z) : Z :=
  (y - 1970) * 365 + (y - 1 - 1968) / 4 - (y - 1 - 1900) / 100 + (y - 1 - 1600) / 400.
Fixpoint days_before (y : Z) (n : nat) : Z :=
  match n with
  | O => 0
  | S n' => days_before y n' + mon_lengths y (Z.of_nat n')
  end.
(** "while (m_day >= ip[rule->m - 1]) m_day -= DAYSPERWEEK", at most five times *)
Fixpoint back_in_month (fuel : nat) (m_day len : Z) : Z :=
  match fuel with
  | O => m_day
  | S k => if len <=? m_day then back_in_month k (m_day - 7) len else m_day
  end.
(** A rule Mm.n.d/s with the offset (seconds west) of the time in force before the change *)
Record rule := mk_rule { r_m : Z; r_n : Z; r_d : Z; r_s : Z; r_offset : Z }.
Definition change (y : Z) (r : rule) : Z :=
  let days := year_days y + days_before y (Z.to_nat (r_m r - 1)) in
  let m_wday := (4 + days) mod 7 in
  let wday_diff := r_d r - m_wday in
  let wday_diff := if wday_diff <? 0 then wday_diff + 7 else wday_diff in
  let m_day := back_in_month 5 ((r_n r - 1) * 7 + wday_diff) (mon_lengths y (r_m r - 1)) in
  (days + m_day) * 86400 + r_s r + r_offset r.

(** TZ_Europe_Paris of the core's TZ.h: "CET-1CEST,M3.5.0,M10.5.0/3" (the default time of a change is 02:00:00) *)
Definition rule_summer : rule := mk_rule 3 5 0 7200 (-3600).
Definition rule_winter : rule := mk_rule 10 5 0 10800 (-7200).

(** localtime_r: the offset (seconds west), with the limits of the UTC year *)
Definition offset_of (t : Z) : Z :=
  let y := tm_year (gmtime t) in
  if (change y rule_summer <=? t) && (t <? change y rule_winter) then r_offset rule_winter else r_offset rule_summer.
(** localtime_r: the offset is a whole number of hours to the east, so only tm_hour changes, and it can only reach
    the next day; the branches for seconds, minutes and the day before are not written. *)
Definition localtime (t : Z) : tm :=
  let g := gmtime t in
  let hour := tm_hour g - offset_of t / 3600 in
  if 24 <=? hour then
    let wday := if 6 <? tm_wday g + 1 then 0 else tm_wday g + 1 in
    let mday := tm_mday g + 1 in
    if mon_lengths (tm_year g) (tm_mon g) <? mday then
      let mday := mday - mon_lengths (tm_year g) (tm_mon g) in
      if tm_mon g + 1 =? 12 then mk_tm (tm_year g + 1) 0 mday (hour - 24) (tm_min g) (tm_sec g) wday
      else mk_tm (tm_year g) (tm_mon g + 1) mday (hour - 24) (tm_min g) (tm_sec g) wday
    else mk_tm (tm_year g) (tm_mon g) mday (hour - 24) (tm_min g) (tm_sec g) wday
  else mk_tm (tm_year g) (tm_mon g) (tm_mday g) hour (tm_min g) (tm_sec g) (tm_wday g).

(** "%0nd" of a number without sign *)
Definition padded (n : nat) (v : Z) : list Z := pad0 n (dec v).
(** strftime(…, "%Y-%m-%dT%H:%M:%S%z", …): the offset is written "%+03ld%.2ld", in hours and minutes *)
Definition iso_text (r : tm) (offset : Z) : list Z :=
  padded 4 (tm_year r) ++ [45] ++ padded 2 (tm_mon r + 1) ++ [45] ++ padded 2 (tm_mday r) ++ [84] ++
  padded 2 (tm_hour r) ++ [58] ++ padded 2 (tm_min r) ++ [58] ++ padded 2 (tm_sec r) ++
  (if offset <=? 0 then [43] else [45]) ++ padded 2 (Z.abs offset / 3600) ++ padded 2 (Z.abs offset / 60 mod 60).
(** char buf[32]; [None]: the text does not fit, the contents of buf are undefined. *)
Definition iso8601 (t : Z) : option (list Z) :=
  let text := iso_text (localtime t) (offset_of t) in
  if (length text <? 32)%nat then Some text else None.

(** The environment of the application (Tic.v), with this clock *)
Definition clock_env (chip : Z) : env := mk_env (fun t => match iso8601 t with Some x => x | None => [] end) chip.
