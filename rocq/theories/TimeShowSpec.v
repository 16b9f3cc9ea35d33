(** Specification of what the command "time" prints. *)
From Coq Require Import ZArith List Bool.
From Verif Require Import Base ClockSpec.
Import ListNotations.
Open Scope Z_scope.

(** [n] is the day, (y, m, d) its date and [j] the day's place in its year (0 for January 1st); h:mi:s is the time at [o]
    hours to the east of Greenwich, of the instant [t]. *)
Definition clock_at (t o : Z) (n : nat) (y m d j h mi s : Z) : Prop :=
  date_of n = (y, m, d) /\ (exists first, date_of first = (y, 1, 1) /\ Z.of_nat n = Z.of_nat first + j) /\ 0 <= j /\
  0 <= h < 24 /\ 0 <= mi < 60 /\ 0 <= s < 60 /\ t + o * 3600 = Z.of_nat n * 86400 + h * 3600 + mi * 60 + s.

(** The line of fields: the year is counted from 1900 and the month from 0. *)
Definition fields_line (name : list Z) (dst : Z) (n : nat) (y m d j h mi s : Z) : list Z :=
  name ++ str " isdst=" ++ dec dst ++ str " yday=" ++ dec j ++ str " wday=" ++ dec (weekday n) ++
  str " year=" ++ dec (y - 1900) ++ str " mon=" ++ dec (m - 1) ++ str " mday=" ++ dec d ++
  str " hour=" ++ dec h ++ str " min=" ++ dec mi ++ str " sec=" ++ dec s.

Definition day_names : list (list Z) := [str "Sun"; str "Mon"; str "Tue"; str "Wed"; str "Thu"; str "Fri"; str "Sat"].
Definition month_names : list (list Z) :=
  [str "Jan"; str "Feb"; str "Mar"; str "Apr"; str "May"; str "Jun"; str "Jul"; str "Aug"; str "Sep"; str "Oct"; str "Nov"; str "Dec"].
(** "Sun Jan 26 01:53:20 2020" *)
Definition date_text (n : nat) (y m d h mi s : Z) : list Z :=
  nth (Z.to_nat (weekday n)) day_names [] ++ str " " ++ nth (Z.to_nat (m - 1)) month_names [] ++ str " " ++
  (if d <? 10 then str " " ++ digits 1 d else digits 2 d) ++ str " " ++
  digits 2 h ++ str ":" ++ digits 2 mi ++ str ":" ++ digits 2 s ++ str " " ++ digits 4 y.
