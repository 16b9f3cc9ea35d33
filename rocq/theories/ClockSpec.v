(** Specification for the local time: the calendar counted day by day, and the legal time of France. *)
From Coq Require Import ZArith List Bool Lia.
From Verif Require Import Base.
Import ListNotations.
Open Scope Z_scope.

(** The Gregorian calendar. A date is (year, month from 1 to 12, day). *)
Definition leap (y : Z) : Prop := (y mod 4 = 0 /\ y mod 100 <> 0) \/ y mod 400 = 0.
Definition leapb (y : Z) : bool := ((y mod 4 =? 0) && negb (y mod 100 =? 0)) || (y mod 400 =? 0).
Definition month_length (y m : Z) : Z := nth (Z.to_nat (m - 1)) [31; if leapb y then 29 else 28; 31; 30; 31; 30; 31; 31; 30; 31; 30; 31] 0.
Definition date : Type := (Z * Z * Z)%type.
Definition tomorrow (x : date) : date :=
  let '(y, m, d) := x in
  if d <? month_length y m then (y, m, d + 1)
  else if m <? 12 then (y, m + 1, 1)
  else (y + 1, 1, 1).
(** Day number n: n days after 1970-01-01, which was a Thursday (Sunday is 0). *)
Definition date_of (n : nat) : date := Nat.iter n tomorrow (1970, 1, 1).
Definition weekday (n : nat) : Z := (4 + Z.of_nat n) mod 7.

(** The last Sunday of a month *)
Definition last_sunday (y m : Z) (n : nat) : Prop :=
  weekday n = 0 /\ exists d, date_of n = (y, m, d) /\ month_length y m < d + 7.

(** Summer time: from 01:00 UTC of the last Sunday of March to 01:00 UTC of the last Sunday of October *)
Definition summer (t : Z) : Prop :=
  exists y a b, last_sunday y 3 a /\ last_sunday y 10 b /\
    Z.of_nat a * 86400 + 3600 <= t < Z.of_nat b * 86400 + 3600.

(** Decimal digits of fixed width *)
Fixpoint digits (n : nat) (v : Z) : list Z :=
  match n with
  | O => []
  | S n' => digits n' (v / 10) ++ [48 + v mod 10]
  end.

(** What a text "2020-01-26T01:53:20+0100" says: date, hour, minute, second, and [o], the hours to the east of
    Greenwich, hence an instant [t], in seconds since 1970-01-01T00:00:00 UTC. *)
Definition says (text : list Z) (o t : Z) : Prop :=
  exists n y m d h mi s,
    text = digits 4 y ++ str "-" ++ digits 2 m ++ str "-" ++ digits 2 d ++ str "T" ++
           digits 2 h ++ str ":" ++ digits 2 mi ++ str ":" ++ digits 2 s ++ str "+" ++ digits 2 o ++ str "00" /\
    date_of n = (y, m, d) /\ y <= 9999 /\ 0 <= h < 24 /\ 0 <= mi < 60 /\ 0 <= s < 60 /\ 0 <= o < 24 /\
    t = Z.of_nat n * 86400 + h * 3600 + mi * 60 + s - o * 3600.

(** The order of texts, as "sort" puts them *)
Definition before (a b : list Z) : Prop := exists p x y a' b', a = p ++ x :: a' /\ b = p ++ y :: b' /\ x < y.
