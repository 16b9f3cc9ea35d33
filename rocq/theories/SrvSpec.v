(** Specification of the development server. *)
From Coq Require Import ZArith List Bool Lia.
From Verif Require Import Base TeleinfoSpec ClockSpec Json Dash.
Import ListNotations.
Open Scope Z_scope.

(** What a text "2020-01-26T01:53:20Z" says: Z is the universal time (ISO 8601), so an instant [t], in seconds since
    1970-01-01T00:00:00 UTC. *)
Definition says_z (text : list Z) (t : Z) : Prop :=
  exists n y m d h mi s,
    text = ClockSpec.digits 4 y ++ str "-" ++ ClockSpec.digits 2 m ++ str "-" ++ ClockSpec.digits 2 d ++ str "T" ++
           ClockSpec.digits 2 h ++ str ":" ++ ClockSpec.digits 2 mi ++ str ":" ++ ClockSpec.digits 2 s ++ str "Z" /\
    date_of n = (y, m, d) /\ y <= 9999 /\ 0 <= h < 24 /\ 0 <= mi < 60 /\ 0 <= s < 60 /\
    t = Z.of_nat n * 86400 + h * 3600 + mi * 60 + s.

(** A value as the meter sends it: [v], completed with points. *)
Definition with_points (v sent : list Z) : Prop := exists n, sent = v ++ repeat 46 n.

(** What the page shows of the load: the badge of the tab, the text, the colour and the width of the bar. *)
Definition load_shown (w : screen) : list Z * list Z * list Z * Z := (badge w, charge w, bar_class w, bar_width w).
(** What the page knows of the load before a refresh. *)
Definition same_load (w w' : screen) : Prop := load_shown w = load_shown w' /\ isousc w = isousc w'.
