(** Specification of the start: the LED seen by someone, the time spent. *)
From Coq Require Import ZArith List Bool.
From Verif Require Import Base Config Web Wifi Startup.
From Verif Require Ota.
Import ListNotations.
Open Scope Z_scope.

(** What is seen of the LED: for each delay, whether it is lit and for how long; and how it is in the end. *)
Fixpoint seen (lit : bool) (l : list moment) : list (bool * Z) * bool :=
  match l with
  | [] => ([], lit)
  | Lamp on :: r => seen on r
  | Delay ms :: r => let '(s, e) := seen lit r in ((lit, ms) :: s, e)
  | _ :: r => seen lit r
  end.
(** The time spent in delays *)
Definition spent (l : list moment) : Z := fold_right (fun m t => match m with Delay ms => ms + t | _ => t end) 0 l.
Definition orders (l : list moment) : list wifi_act := flat_map (fun m => match m with Radio a => [a] | _ => [] end) l.
(** n flashes: lit [on] ms, then off [off] ms *)
Fixpoint flashes (n : nat) (on off : Z) : list (bool * Z) := match n with O => [] | S n => (true, on) :: (false, off) :: flashes n on off end.
(** The number of calls of ArduinoOTA.handle *)
Definition services (l : list moment) : nat := length (filter (fun m => match m with ServesOta => true | _ => false end) l).
(** Nothing but calls of ArduinoOTA.handle, whatever they can do *)
Definition only_handles (es : list Ota.event) : Prop := Forall (fun e => exists b c image, e = Ota.Handles b c image) es.
(** What can happen while setup() waits: datagrams, calls of ArduinoOTA.handle *)
Definition in_window (e : Ota.event) : Prop := match e with Ota.Comes _ _ _ | Ota.Handles _ _ _ => True | _ => False end.
