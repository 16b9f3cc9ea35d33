(** Model of the command "led" and of its timer (src/cli.cpp:38-62 and 268-277), with the rest of the board (Led.v), in a program
    built with ENABLE_CLI and ENABLE_LED, without ENABLE_OTA. *)
From Coq Require Import ZArith List Bool.
From Verif Require Import Base Publish Config Tic Web Device Led.
Import ListNotations.
Open Scope Z_scope.

(** The board, timer_blink (src/cli.cpp:38) and millis(). *)
Record keyed := mk_keyed { k_board : board; k_blink : timer; k_now : Z }.

(** One millisecond passes; loop() meets an event (Device.v); cli_loop_read() is called and looks at timer_blink (src/cli.cpp:273);
    a line "led <word>" is complete. The characters of the line itself are in Cli.v: they are not given to the meter. *)
Inductive kevent := KMs | KMeets (e : devent) | KTurn | KLed (word : list Z).

(** The LED alone is changed. *)
Definition with_lamp (on : bool) (b : board) : board := mk_board (b_dev b) on (b_tick b).

(** The command "led", src/cli.cpp:42-61: timer and LED (HIGH is off); another word does nothing. The trace on Serial is left out. *)
Definition led_command (word : list Z) (k : keyed) : keyed * list bout :=
  if beq word (str "off") then (mk_keyed (with_lamp false (k_board k)) (tm_disable (k_blink k)) (k_now k), [Lamp false])
  else if beq word (str "on") then (mk_keyed (with_lamp true (k_board k)) (tm_disable (k_blink k)) (k_now k), [Lamp true])
  else if beq word (str "blink") then (mk_keyed (k_board k) (tm_reset (k_now k) 200) (k_now k), [])
  else (k, []).

(** The beginning of cli_loop_read, src/cli.cpp:273-276: the LED is inverted when the timer has expired. *)
Definition blink_turn (k : keyed) : keyed * list bout :=
  let '(expired, t) := tm_expired (k_now k) (k_blink k) in
  let on := negb (b_lit (k_board k)) in
  if expired : bool then (mk_keyed (with_lamp on (k_board k)) t (k_now k), [Lamp on]) else (mk_keyed (k_board k) t (k_now k), []).

(** The board goes through an event of Led.v. *)
Definition on_board (r : res (option board * list bout)) (t : timer) (now : Z) : res (option keyed * list bout) :=
  match r with
  | Done (Some b, o) => Done (Some (mk_keyed b t now), o)
  | Done (None, o) => Done (None, o)
  | Undefined => Undefined
  | OutOfFuel => OutOfFuel
  end.
Definition kstep (fuel : nat) (sgn : bool) (e : kevent) (k : keyed) : res (option keyed * list bout) :=
  match e with
  | KMs => on_board (bstep fuel sgn Ms (k_board k)) (k_blink k) (u32 (k_now k + 1))
  | KMeets e => on_board (bstep fuel sgn (Meets e) (k_board k)) (k_blink k) (k_now k)
  | KTurn => let '(k', o) := blink_turn k in Done (Some k', o)
  | KLed w => let '(k', o) := led_command w k in Done (Some k', o)
  end.
(** The effects of each event, until a restart (as [brun], Led.v). *)
Fixpoint krun (fuel : nat) (sgn : bool) (es : list kevent) (k : keyed) : res (option keyed * list (list bout)) :=
  match es with
  | [] => Done (Some k, [])
  | e :: r =>
      match kstep fuel sgn e k with
      | Done (None, o) => Done (None, [o])
      | Done (Some k1, o) =>
          match krun fuel sgn r k1 with
          | Done (k2, os) => Done (k2, o :: os)
          | Undefined => Undefined
          | OutOfFuel => OutOfFuel
          end
      | Undefined => Undefined
      | OutOfFuel => OutOfFuel
      end
  end.
(** After setup(): src/main.cpp:78; timer_blink is built with neverExpires. *)
Definition keyed_of (d : device) (now : Z) : keyed := mk_keyed (board_of d) tm_init now.
