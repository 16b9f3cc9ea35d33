(** Model of src/led.h and of the timer shared by the LED and the restart of src/update.cpp (static Ticker blink, :19). *)
From Coq Require Import ZArith List Bool Lia.
From Verif Require Import Base Teleinfo Publish Config JsonBuild Tic Pages Sse Cpu Web Wifi Device.
Import ListNotations.
Open Scope Z_scope.

(** The timer: stopped; blink.attach_ms(333, led_toggle), src/update.cpp:107-109; blink.once_ms(500, ESP.restart), :89-91;
    with the milliseconds that remain. The library has one action per timer: attaching another one forgets the first. Its
    callbacks run between two events of loop(), never in the middle of one (they are tasks of the SDK). *)
Inductive ticker := Stopped | Blinking (left : Z) | Restarting (left : Z).

(** The device with its LED (on: LOW, src/led.h:17-25) and the timer, in a program built with ENABLE_LED and without
    ENABLE_CLI and ENABLE_OTA (both have other uses of the LED: the command "led", src/cli.cpp:41-62, and
    src/sys.cpp:366-374, 408-422). *)
Record board := mk_board { b_dev : device; b_lit : bool; b_tick : ticker }.

(** One millisecond passes, or loop() meets an event. *)
Inductive bevent := Ms | Meets (e : devent).

(** The LED is switched; the other effects; the module restarts. *)
Inductive bout := Lamp (on : bool) | Other (o : out) | Restarted.

(** The callbacks of the timer. [None]: the module restarts. led_toggle: src/led.h:27-30 *)
Definition pass (b : board) : option board * list bout :=
  match b_tick b with
  | Stopped => (Some b, [])
  | Blinking n =>
      if n - 1 <=? 0 then (Some (mk_board (b_dev b) (negb (b_lit b)) (Blinking 333)), [Lamp (negb (b_lit b))])
      else (Some (mk_board (b_dev b) (b_lit b) (Blinking (n - 1))), [])
  | Restarting n =>
      if n - 1 <=? 0 then (None, [Restarted])
      else (Some (mk_board (b_dev b) (b_lit b) (Restarting (n - 1))), [])
  end.

(** Was a frame published by this byte: the condition of src/tic.cpp:63, see [receive] *)
Definition published_now (sgn : bool) (e : devent) (d : device) : bool :=
  match e with
  | DByte _ _ tv c => match tic_decode sgn tv c (d_pub d) with Some (_, fresh) => fresh | None => false end
  | _ => false
  end.
(** if (config.options & OPTION_LED_TINFO), src/tic.cpp:65-68 and 80-83; nothing between the two changes the options. *)
Definition flash (sgn : bool) (e : devent) (d : device) (os : list bout) : list bout :=
  if published_now sgn e d && bit 0 Options (cfg_of d) then Lamp true :: os ++ [Lamp false] else os.

(** What is done to the timer by the upload handler, src/update.cpp:36-39 and 105-110: [None]: nothing. The LED is
    switched off each time the timer is stopped by sys_update_finish. *)
Definition upload_ticker (u : upload) : option ticker :=
  match u with
  | UpStart _ _ ok _ => Some (if ok then Blinking 333 else Stopped)
  | UpWrite _ ok _ => if ok then None else Some Stopped
  | UpEnd _ | UpAborted _ => Some Stopped
  end.
Definition restart_now (o : out) : bool := match o with RestartNow => true | _ => false end.
Definition restart_soon (o : out) : bool := match o with RestartSoon => true | _ => false end.

(** One event. [None]: the module restarts (at once for RestartNow). *)
Definition bstep (fuel : nat) (sgn : bool) (e : bevent) (b : board) : res (option board * list bout) :=
  match e with
  | Ms => Done (pass b)
  | Meets e =>
      match dstep fuel sgn e (b_dev b) with
      | Done (d, os) =>
          let shown := map Other os in
          if existsb restart_now os then Done (None, shown ++ [Restarted])
          else
            match e with
            | DUpload _ u =>
                match upload_ticker u with
                | None => Done (Some (mk_board d (b_lit b) (b_tick b)), shown)
                | Some Stopped => Done (Some (mk_board d false Stopped), Lamp false :: shown)
                | Some t => Done (Some (mk_board d (b_lit b) t), shown)
                end
            | _ =>
                let lit := if published_now sgn e (b_dev b) && bit 0 Options (cfg_of (b_dev b)) then false else b_lit b in
                Done (Some (mk_board d lit (if existsb restart_soon os then Restarting 500 else b_tick b)), flash sgn e (b_dev b) shown)
            end
      | Undefined => Undefined
      | OutOfFuel => OutOfFuel
      end
  end.

(** The effects of each event, until a restart. *)
Fixpoint brun (fuel : nat) (sgn : bool) (es : list bevent) (b : board) : res (option board * list (list bout)) :=
  match es with
  | [] => Done (Some b, [])
  | e :: r =>
      match bstep fuel sgn e b with
      | Done (None, o) => Done (None, [o])
      | Done (Some b1, o) =>
          match brun fuel sgn r b1 with
          | Done (b2, os) => Done (b2, o :: os)
          | Undefined => Undefined
          | OutOfFuel => OutOfFuel
          end
      | Undefined => Undefined
      | OutOfFuel => OutOfFuel
      end
  end.

(** The end of setup(), src/main.cpp:78: the LED is off (it is on at the beginning, and blinks during the connection,
    src/sys.cpp:286-294). *)
Definition board_of (d : device) : board := mk_board d false Stopped.
