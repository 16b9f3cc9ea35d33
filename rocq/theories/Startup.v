(** Model of the time and of the LED during the start of the module: src/main.cpp:20-79, src/sys.cpp:284-294 and 363-376 (program built with
    ENABLE_LED; with or without ENABLE_OTA). *)
From Coq Require Import ZArith List Bool.
From Verif Require Import Base Config Tic Web Device Wifi.
Import ListNotations.
Open Scope Z_scope.

(** What setup() does, in order: the LED (on: LOW, src/led.h:15-23), delay(ms), an order to the radio (Wifi.v), ArduinoOTA.handle(). *)
Inductive moment := Lamp (on : bool) | Delay (ms : Z) | Radio (a : wifi_act) | ServesOta.

(** The loop that waits for the connection, src/sys.cpp:285-294, is [Wait200] in Wifi.v: its LED and its delays. *)
Definition moments (a : wifi_act) : list moment :=
  match a with
  | Wait200 => [Lamp true; Delay 50; Lamp false; Delay 150]
  | a => [Radio a]
  end.
(** for (uint8_t i = 0; i <= 10; i++), src/sys.cpp:368-375; [n]: turns left *)
Fixpoint ota_turns (n : nat) : list moment :=
  match n with
  | O => []
  | S n => Lamp true :: Delay 100 :: Lamp false :: Delay 200 :: ServesOta :: ota_turns n
  end.
(** setup, src/main.cpp:22-24 and 78; [ota]: ENABLE_OTA. The parts without LED, delay, radio or OTA are left out; their duration is not
    modelled. *)
Definition setup (ota : bool) (b : start) : option (device * list moment) :=
  '(d, acts) <- boot b ;;
  Some (d, Lamp true :: Delay 100 :: flat_map moments acts ++ (if ota then ota_turns 11 else []) ++ [Lamp false]).
