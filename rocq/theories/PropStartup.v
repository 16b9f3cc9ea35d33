(** Property C114: the start of the module: its duration, its LED and its rescue by an update over the air (src/main.cpp, src/sys.cpp). *)
From Coq Require Import ZArith List Bool Lia.
From Verif Require Import Base BaseFacts Config ConfigSpec ConfigProofs ConfigMain Tic Pages Sse Cpu Web WebSpec Wifi WifiSpec Device Publish Samples TicSamples WebSamples ChainSamples Startup StartupSpec StartupProofs StartupOta StartupSamples.
From Verif Require ConfigSamples Ota OtaSpec.
Import ListNotations.
Open Scope Z_scope.

(** From every flash memory and for every sequence of statuses: the LED is lit for a tenth of a second, gives one short flash for each wait (at most 50), then eleven longer ones
    if updates over the air are compiled in, and is off in the end; the delays are those of the flashes; the radio gets the orders of C48. *)
Theorem C114_start : forall ota b, start_ok b -> exists d ms w connected, setup ota b = Some (d, ms) /\ (w <= 50)%nat /\
  (if match text Ssid (cfg_of d) with [] => true | _ => false end then w = 0%nat /\ connected = (b_status b 0%nat =? 3) else waited (b_status b) w connected) /\
  (forall x, seen x ms = ((true, 100) :: flashes w 50 150 ++ (if ota then flashes 11 100 200 else []), false)) /\
  spent ms = 100 + 200 * Z.of_nat w + (if ota then 3300 else 0) /\ orders ms = radio_plan (cfg_of d) 0 connected /\
  services ms = if ota then 11%nat else 0%nat.
Proof. exact c114_start. Qed.
Print Assumptions C114_start.
(** Without its network the module opens its own after ten seconds (the comment of the code says five). *)
Theorem C114_alone : forall ota b d ms, start_ok b -> setup ota b = Some (d, ms) -> text Ssid (cfg_of d) <> [] -> (forall k, b_status b k <> 3) ->
  spent ms = 10100 + (if ota then 3300 else 0) /\
  exists key, orders ms = [Join (text Ssid (cfg_of d)) (match text Psk (cfg_of d) with [] => None | x => Some x end); Leave; OpenAp (firstn 31 (text Host (cfg_of d))) key; ApStationMode; AutoReconnect].
Proof. exact c114_alone. Qed.
Print Assumptions C114_alone.
(** Rescue: during the start, someone who knows the password of the settings can write any program or file system: the invitation and the answer
    come at any time before the last of the eleven calls of ArduinoOTA.handle. *)
Theorem C114_rescue : forall md5, OtaSpec.digits32 md5 -> forall c cmd port image p q nonce cn n before between,
  cmd = 0 \/ cmd = 100 -> length cn = 32%nat -> only_handles before -> only_handles between ->
  exists m, Ota.run md5 (before ++ Ota.Comes p (Ota.Invite cmd port (Z.of_nat (length image)) (md5 image)) nonce :: between ++
                     [Ota.Comes q (Ota.Answer cn (OtaSpec.response md5 (text OtaAuth c) nonce cn)) n; Ota.Handles true true image]) (Ota.boot md5 c) =
    (m, map (fun _ => []) before ++ [Ota.Challenge p nonce] :: map (fun _ => []) between ++ [[]; [Ota.Written cmd image; Ota.Restart]]).
Proof. exact c114_rescue. Qed.
Print Assumptions C114_rescue.
(** During the start, contrary to what happens later (C98), only an update that succeeds restarts the module. *)
Theorem C114_calm : forall md5 c es m os, Forall in_window es -> Ota.run md5 es (Ota.boot md5 c) = (m, os) -> In Ota.Restart (concat os) ->
  exists cmd image, In (Ota.Written cmd image) (concat os).
Proof. exact c114_calm. Qed.
Print Assumptions C114_calm.

(** A module whose network, home, is not there, or comes at the third status; a wrong answer, then the right one, during the start. *)
Example C114_case : exists d ms d' ms', start_ok (start_home (fun _ => 6)) /\ setup true (start_home (fun _ => 6)) = Some (d, ms) /\ text Ssid (cfg_of d) = str "home" /\
  spent ms = 13400 /\ start_ok (start_home (fun k => if Nat.eqb k 3 then 3 else 6)) /\
  setup false (start_home (fun k => if Nat.eqb k 3 then 3 else 6)) = Some (d', ms') /\
  seen false ms' = ([(true, 100); (true, 50); (false, 150); (true, 50); (false, 150)], false).
Proof. exact home_case. Qed.
Example C114_rescue_case : OtaSpec.digits32 toy /\ Forall in_window two_tries /\ snd (Ota.run toy two_tries (Ota.boot toy cfg_home)) =
  [[]; [Ota.Challenge 1 (str "n1")]; []; [Ota.Failed 2]; []; [Ota.Challenge 1 (str "n2")]; []; []; [Ota.Written 0 [233; 1]; Ota.Restart]].
Proof. split; [exact toy32|]. split; [repeat constructor|]. vm_compute. reflexivity. Qed.
