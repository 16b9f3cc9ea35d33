(** Property theorems C108: the serial commands "set wifi" and "set ap". Specification: SetNetSpec.v, LifeSpec.v, WifiSpec.v. *)
From Coq Require Import ZArith List Bool Lia.
From Verif Require Import Base Teleinfo Publish Config ConfigSpec Tic Sse Cpu Web Wifi WifiSpec Device WebSpec DeviceProofs Samples WebSamples ChainSamples
  Cli CliSpec Life LifeSpec LifeProofs LifeFinal LifeSamples SetNetSpec SetNetProofs SetNetSamples.
Import ListNotations.
Open Scope Z_scope.

(** C108. At any moment of any life, when a command "set wifi" or "set ap" is carried out and the flash stores what it is given, the module restarts
    at once, and the settings that the command asks for (network and key, or own name and key, cut to their size; all the others as they were) are
    in use ever after, across any number of restarts and power cuts, as long as nothing writes them again - if they name a network. *)
Theorem C108_lasts_partial : forall fuel bd flash es1 d cl os1 a up tv c raw es2 m o os2 line s, build_ok bd -> flash_ok flash ->
  Forall ordinary_life (es1 ++ Event (DByte a up tv c) raw :: es2) ->
  lrun fuel bd es1 (Off flash) = Done (On d cl, os1) ->
  lrun fuel bd (Event (DByte a up tv c) raw :: es2) (On d cl) = Done (m, o :: os2) ->
  In (Command line) o -> sets_network (bd_parse bd line) (view (cfg_of d)) s -> a_flash a = Stored ->
  o = [Command line; Did RestartNow] /\
  (s_ssid s <> [] -> Forall2 (leaves_settings bd) es2 os2 ->
     (forall chip, settings_at_start chip (flash_of m) s) /\ match m with On d' _ => view (cfg_of d') = s | Off _ => True end).
Proof. exact c108_lasts. Qed.
Print Assumptions C108_lasts_partial.
(** At the next start the module asks the radio to join this network, with this key, and waits for it at most 50 times; if it does not get it, or if
    there is no network to join, it opens its own access point under its name and key. *)
Theorem C108_next_start_partial : forall fuel bd flash es d cl os a up tv c raw b m m' o o' line s, build_ok bd -> flash_ok flash ->
  Forall ordinary_life (es ++ [Event (DByte a up tv c) raw; PowerOn b]) ->
  lrun fuel bd es (Off flash) = Done (On d cl, os) ->
  lstep fuel bd (Event (DByte a up tv c) raw) (On d cl) = Done (m, o) -> In (Command line) o ->
  sets_network (bd_parse bd line) (view (cfg_of d)) s -> a_flash a = Stored ->
  lstep fuel bd (PowerOn b) m = Done (m', o') -> s_ssid s <> [] \/ cstr (b_ssid b) = [] ->
  exists d' waits connected, m' = On d' cli_init /\ view (cfg_of d') = s /\
    o' = map Radio (radio_plan (cfg_of d') waits connected) /\
    (s_ssid s <> [] -> In (Radio (Join (s_ssid s) (given_key (s_psk s)))) o' /\ waited (b_status b) waits connected) /\
    (connected = false -> In (Radio (OpenAp (firstn 31 (s_host s)) (given_key (s_ap_psk s)))) o').
Proof. exact c108_start. Qed.
Print Assumptions C108_next_start_partial.
(** ESC, "set wifi a b", return: the module joins "a" with the key "b". *)
Example C108_case : exists d os f d' o', build_ok typist /\ flash_ok (b_flash start1) /\ Forall ordinary_life (wifi_life ++ [enter around0; PowerOn far]) /\
  lrun 256 typist wifi_life (Off (b_flash start1)) = Done (On d (mk_cli true set_wifi), os) /\ s_ssid (view (cfg_of d)) = [] /\
  lstep 256 typist (enter around0) (On d (mk_cli true set_wifi)) = Done (Off f, [Command (set_wifi ++ [13]); Did RestartNow]) /\
  sets_network (bd_parse typist (set_wifi ++ [13])) (view (cfg_of d)) (to_join (str "a") (str "b") (view (cfg_of d))) /\
  lstep 256 typist (PowerOn far) (Off f) = Done (On d' cli_init, o') /\ In (Radio (Join (str "a") (Some (str "b")))) o'.
Proof.
  destruct joins as (d & os & f & d' & o' & R & E & E2 & _ & _ & J & S0 & _). exists d, os, f, d', o'.
  split; [exact typist_ok|]. split; [exact flash1_ok|]. split; [exact first_ordinary|]. split; [exact R|]. split; [exact S0|]. split; [exact E|].
  split; [exact (sets_wifi [str "a"; str "b"] (view (cfg_of d)))|]. split; [exact E2|exact J].
Qed.
(** "set ap x y" asks for the name "x" and the key "y". *)
Example C108_case_ap : forall s, sets_network (bd_parse typist (set_ap ++ [13])) s (to_open (str "x") (str "y") s) /\
  s_host (to_open (str "x") (str "y") s) = str "x" /\ s_ap_psk (to_open (str "x") (str "y") s) = str "y" /\ s_ssid (to_open (str "x") (str "y") s) = s_ssid s.
Proof. intros s. split; [exact (sets_ap [str "x"; str "y"] s)|]. repeat split. Qed.

(** The full claim is false in two ways. The command typed without a network, which should do nothing, makes the module forget the network that it
    is using: it never joins it again. *)
Theorem C108_erased_refuted : exists bd flash es d cl os a up tv c raw b f line d' o', build_ok bd /\ flash_ok flash /\
  Forall ordinary_life (es ++ [Event (DByte a up tv c) raw; PowerOn b]) /\ a_flash a = Stored /\
  lrun 256 bd es (Off flash) = Done (On d cl, os) /\ s_ssid (view (cfg_of d)) = str "a" /\ In (Radio (Join (str "a") (Some (str "b")))) (concat os) /\
  lstep 256 bd (Event (DByte a up tv c) raw) (On d cl) = Done (Off f, [Command line; Did RestartNow]) /\ bd_parse bd line = CSet [str "wifi"] /\
  lstep 256 bd (PowerOn b) (Off f) = Done (On d' cli_init, o') /\ s_ssid (view (cfg_of d')) = [] /\ forall ssid key, ~ In (Radio (Join ssid key)) o'.
Proof.
  destruct erases as (d & os & f & d' & o' & R & S & J & E & E2 & S' & N).
  exists typist, (b_flash start1), erasing_life, d, (mk_cli true set_nothing), os, around0, (fun _ => true), now0, 13, raw0, far, f, (set_nothing ++ [13]), d', o'.
  split; [exact typist_ok|]. split; [exact flash1_ok|]. split; [exact second_ordinary|]. split; [reflexivity|]. split; [exact R|]. split; [exact S|].
  split; [exact J|]. split; [exact E|]. split; [reflexivity|]. split; [exact E2|]. split; [exact S'|exact N].
Qed.
Print Assumptions C108_erased_refuted.
(** And if the flash does not take the settings, the module restarts in the same way, with the old ones. *)
Theorem C108_not_stored : forall fuel bd flash es d cl os a up tv c raw m o line s, build_ok bd -> flash_ok flash ->
  Forall ordinary_life (es ++ [Event (DByte a up tv c) raw]) ->
  lrun fuel bd es (Off flash) = Done (On d cl, os) ->
  lstep fuel bd (Event (DByte a up tv c) raw) (On d cl) = Done (m, o) -> In (Command line) o ->
  sets_network (bd_parse bd line) (view (cfg_of d)) s -> a_flash a = NotErased ->
  o = [Command line; Did RestartNow] /\ m = Off (flash_of (On d cl)).
Proof. exact c108_not_stored. Qed.
Print Assumptions C108_not_stored.
Theorem C108_not_stored_refuted : exists bd flash es d cl os a up tv c raw line d' o', build_ok bd /\ a_flash a = NotErased /\
  lrun 256 bd es (Off flash) = Done (On d cl, os) /\ bd_parse bd line = CSet [str "wifi"; str "a"; str "b"] /\
  lstep 256 bd (Event (DByte a up tv c) raw) (On d cl) = Done (Off flash, [Command line; Did RestartNow]) /\
  lstep 256 bd (PowerOn start1) (Off flash) = Done (On d' cli_init, o') /\ s_ssid (view (cfg_of d')) = [].
Proof.
  destruct forgets as (d & os & d' & o' & R & E & S & V).
  exists typist, (b_flash start1), wifi_life, d, (mk_cli true set_wifi), os, worn, (fun _ => true), now0, 13, raw0, (set_wifi ++ [13]), d', o'.
  split; [exact typist_ok|]. split; [reflexivity|]. split; [exact R|]. split; [reflexivity|]. split; [exact E|]. split; [exact S|exact V].
Qed.
Print Assumptions C108_not_stored_refuted.
