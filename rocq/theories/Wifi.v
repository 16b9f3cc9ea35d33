(** Model of sys_wifi_connect, src/sys.cpp:214-379. *)
From Coq Require Import ZArith List Bool Lia.
From Verif Require Import Base Config.
Import ListNotations.
Open Scope Z_scope.

(** WL_CONNECTED of the library. *)
Definition WL_CONNECTED : Z := 3.

(** What is asked of the radio, in order: WiFi.begin with or without a key; 200 ms spent waiting; WiFi.mode(WIFI_STA);
    WiFi.disconnect(); WiFi.softAP with or without a key; WiFi.mode(WIFI_AP_STA); setAutoConnect and setAutoReconnect. *)
Inductive wifi_act :=
| Join (ssid : list Z) (key : option (list Z))
| Wait200
| StationMode
| Leave
| OpenAp (name : list Z) (key : option (list Z))
| ApStationMode
| AutoReconnect.

(** if ( *key ) with key, else without *)
Definition key_of (k : list Z) : option (list Z) := match k with [] => None | _ => Some k end.

(** The loop of src/sys.cpp:285-294. [st k] is the result of the k-th call of WiFi.status(); [timeout] the counter. Results:
    ret, number of calls made so far, actions. *)
Fixpoint wait_loop (timeout : nat) (st : nat -> Z) (k : nat) : Z * nat * list wifi_act :=
  if st k =? WL_CONNECTED then (st k, S k, [])
  else match timeout with
       | O => (st k, S k, [])
       | S t => let '(r, k', acts) := wait_loop t st (S k) in (r, k', Wait200 :: acts)
       end.

(** sys_wifi_connect. [ssid] and [psk] are WiFi.SSID() and WiFi.psk(); [o] what the flash does if the configuration is
    saved. The result is the returned status. The counter nb_reconnect, the LED, the log and the part under ENABLE_OTA are
    left out. ap_ssid has 32 bytes, strncpy_s copies at most 31 characters. *)
Definition sys_wifi_connect (o : outcome) (st : nat -> Z) (ssid psk : list Z) (s : cstate)
  : option (cstate * list wifi_act * Z) :=
  s' <- adopt_sdk o ssid psk s ;;
  let c := c_cfg s' in
  let '(ret, k, acts1) :=
    match text Ssid c with
    | [] => (st O, 1%nat, [])
    | _ => let '(r, k, w) := wait_loop 50 st 1 in (r, k, Join (text Ssid c) (key_of (text Psk c)) :: w)
    end in
  let acts2 :=
    if ret =? WL_CONNECTED then [StationMode]
    else [Leave; OpenAp (firstn 31 (text Host c)) (key_of (text ApPsk c)); ApStationMode] in
  Some (s', acts1 ++ acts2 ++ [AutoReconnect], st k).
