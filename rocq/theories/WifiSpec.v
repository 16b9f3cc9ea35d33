(** Specification of the Wi-Fi start-up. *)
From Coq Require Import ZArith List Bool Lia.
From Verif Require Import Base Config ConfigSpec Wifi.
Import ListNotations.
Open Scope Z_scope.

(** What is asked of the radio: join the network, if one is configured, and wait; then either the client mode alone, or the
    access point of the module, with its own name (31 characters at most) and key; finally, reconnect automatically. *)
Definition radio_plan (c : cfg) (waits : nat) (connected : bool) : list wifi_act :=
  let key k := match k with [] => None | _ => Some k end in
  match text Ssid c with [] => [] | _ => Join (text Ssid c) (key (text Psk c)) :: repeat Wait200 waits end
  ++ (if connected then [StationMode]
      else [Leave; OpenAp (firstn 31 (text Host c)) (key (text ApPsk c)); ApStationMode])
  ++ [AutoReconnect].

(** [st k]: the status read for the k-th time (3: connected). The status is read once before joining, then before each wait
    and after the last one. *)
Definition waited (st : nat -> Z) (waits : nat) (connected : bool) : Prop :=
  (waits <= 50)%nat /\ (forall k, (k < waits)%nat -> st (S k) <> 3) /\
  (if connected then st (S waits) = 3 else waits = 50%nat /\ st 51%nat <> 3).

(** The credentials of the SDK are adopted: network and key cut to 32 characters; no other setting changes. *)
Definition adopted (ssid psk : list Z) (c c' : cfg) : Prop :=
  text Ssid c' = cut 32 ssid /\ text Psk c' = cut 32 psk /\
  (forall f, is_text f = true -> f <> Ssid -> f <> Psk -> text f c' = text f c) /\
  (forall f, is_text f = false -> f <> Crc -> get f c' = get f c).
