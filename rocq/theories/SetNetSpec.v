(** Specification of the serial commands that change the networks: "set wifi" and "set ap". *)
From Coq Require Import ZArith List Bool Lia.
From Verif Require Import Base Config ConfigSpec Wifi Cli Life.
Import ListNotations.
Open Scope Z_scope.

(** The same settings with another network to join (name and key), or another name and key of the module's own access point. *)
Definition with_network (ssid key host ap_key : list Z) (s : settings) : settings :=
  mk_settings ssid key host ap_key (s_ota_auth s) (s_ota_port s) (s_username s) (s_password s) (s_sse_freq s) (s_led s)
    (s_emon_host s) (s_emon_key s) (s_emon_url s) (s_emon_port s) (s_emon_node s) (s_emon_freq s)
    (s_jdom_host s) (s_jdom_key s) (s_jdom_url s) (s_jdom_adco s) (s_jdom_port s) (s_jdom_freq s)
    (s_http_host s) (s_http_url s) (s_http_port s) (s_http_freq s)
    (s_adps s) (s_ptec s) (s_seuils s) (s_use_post s) (s_seuil_haut s) (s_seuil_bas s).
Definition to_join (ssid key : list Z) (s : settings) : settings := with_network (cut 32 ssid) (cut 64 key) (s_host s) (s_ap_psk s) s.
Definition to_open (name key : list Z) (s : settings) : settings := with_network (s_ssid s) (s_psk s) (cut 16 name) (cut 64 key) s.

(** What the command asks for; a word that was not typed is empty. *)
Inductive sets_network : command -> settings -> settings -> Prop :=
| sets_wifi : forall words s, sets_network (CSet (str "wifi" :: words)) s (to_join (nth 0 words []) (nth 1 words []) s)
| sets_ap : forall words s, sets_network (CSet (str "ap" :: words)) s (to_open (nth 0 words []) (nth 1 words []) s).

(** A key as given to the radio: none if empty. *)
Definition given_key (k : list Z) : option (list Z) := match k with [] => None | _ => Some k end.
