(** Specification of the configuration, file list, Wi-Fi scan and system pages. *)
From Coq Require Import ZArith List Bool Lia.
From Verif Require Import Base Config ConfigSpec Json Pages.
Import ListNotations.
Open Scope Z_scope.

(** ** The configuration page: each setting under the name of its form field, in this order. *)
Definition one (b : bool) : json := JNum (if b then str "1" else str "0").
Definition private_members (s : settings) : list (list Z * json) :=
  [ (str "ssid", JStr (s_ssid s)); (str "psk", JStr (s_psk s)); (str "host", JStr (s_host s));
    (str "ap_psk", JStr (s_ap_psk s)); (str "ota_auth", JStr (s_ota_auth s)); (str "ota_port", JNum (dec (s_ota_port s)));
    (str "username", JStr (s_username s)); (str "password", JStr (s_password s)) ].
Definition public_members (s : settings) : list (list Z * json) :=
  [ (str "sse_freq", JNum (dec (s_sse_freq s))); (str "cfg_led_tinfo", one (s_led s));
    (str "emon_host", JStr (s_emon_host s)); (str "emon_port", JNum (dec (s_emon_port s)));
    (str "emon_url", JStr (s_emon_url s)); (str "emon_apikey", JStr (s_emon_key s));
    (str "emon_node", JNum (dec (s_emon_node s))); (str "emon_freq", JNum (dec (s_emon_freq s)));
    (str "jdom_host", JStr (s_jdom_host s)); (str "jdom_port", JNum (dec (s_jdom_port s)));
    (str "jdom_url", JStr (s_jdom_url s)); (str "jdom_apikey", JStr (s_jdom_key s));
    (str "jdom_adco", JStr (s_jdom_adco s)); (str "jdom_freq", JNum (dec (s_jdom_freq s)));
    (str "httpreq_host", JStr (s_http_host s)); (str "httpreq_port", JNum (dec (s_http_port s)));
    (str "httpreq_url", JStr (s_http_url s)); (str "httpreq_use_post", one (s_use_post s));
    (str "httpreq_freq", JNum (dec (s_http_freq s))); (str "httpreq_trigger_ptec", one (s_ptec s));
    (str "httpreq_trigger_adps", one (s_adps s)); (str "httpreq_trigger_seuils", one (s_seuils s));
    (str "httpreq_seuil_bas", JNum (dec (s_seuil_bas s))); (str "httpreq_seuil_haut", JNum (dec (s_seuil_haut s))) ].

(** The members whose content a restricted client must not learn (the CRC depends on them). *)
Definition secret (f : fld) : bool :=
  match f with
  | Ssid | Psk | Host | ApPsk | OtaAuth | OtaPort | Username | Password | Crc => true
  | _ => false
  end.
Definition same_public (c1 c2 : cfg) : Prop := forall f, secret f = false -> get f c1 = get f c2.

(** ** Networks of the scan *)
Definition network_json (w : network) : json :=
  JObj [ (str "ssid", JStr (n_ssid w)); (str "rssi", JNum (decs (n_rssi w))); (str "bssi", JStr (n_bssid w));
         (str "channel", JNum (decs (n_channel w))); (str "encryptionType", JNum (decs (n_enc w))) ].

(** Entry of the system page. *)
Definition item_json (i : item) : json :=
  match i with
  | IText name v => JObj [(str "na", JStr name); (str "va", JStr v)]
  | INum name n => JObj [(str "na", JStr name); (str "va", JNum (dec n))]
  end.
Definition item_ready (i : item) : Prop :=
  match i with
  | IText name v => quotable name = true /\ quotable v = true
  | INum name n => quotable name = true /\ 0 <= n
  end.
