(** Specification of what the commands "config", "ls" and "get ver" print. *)
From Coq Require Import ZArith List Bool.
From Verif Require Import Base Config ConfigSpec JsonBuild.
Import ListNotations.
Open Scope Z_scope.

(** A text that fits in a line. *)
Definition one_line (d : list Z) : Prop := Forall (fun c => c <> 10 /\ c <> 13) d.

(** The texts among the settings. *)
Definition texts (s : settings) : list (list Z) :=
  [s_ssid s; s_psk s; s_host s; s_ap_psk s; s_ota_auth s; s_username s; s_password s; s_emon_host s; s_emon_key s; s_emon_url s;
   s_jdom_host s; s_jdom_key s; s_jdom_url s; s_jdom_adco s; s_http_host s; s_http_url s].

(** What is printed: the beginning of the line and the rest. The URL of the notifications is alone on its line. *)
Definition labelled (s : settings) : list (list Z * list Z) :=
  [(str "", str ""); (str "===== Wi-Fi", str "");
   (str "ssid     :", s_ssid s); (str "psk      :", s_psk s); (str "host     :", s_host s);
   (str "===== Advanced", str "");
   (str "ap_psk   :", s_ap_psk s); (str "OTA auth :", s_ota_auth s); (str "OTA port :", dec (s_ota_port s));
   (str "Username :", s_username s); (str "Password :", s_password s); (str "SSE freq :", dec (s_sse_freq s));
   (str "Config   :", if s_led s then str " LED_TINFO" else str "");
   (str "===== Emoncms", str "");
   (str "host     :", s_emon_host s); (str "port     :", dec (s_emon_port s)); (str "url      :", s_emon_url s);
   (str "key      :", s_emon_key s); (str "node     :", dec (s_emon_node s)); (str "freq     :", dec (s_emon_freq s));
   (str "===== Jeedom", str "");
   (str "host     :", s_jdom_host s); (str "port     :", dec (s_jdom_port s)); (str "url      :", s_jdom_url s);
   (str "key      :", s_jdom_key s); (str "compteur :", s_jdom_adco s); (str "freq     :", dec (s_jdom_freq s));
   (str "===== HTTP request", str "");
   (str "host      : ", s_http_host s); (str "port      : ", dec (s_http_port s));
   (str "url       : method    : ", if s_use_post s then str "POST" else str "GET");
   (str "", s_http_url s); (str "freq      : ", dec (s_http_freq s));
   (str "notifs    :", (if s_ptec s then str " PTEC" else str "") ++ (if s_adps s then str " ADPS" else str "")
                       ++ (if s_seuils s then str " seuils" else str ""));
   (str "seuil bas : ", dec (s_seuil_bas s)); (str "seuil haut: ", dec (s_seuil_haut s))].
Definition settings_lines (s : settings) : list (list Z) := map (fun p => fst p ++ snd p) (labelled s).

(** The lines of a text; they end with CR LF, CR or LF. *)
Fixpoint lines_from (cur s : list Z) : list (list Z) :=
  match s with
  | [] => match cur with [] => [] | _ => [rev cur] end
  | 13 :: ((10 :: r) as t) => rev cur :: lines_from [] r
  | c :: r => if (c =? 13) || (c =? 10) then rev cur :: lines_from [] r else lines_from (c :: cur) r
  end.
Definition lines_of (s : list Z) : list (list Z) := lines_from [] s.

(** A number in two columns at least. *)
Definition two_columns (n : Z) : list Z := if n <? 10 then 32 :: dec n else dec n.
