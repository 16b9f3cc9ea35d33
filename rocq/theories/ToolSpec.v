(** When tools/eeprom.py and the firmware are expected to agree. *)
From Coq Require Import ZArith List Bool Lia.
From Verif Require Import Base Config ConfigSpec EepromTool.
Import ListNotations.
Open Scope Z_scope.

(** The texts of the settings, each with the number of characters its field can hold. *)
Definition texts (s : settings) : list (nat * list Z) :=
  [ (32, s_ssid s); (64, s_psk s); (16, s_host s); (64, s_ap_psk s); (64, s_ota_auth s); (31, s_username s);
    (31, s_password s); (32, s_emon_host s); (32, s_emon_key s); (32, s_emon_url s); (32, s_jdom_host s);
    (48, s_jdom_key s); (64, s_jdom_url s); (12, s_jdom_adco s); (32, s_http_host s); (150, s_http_url s) ]%nat.

(** Texts that can be represented: no NUL character, not too long; made of bytes. *)
Definition fits (s : settings) : Prop :=
  Forall (fun p => ~ In 0 (snd p) /\ (List.length (snd p) <= fst p)%nat) (texts s).
Definition texts_bytes (s : settings) : Prop := Forall (fun p => bytes (snd p)) (texts s).
Definition texts_utf8 (s : settings) : Prop := Forall (fun p => is_utf8 (snd p) = true) (texts s).

(** Numbers that can be represented. *)
Definition numbers_fit (s : settings) : Prop :=
  0 <= s_ota_port s < 65536 /\ 0 <= s_sse_freq s < 65536 /\
  0 <= s_emon_port s < 65536 /\ 0 <= s_emon_node s < 256 /\ 0 <= s_emon_freq s < 4294967296 /\
  0 <= s_jdom_port s < 65536 /\ 0 <= s_jdom_freq s < 4294967296 /\
  0 <= s_http_port s < 65536 /\ 0 <= s_http_freq s < 4294967296 /\
  0 <= s_seuil_haut s < 65536 /\ 0 <= s_seuil_bas s < 65536.

(** The settings with every text cut to what its field can hold. *)
Definition fitted (s : settings) : settings :=
  mk_settings
    (cut 32 (s_ssid s)) (cut 64 (s_psk s)) (cut 16 (s_host s)) (cut 64 (s_ap_psk s)) (cut 64 (s_ota_auth s))
    (s_ota_port s) (cut 31 (s_username s)) (cut 31 (s_password s)) (s_sse_freq s) (s_led s)
    (cut 32 (s_emon_host s)) (cut 32 (s_emon_key s)) (cut 32 (s_emon_url s)) (s_emon_port s) (s_emon_node s)
    (s_emon_freq s)
    (cut 32 (s_jdom_host s)) (cut 48 (s_jdom_key s)) (cut 64 (s_jdom_url s)) (cut 12 (s_jdom_adco s)) (s_jdom_port s)
    (s_jdom_freq s)
    (cut 32 (s_http_host s)) (cut 150 (s_http_url s)) (s_http_port s) (s_http_freq s)
    (s_adps s) (s_ptec s) (s_seuils s) (s_use_post s) (s_seuil_haut s) (s_seuil_bas s).

(** Ordinary use: no flash write is torn, and the credentials of the Wi-Fi SDK are not adopted. *)
Definition whole (o : outcome) : Prop := match o with Torn _ => False | _ => True end.
Definition ordinary (e : cevent) : Prop :=
  match e with
  | Post o _ _ | FactoryReset _ o | CliWifi o _ _ | CliAp o _ _ | CliErase o => whole o
  | Adopt _ _ _ => False
  | Restart _ o1 o2 _ => whole o1 /\ whole o2
  end.
(** A module first started on an invalid (e.g. blank) flash or on an image written by the tool, then in ordinary use. *)
Definition ordinarily_reachable (s : cstate) : Prop :=
  exists chip o1 o2 mem flash s0 es,
    0 <= chip < 4294967296 /\ wf mem /\ flash_ok flash /\ whole o1 /\ whole o2 /\
    (crc_of flash <> 0 \/ exists t, texts_bytes t /\ fits t /\ write_eeprom t = Some flash) /\
    Forall event_ok es /\ Forall ordinary es /\
    config_setup chip o1 o2 mem flash = Some s0 /\ csteps es s0 = Some s.
