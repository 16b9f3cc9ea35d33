(** What a user calls "the configuration", independently of the memory layout and of the code that changes it. *)
From Coq Require Import ZArith List Bool Lia.
From Verif Require Import Base Config.
Import ListNotations.
Open Scope Z_scope.

(** ** The settings *)
Record settings := mk_settings {
  s_ssid : list Z; s_psk : list Z; s_host : list Z; s_ap_psk : list Z; s_ota_auth : list Z; s_ota_port : Z;
  s_username : list Z; s_password : list Z;
  s_sse_freq : Z; s_led : bool;
  s_emon_host : list Z; s_emon_key : list Z; s_emon_url : list Z; s_emon_port : Z; s_emon_node : Z; s_emon_freq : Z;
  s_jdom_host : list Z; s_jdom_key : list Z; s_jdom_url : list Z; s_jdom_adco : list Z; s_jdom_port : Z;
  s_jdom_freq : Z;
  s_http_host : list Z; s_http_url : list Z; s_http_port : Z; s_http_freq : Z;
  s_adps : bool; s_ptec : bool; s_seuils : bool; s_use_post : bool;
  s_seuil_haut : Z; s_seuil_bas : Z }.

(** The settings held by a configuration object, as the firmware reads them. *)
Definition view (c : cfg) : settings :=
  mk_settings
    (text Ssid c) (text Psk c) (text Host c) (text ApPsk c) (text OtaAuth c) (num OtaPort c)
    (text Username c) (text Password c)
    (num SseFreq c) (bit 0 Options c)
    (text EHost c) (text EKey c) (text EUrl c) (num EPort c) (num ENode c) (num EFreq c)
    (text JHost c) (text JKey c) (text JUrl c) (text JAdco c) (num JPort c) (num JFreq c)
    (text HHost c) (text HUrl c) (num HPort c) (num HFreq c)
    (bit 0 HFlags c) (bit 1 HFlags c) (bit 2 HFlags c) (bit 7 HFlags c)
    (num HSeuilHaut c) (num HSeuilBas c).

(** Bytes of the object that belong to no setting: fillers, jeedom.use_post, and the unused bits. *)
Definition unused (c : cfg) : list (list Z) * Z :=
  ([get Filler c; get EFiller c; get JUsePost c; get JFiller c; get HFiller c], Z.land (num HFlags c) 120).

(** ** Well-formed objects *)

(** Every member has its declared size and holds bytes. *)
Definition wf (c : cfg) : Prop := map (@List.length Z) c = sizes /\ Forall bytes c.

(** The string members of the structure (char arrays in src/config.h). *)
Definition is_text (f : fld) : bool :=
  match f with
  | Ssid | Psk | Host | ApPsk | OtaAuth | Username | Password
  | EHost | EKey | EUrl | JHost | JKey | JUrl | JAdco | HHost | HUrl => true
  | _ => false
  end.

(** Every string member contains a terminator inside its own array. *)
Definition terminated (c : cfg) : Prop := forall f, is_text f = true -> In 0 (get f c).

(** ** Factory settings (README / src/config.h:40-61) *)
Definition factory (chip : Z) : settings :=
  mk_settings
    [] [] (str "WifInfo-" ++ hex6 chip) [] (str "OTA_WifInfo") 8266
    [] []
    10 false
    (str "emoncms.org") [] (str "/input/post.json") 80 0 0
    [] [] (str "/plugins/teleinfo/core/php/jeeTeleinfo.php") [] 80 0
    [] (str "/json.htm?type=command&param=udevice&idx=1&nvalue=0&svalue=$HCHP;$HCHC;0;0;$PAPP;0") 80 0
    false false false false
    0 0.

(** ** What posting a form means *)

(** First value posted under a name, empty if there is none; presence of a name. *)
Definition posted (fm : form) (name : String.string) : list Z :=
  match find (fun p => beq (fst p) (str name)) fm with
  | Some p => snd p
  | None => []
  end.
Definition ticked (fm : form) (name : String.string) : bool := existsb (fun p => beq (fst p) (str name)) fm.
Arguments posted _ _%string_scope.
Arguments ticked _ _%string_scope.

(** A text cut to n characters. *)
Definition cut (n : nat) (v : list Z) : list Z := firstn n (cstr v).

(** The (unbounded) integer written at the beginning of a text: optional white space, optional sign, digits;
    0 if there is none. *)
Fixpoint without_space (s : list Z) : list Z :=
  match s with c :: t => if isspace c then without_space t else s | [] => [] end.
Fixpoint leading_digits (s : list Z) : list Z :=
  match s with c :: t => if isdigit c then c :: leading_digits t else [] | [] => [] end.
Definition written_int (v : list Z) : Z :=
  match without_space (cstr v) with
  | [] => 0
  | c :: t =>
      if c =? 45 (* - *) then - dec_value (leading_digits t)
      else if c =? 43 (* + *) then dec_value (leading_digits t)
      else dec_value (leading_digits (c :: t))
  end.
(** ... accepted if it lies between 0 and hi, replaced by a default otherwise. *)
Definition ranged (hi dflt : Z) (v : list Z) : Z :=
  let n := written_int v in if (0 <=? n) && (n <=? hi) then n else dflt.

(** The settings after a complete form has been posted. A restricted client does not touch the first eight. *)
Definition after_form (restricted : bool) (fm : form) (s : settings) : settings :=
  let keep {A} (old new : A) := if restricted then old else new in
  mk_settings
    (keep (s_ssid s) (cut 32 (posted fm "ssid")))
    (keep (s_psk s) (cut 64 (posted fm "psk")))
    (keep (s_host s) (cut 16 (posted fm "host")))
    (keep (s_ap_psk s) (cut 64 (posted fm "ap_psk")))
    (keep (s_ota_auth s) (cut 64 (posted fm "ota_auth")))
    (keep (s_ota_port s) (ranged 65535 8266 (posted fm "ota_port")))
    (keep (s_username s) (cut 31 (posted fm "username")))
    (keep (s_password s) (cut 31 (posted fm "password")))
    (ranged 360 0 (posted fm "sse_freq"))
    (ticked fm "cfg_led_tinfo")
    (cut 32 (posted fm "emon_host"))
    (cut 32 (posted fm "emon_apikey"))
    (cut 32 (posted fm "emon_url"))
    (ranged 65535 80 (posted fm "emon_port"))
    (ranged 255 0 (posted fm "emon_node"))
    (ranged 86400 0 (posted fm "emon_freq"))
    (cut 32 (posted fm "jdom_host"))
    (cut 48 (posted fm "jdom_apikey"))
    (cut 64 (posted fm "jdom_url"))
    (cut 12 (posted fm "jdom_adco"))
    (ranged 65535 80 (posted fm "jdom_port"))
    (ranged 86400 0 (posted fm "jdom_freq"))
    (cut 32 (posted fm "httpreq_host"))
    (cut 150 (posted fm "httpreq_url"))
    (ranged 65535 80 (posted fm "httpreq_port"))
    (ranged 86400 0 (posted fm "httpreq_freq"))
    (ticked fm "httpreq_trigger_adps")
    (ticked fm "httpreq_trigger_ptec")
    (ticked fm "httpreq_trigger_seuils")
    (ticked fm "httpreq_use_post")
    (ranged 20000 0 (posted fm "httpreq_seuil_haut"))
    (ranged 20000 0 (posted fm "httpreq_seuil_bas")).

(** ** Histories of the configuration *)

(** Everything that can happen to the configuration after the first start. A restart keeps only the flash; the RAM
    content [mem] is then arbitrary. [o], [o1], [o2]: what the flash does when it is written. *)
Inductive cevent :=
| Post (o : outcome) (restricted : bool) (fm : form)
| FactoryReset (chip : Z) (o : outcome)
| CliWifi (o : outcome) (ssid psk : list Z)
| CliAp (o : outcome) (host psk : list Z)
| CliErase (o : outcome)
| Adopt (o : outcome) (ssid psk : list Z)
| Restart (chip : Z) (o1 o2 : outcome) (mem : cfg).

Definition cstep (e : cevent) (s : cstate) : option cstate :=
  match e with
  | Post o restricted fm => '(s', _) <- config_handle_form o restricted fm s ;; Some s'
  | FactoryReset chip o => config_reset chip o s
  | CliWifi o a b => cli_wifi o a b s
  | CliAp o a b => cli_ap o a b s
  | CliErase o => cli_erase o s
  | Adopt o a b => adopt_sdk o a b s
  | Restart chip o1 o2 mem => config_setup chip o1 o2 mem (e_flash (c_ee s))
  end.
Fixpoint csteps (es : list cevent) (s : cstate) : option cstate :=
  match es with
  | [] => Some s
  | e :: es' => s' <- cstep e s ;; csteps es' s'
  end.

Definition form_bytes (fm : form) : Prop := Forall (fun p => bytes (fst p) /\ bytes (snd p)) fm.

(** Inputs are made of bytes; the chip id is a 32-bit number. *)
Definition event_ok (e : cevent) : Prop :=
  match e with
  | Post _ _ fm => form_bytes fm
  | FactoryReset chip _ => 0 <= chip < 4294967296
  | CliErase _ => True
  | CliWifi _ a b | CliAp _ a b | Adopt _ a b => bytes a /\ bytes b
  | Restart chip _ _ mem => 0 <= chip < 4294967296 /\ wf mem
  end.

(** A flash sector image of the size of the configuration. *)
Definition flash_ok (b : list Z) : Prop := List.length b = CFG_SIZE /\ bytes b.

(** The states a module can be in: it was started on some flash content, then anything happened. *)
Definition reachable (s : cstate) : Prop :=
  exists chip o1 o2 mem flash s0 es,
    0 <= chip < 4294967296 /\ wf mem /\ flash_ok flash /\ Forall event_ok es /\
    config_setup chip o1 o2 mem flash = Some s0 /\ csteps es s0 = Some s.

(** What the next start would use, given a flash content (the default settings need the chip id). *)
Definition settings_at_start (chip : Z) (flash : list Z) (r : settings) : Prop :=
  forall o1 o2 mem, wf mem ->
  exists s, config_setup chip o1 o2 mem flash = Some s /\ view (c_cfg s) = r.

(** ** Damage of a stored image: bits are numbered from the least significant bit of the first byte. *)
Definition bit_at (b : list Z) (p : nat) : bool := Z.testbit (nth (p / 8) b 0) (Z.of_nat (p mod 8)).
(** [b'] differs from [b], and only within the [k] bits starting at bit [p]. *)
Definition damaged_within (p k : nat) (b b' : list Z) : Prop :=
  List.length b' = List.length b /\ bytes b' /\ b' <> b /\
  forall q, bit_at b q <> bit_at b' q -> (p <= q < p + k)%nat.

(** The content of the flash after a successful save. *)
Definition stored_image (flash : list Z) : Prop :=
  exists s s', reachable s /\ config_save Stored s = Some (s', true) /\ flash = e_flash (c_ee s').

(** Ranges of the numeric settings (documented limits). *)
Definition in_range (s : settings) : Prop :=
  0 <= s_ota_port s <= 65535 /\ 0 <= s_sse_freq s <= 360 /\
  0 <= s_emon_port s <= 65535 /\ 0 <= s_emon_node s <= 255 /\ 0 <= s_emon_freq s <= 86400 /\
  0 <= s_jdom_port s <= 65535 /\ 0 <= s_jdom_freq s <= 86400 /\
  0 <= s_http_port s <= 65535 /\ 0 <= s_http_freq s <= 86400 /\
  0 <= s_seuil_haut s <= 20000 /\ 0 <= s_seuil_bas s <= 20000.
