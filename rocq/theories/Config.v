(** Model of src/config.h, src/config.cpp, src/strncpy_s.h and of the EEPROM emulation they use.

    The configuration object is modelled as the list of its members, each member being an array of bytes
    of its declared size; writing outside a member is undefined behaviour ([None]). The bytes of the whole
    object, as seen through the [uint8_t *] of config_read/config_save, are the concatenation of the members
    (the structures are packed). *)
From Coq Require Import ZArith List Bool Lia.
From Verif Require Import Base.
Import ListNotations.
Open Scope Z_scope.

(** ** Layout: src/config.h:105-169 *)

(** Members in declaration order; E*, J*, H* are the members of emoncms, jeedom, httpreq.
    HFlags is the byte holding the bit-fields trigger_adps (bit 0), trigger_ptec (bit 1), trigger_seuils
    (bit 2), unused (bits 3-6) and use_post (bit 7): src/config.h:138-142, little-endian bit-field order. *)
Inductive fld :=
| Ssid | Psk | Host | ApPsk | OtaAuth | Options | OtaPort | SseFreq | Username | Password | Filler
| EHost | EKey | EUrl | EPort | ENode | EFreq | EFiller
| JHost | JKey | JUrl | JAdco | JPort | JFreq | JUsePost | JFiller
| HHost | HUrl | HPort | HFreq | HFlags | HSeuilHaut | HSeuilBas | HFiller
| Crc.

Definition fields : list fld :=
  [ Ssid; Psk; Host; ApPsk; OtaAuth; Options; OtaPort; SseFreq; Username; Password; Filler;
    EHost; EKey; EUrl; EPort; ENode; EFreq; EFiller;
    JHost; JKey; JUrl; JAdco; JPort; JFreq; JUsePost; JFiller;
    HHost; HUrl; HPort; HFreq; HFlags; HSeuilHaut; HSeuilBas; HFiller;
    Crc ].

(** sizeof of each member: src/config.h:31-57, 105-169 *)
Definition fsize (f : fld) : nat :=
  match f with
  | Ssid => 33 | Psk => 65 | Host => 17 | ApPsk => 65 | OtaAuth => 65 | Options => 4 | OtaPort => 2
  | SseFreq => 2 | Username => 32 | Password => 32 | Filler => 65
  | EHost => 33 | EKey => 33 | EUrl => 33 | EPort => 2 | ENode => 1 | EFreq => 4 | EFiller => 22
  | JHost => 33 | JKey => 49 | JUrl => 65 | JAdco => 13 | JPort => 2 | JFreq => 4 | JUsePost => 1 | JFiller => 89
  | HHost => 33 | HUrl => 151 | HPort => 2 | HFreq => 4 | HFlags => 1 | HSeuilHaut => 2 | HSeuilBas => 2
  | HFiller => 61
  | Crc => 2
  end%nat.

(** Position of a member in the declaration order. *)
Definition fidx (f : fld) : nat :=
  match f with
  | Ssid => 0 | Psk => 1 | Host => 2 | ApPsk => 3 | OtaAuth => 4 | Options => 5 | OtaPort => 6
  | SseFreq => 7 | Username => 8 | Password => 9 | Filler => 10
  | EHost => 11 | EKey => 12 | EUrl => 13 | EPort => 14 | ENode => 15 | EFreq => 16 | EFiller => 17
  | JHost => 18 | JKey => 19 | JUrl => 20 | JAdco => 21 | JPort => 22 | JFreq => 23 | JUsePost => 24 | JFiller => 25
  | HHost => 26 | HUrl => 27 | HPort => 28 | HFreq => 29 | HFlags => 30 | HSeuilHaut => 31 | HSeuilBas => 32
  | HFiller => 33
  | Crc => 34
  end%nat.

Definition sizes : list nat := map fsize fields.

(** sizeof(Config): 1024 (src/config.h:149-150) *)
Definition CFG_SIZE : nat := 1024.

(** The object: one byte array per member. *)
Definition cfg := list (list Z).

Definition get (f : fld) (c : cfg) : list Z := nth (fidx f) c [].

Fixpoint put_nth (i : nat) (v : list Z) (c : cfg) : cfg :=
  match c, i with
  | [], _ => []
  | _ :: t, O => v :: t
  | h :: t, S i' => h :: put_nth i' v t
  end.
Definition set (f : fld) (v : list Z) (c : cfg) : cfg := put_nth (fidx f) v c.

(** The object as raw bytes, and back. *)
Definition image (c : cfg) : list Z := concat c.
Fixpoint split_sizes (ns : list nat) (b : list Z) : cfg :=
  match ns with
  | [] => []
  | n :: ns' => firstn n b :: split_sizes ns' (skipn n b)
  end.
Definition of_image (b : list Z) : cfg := split_sizes sizes b.

(** memset(&config, 0, sizeof(Config)): src/config.cpp:90, 163 *)
Definition zeroed : cfg := map (fun n => repeat 0 n) sizes.

(** ** Integers in memory (little-endian, ESP8266 and PC) *)
Definition le16 (v : Z) : list Z := [v mod 256; (v / 256) mod 256].
Definition le32 (v : Z) : list Z :=
  [v mod 256; (v / 256) mod 256; (v / 65536) mod 256; (v / 16777216) mod 256].
Fixpoint le_value (b : list Z) : Z :=
  match b with
  | [] => 0
  | x :: t => x + 256 * le_value t
  end.

(** Value of a numeric member, text of a string member. *)
Definition num (f : fld) (c : cfg) : Z := le_value (get f c).
Definition text (f : fld) (c : cfg) : list Z := cstr (get f c).
(** Bit-field of one bit. *)
Definition bit (n : Z) (f : fld) (c : cfg) : bool := Z.testbit (num f c) n.

(** ** strncpy_s, src/strncpy_s.h:3-7: strncpy(dest, src, n) copies at most n bytes up to the terminator of the
    source and fills the rest of the n bytes with NUL; then dest[n] = 0. [None] if n+1 bytes do not fit in the
    destination member. [src] is a String; a NUL inside it ends c_str(). *)
Definition strncpy_bytes (src : list Z) (n : nat) : list Z :=
  let s := firstn n (cstr src) in s ++ repeat 0 (n - List.length s).
Definition strncpy_s (f : fld) (src : list Z) (n : nat) (c : cfg) : option cfg :=
  let b := strncpy_bytes src n ++ [0] in
  if Nat.leb (List.length b) (List.length (get f c))
  then Some (set f (b ++ skipn (List.length b) (get f c)) c)
  else None.

(** strcpy_P / sprintf_P into a member: the text and its terminator must fit. *)
Definition strcpy (f : fld) (s : list Z) (c : cfg) : option cfg :=
  let b := s ++ [0] in
  if Nat.leb (List.length b) (List.length (get f c))
  then Some (set f (b ++ skipn (List.length b) (get f c)) c)
  else None.

(** f[i] = 0 *)
Definition zero_at (f : fld) (i : nat) (c : cfg) : option cfg :=
  b <- upd (get f c) i 0 ;; Some (set f b c).

(** config_securize_cstrings, src/config.cpp:60-84 *)
Definition string_fields : list (fld * nat) :=
  [ (Ssid, 32); (Psk, 64); (Host, 16); (ApPsk, 64); (OtaAuth, 64); (Username, 31); (Password, 31);
    (EHost, 32); (EKey, 32); (EUrl, 32); (JHost, 32); (JKey, 48); (JUrl, 64); (JAdco, 12);
    (HHost, 32); (HUrl, 150) ]%nat.
Fixpoint zero_all (l : list (fld * nat)) (c : cfg) : option cfg :=
  match l with
  | [] => Some c
  | (f, i) :: l' => c' <- zero_at f i c ;; zero_all l' c'
  end.
Definition securize (c : cfg) : option cfg := zero_all string_fields c.

(** ** CRC: crc16Update, src/config.cpp:121-137. [crc] is a uint16_t. *)
Definition crc_step (c : Z) : Z :=
  if Z.odd c then Z.lxor (Z.shiftr c 1) 40961 (* 0xA001 *) else Z.shiftr c 1.
Fixpoint crc_steps (n : nat) (c : Z) : Z :=
  match n with
  | O => c
  | S n' => crc_steps n' (crc_step c)
  end.
Definition crc_update (crc a : Z) : Z := crc_steps 8 (Z.lxor crc a).
Definition crc_of (b : list Z) : Z := fold_left crc_update b 65535.

(** ** EEPROM emulation (ESP8266 core library EEPROM, used by src/config.cpp:43, 150, 192, 195): a RAM copy of the
    first bytes of one flash sector. [begin] loads it, [read]/[write] access it, [commit] erases the sector and
    writes it back, and only if something changed. *)
Record eeprom := mk_ee { e_buf : list Z; e_dirty : bool; e_flash : list Z }.

Definition ee_begin (flash : list Z) : eeprom := mk_ee flash false flash.

(** write(i, v): marks the copy dirty only if the byte changes. *)
Definition ee_write (i : nat) (v : Z) (e : eeprom) : option eeprom :=
  old <- rd (e_buf e) i ;;
  if old =? v then Some e
  else b <- upd (e_buf e) i v ;; Some (mk_ee b true (e_flash e)).

(** What the flash does during a commit: everything written; the sector could not be erased; the sector was
    erased but only the first n bytes were written (write error or power cut). *)
Inductive outcome := Stored | NotErased | Torn (n : nat).

Definition torn (n : nat) (b : list Z) : list Z := firstn n b ++ repeat 255 (List.length b - n).

(** The boolean is the result of commit(). *)
Definition ee_commit (o : outcome) (e : eeprom) : eeprom * bool :=
  if e_dirty e then
    match o with
    | Stored => (mk_ee (e_buf e) false (e_buf e), true)
    | NotErased => (e, false)
    | Torn n => (mk_ee (e_buf e) true (torn n (e_buf e)), false)
    end
  else (e, true).

(** ** Configuration state: the global object and the EEPROM library *)
Record cstate := mk_cs { c_cfg : cfg; c_ee : eeprom }.

(** The loop of config_read, src/config.cpp:147-157: bytes read, and their CRC. *)
Fixpoint read_loop (n i : nat) (e : eeprom) (crc : Z) : option (list Z * Z) :=
  match n with
  | O => Some ([], crc)
  | S n' =>
      b <- rd (e_buf e) i ;;
      '(bs, r) <- read_loop n' (S i) e (crc_update crc b) ;;
      Some (b :: bs, r)
  end.

(** config_read, src/config.cpp:140-171 *)
Definition config_read (clear_on_error : bool) (s : cstate) : option (cstate * bool) :=
  '(bs, crc) <- read_loop CFG_SIZE 0 (c_ee s) 65535 ;;
  c <- securize (of_image bs) ;;
  if negb (crc =? 0)
  then Some (mk_cs (if clear_on_error then zeroed else c) (c_ee s), false)
  else Some (mk_cs c (c_ee s), true).

(** The write loop of config_save, src/config.cpp:190-193 *)
Fixpoint write_loop (i : nat) (bs : list Z) (e : eeprom) : option eeprom :=
  match bs with
  | [] => Some e
  | b :: bs' => e' <- ee_write i b e ;; write_loop (S i) bs' e'
  end.

(** config_save, src/config.cpp:174-206. The CRC is computed on the bytes before the member crc, which is the
    accumulator; it is not part of the bytes read by the loop. The result of EEPROM.commit() is not looked at. *)
Definition config_save (o : outcome) (s : cstate) : option (cstate * bool) :=
  let crc := crc_of (firstn (CFG_SIZE - 2) (image (c_cfg s))) in
  let c := set Crc (le16 crc) (c_cfg s) in
  e <- write_loop 0 (image c) (c_ee s) ;;
  let '(e', _) := ee_commit o e in
  config_read false (mk_cs c e').

(** ** config_reset, src/config.cpp:87-118 *)

(** printf "%06X" of an unsigned 32-bit number. *)
Definition hex_digit (d : Z) : Z := if d <? 10 then 48 + d else 55 + d.
Fixpoint hex_aux (fuel : nat) (n : Z) (acc : list Z) : list Z :=
  match fuel with
  | O => acc
  | S f => let acc' := hex_digit (n mod 16) :: acc in
           if n <? 16 then acc' else hex_aux f (n / 16) acc'
  end.
Definition hex (n : Z) : list Z := hex_aux 8 n [].
Definition hex6 (n : Z) : list Z := pad0 6 (hex n).

Definition default_jdom_url := str "/plugins/teleinfo/core/php/jeeTeleinfo.php".
Definition default_http_url :=
  str "/json.htm?type=command&param=udevice&idx=1&nvalue=0&svalue=$HCHP;$HCHC;0;0;$PAPP;0".

(** [chip] is ESP.getChipId(). *)
Definition config_defaults (chip : Z) : option cfg :=
  c <- strcpy Host (str "WifInfo-" ++ hex6 chip) zeroed ;;
  c <- strcpy OtaAuth (str "OTA_WifInfo") c ;;
  let c := set OtaPort (le16 8266) c in
  let c := set SseFreq (le16 10) c in
  c <- strcpy EHost (str "emoncms.org") c ;;
  let c := set EPort (le16 80) c in
  c <- strcpy EUrl (str "/input/post.json") c ;;
  c <- strcpy JHost [] c ;;
  let c := set JPort (le16 80) c in
  c <- strcpy JUrl default_jdom_url c ;;
  c <- strcpy JAdco [] c ;;
  c <- strcpy HHost [] c ;;
  let c := set HPort (le16 80) c in
  strcpy HUrl default_http_url c.

Definition config_reset (chip : Z) (o : outcome) (s : cstate) : option cstate :=
  c <- config_defaults chip ;;
  '(s', _) <- config_save o (mk_cs c (c_ee s)) ;;
  Some s'.

(** config_setup, src/config.cpp:40-58: [mem] is the (arbitrary) content of the global object before, [flash] the
    content of the sector; [o1], [o2] what the flash does in the two possible commits. *)
Definition config_setup (chip : Z) (o1 o2 : outcome) (mem : cfg) (flash : list Z) : option cstate :=
  '(s, ok) <- config_read true (mk_cs mem (ee_begin flash)) ;;
  if ok : bool then Some s
  else
    s <- config_reset chip o1 s ;;
    '(s', _) <- config_save o2 s ;;
    Some s'.

(** ** config_handle_form, src/config.cpp:374-466 *)

(** The arguments of a request, in order: (name, value). *)
Definition form := list (list Z * list Z).

(** ESP8266WebServer::hasArg / arg(name): first argument of that name, empty string if there is none. *)
Fixpoint has_arg (name : list Z) (f : form) : bool :=
  match f with
  | [] => false
  | (n, _) :: f' => beq n name || has_arg name f'
  end.
Fixpoint arg (name : list Z) (f : form) : list Z :=
  match f with
  | [] => []
  | (n, v) :: f' => if beq n name then v else arg name f'
  end.

(** String::toInt is atol: white space, sign, digits; saturates to the 32-bit long of the ESP8266. *)
Fixpoint skip_space (s : list Z) : list Z :=
  match s with
  | c :: t => if isspace c then skip_space t else s
  | [] => []
  end.
Fixpoint take_digits (s : list Z) : list Z :=
  match s with
  | c :: t => if isdigit c then c :: take_digits t else []
  | [] => []
  end.
Definition clamp32 (v : Z) : Z := Z.max (-2147483648) (Z.min 2147483647 v).
Definition to_int (s : list Z) : Z :=
  match skip_space (cstr s) with
  | [] => 0
  | c :: t =>
      if c =? 45 then clamp32 (- dec_value (take_digits t))
      else if c =? 43 then clamp32 (dec_value (take_digits t))
      else clamp32 (dec_value (take_digits (c :: t)))
  end.

(** validate_int, src/config.cpp:364-372 *)
Definition validate_int (v : list Z) (a b d : Z) : Z :=
  let n := to_int v in if (a <=? n) && (n <=? b) then n else d.

(** Assignment to a one-bit bit-field of HFlags. *)
Definition set_bit (n : Z) (v : bool) (c : cfg) : cfg :=
  let b := num HFlags c in
  set HFlags [if v then Z.lor b (Z.shiftl 1 n) else Z.land b (255 - Z.shiftl 1 n)] c.

(** Conversion of an int to the type of the member assigned. *)
Definition put16 (f : fld) (v : Z) (c : cfg) : cfg := set f (le16 v) c.
Definition put32 (f : fld) (v : Z) (c : cfg) : cfg := set f (le32 v) c.
Definition put8 (f : fld) (v : Z) (c : cfg) : cfg := set f [v mod 256] c.

(** The assignments of src/config.cpp:389-441 *)
Definition form_wifi (fm : form) (c : cfg) : option cfg :=
  c <- strncpy_s Ssid (arg (str "ssid") fm) 32 c ;;
  c <- strncpy_s Psk (arg (str "psk") fm) 64 c ;;
  c <- strncpy_s Host (arg (str "host") fm) 16 c ;;
  c <- strncpy_s ApPsk (arg (str "ap_psk") fm) 64 c ;;
  c <- strncpy_s OtaAuth (arg (str "ota_auth") fm) 64 c ;;
  let c := put16 OtaPort (validate_int (arg (str "ota_port") fm) 0 65535 8266) c in
  c <- strncpy_s Username (arg (str "username") fm) 31 c ;;
  strncpy_s Password (arg (str "password") fm) 31 c.

Definition form_common (fm : form) (c : cfg) : option cfg :=
  let c := put16 SseFreq (validate_int (arg (str "sse_freq") fm) 0 360 0) c in
  let c := put32 Options 0 c in
  let c := if has_arg (str "cfg_led_tinfo") fm then put32 Options (Z.lor (num Options c) 1) c else c in
  (* Emoncms *)
  c <- strncpy_s EHost (arg (str "emon_host") fm) 32 c ;;
  let c := put16 EPort (validate_int (arg (str "emon_port") fm) 0 65535 80) c in
  c <- strncpy_s EUrl (arg (str "emon_url") fm) 32 c ;;
  c <- strncpy_s EKey (arg (str "emon_apikey") fm) 32 c ;;
  let c := put8 ENode (validate_int (arg (str "emon_node") fm) 0 255 0) c in
  let c := put32 EFreq (validate_int (arg (str "emon_freq") fm) 0 86400 0) c in
  (* jeedom *)
  c <- strncpy_s JHost (arg (str "jdom_host") fm) 32 c ;;
  let c := put16 JPort (validate_int (arg (str "jdom_port") fm) 0 65535 80) c in
  c <- strncpy_s JUrl (arg (str "jdom_url") fm) 64 c ;;
  c <- strncpy_s JKey (arg (str "jdom_apikey") fm) 48 c ;;
  c <- strncpy_s JAdco (arg (str "jdom_adco") fm) 12 c ;;
  let c := put32 JFreq (validate_int (arg (str "jdom_freq") fm) 0 86400 0) c in
  (* HTTP Request *)
  c <- strncpy_s HHost (arg (str "httpreq_host") fm) 32 c ;;
  let c := put16 HPort (validate_int (arg (str "httpreq_port") fm) 0 65535 80) c in
  c <- strncpy_s HUrl (arg (str "httpreq_url") fm) 150 c ;;
  let c := set_bit 7 (has_arg (str "httpreq_use_post") fm) c in
  let c := put32 HFreq (validate_int (arg (str "httpreq_freq") fm) 0 86400 0) c in
  let c := set_bit 0 (has_arg (str "httpreq_trigger_adps") fm) c in
  let c := set_bit 1 (has_arg (str "httpreq_trigger_ptec") fm) c in
  let c := set_bit 2 (has_arg (str "httpreq_trigger_seuils") fm) c in
  let c := put16 HSeuilBas (validate_int (arg (str "httpreq_seuil_bas") fm) 0 20000 0) c in
  Some (put16 HSeuilHaut (validate_int (arg (str "httpreq_seuil_haut") fm) 0 20000 0) c).

(** The HTTP status answered. The log output and the call of tic_make_timers (modelled with the notifications) are
    left out. *)
Definition config_handle_form (o : outcome) (restricted : bool) (fm : form) (s : cstate) : option (cstate * Z) :=
  if has_arg (str "save") fm then
    c <- (if restricted then Some (c_cfg s) else form_wifi fm (c_cfg s)) ;;
    c <- form_common fm c ;;
    '(s', ok) <- config_save o (mk_cs c (c_ee s)) ;;
    Some (s', if ok : bool then 200 else 412)
  else Some (s, 400).

(** ** Other writers of the configuration *)

(** Serial commands "set wifi <ssid> <psk>" (src/cli.cpp:104-109) and "set ap <host> <psk>" (src/cli.cpp:112-117). *)
Definition cli_wifi (o : outcome) (ssid psk : list Z) (s : cstate) : option cstate :=
  c <- strncpy_s Ssid ssid 32 (c_cfg s) ;;
  c <- strncpy_s Psk psk 64 c ;;
  '(s', _) <- config_save o (mk_cs c (c_ee s)) ;;
  Some s'.
Definition cli_ap (o : outcome) (host psk : list Z) (s : cstate) : option cstate :=
  c <- strncpy_s Host host 16 (c_cfg s) ;;
  c <- strncpy_s ApPsk psk 64 c ;;
  '(s', _) <- config_save o (mk_cs c (c_ee s)) ;;
  Some s'.

(** Serial command "esp reset", src/cli.cpp:180-205, as far as the configuration is concerned: the 1024 bytes of the EEPROM
    are overwritten with zeros and committed (the result of the commit is not looked at), then the module restarts. The
    object in memory is not touched. ESP.eraseConfig() and WiFi.disconnect(true) act on the SDK, which is not modelled. *)
Definition cli_erase (o : outcome) (s : cstate) : option cstate :=
  e <- write_loop 0 (repeat 0 CFG_SIZE) (c_ee s) ;;
  Some (mk_cs (c_cfg s) (fst (ee_commit o e))).

(** Adoption of the credentials known by the Wi-Fi SDK: src/sys.cpp:227-256; [ssid], [psk] are WiFi.SSID() and
    WiFi.psk(). Note the length CFG_SSID_LENGTH used for the key. *)
Definition adopt_sdk (o : outcome) (ssid psk : list Z) (s : cstate) : option cstate :=
  match text Ssid (c_cfg s), cstr ssid with
  | [], _ :: _ =>
      c <- strncpy_s Ssid ssid 32 (c_cfg s) ;;
      c <- (match cstr psk with
            | [] => zero_at Psk 0 c
            | _ => strncpy_s Psk psk 32 c
            end) ;;
      '(s', _) <- config_save o (mk_cs c (c_ee s)) ;;
      Some s'
  | _, _ => Some s
  end.
