(** Model of the JSON pages other than teleinformation: src/config.cpp config_get_json, src/filesystem.cpp fs_get_json,
    src/sys.cpp (sizes, uptime, system information, Wi-Fi scan). *)
From Coq Require Import ZArith List Bool Lia.
From Verif Require Import Base Config JsonBuild.
Import ListNotations.
Open Scope Z_scope.

(** ** /config.json *)

(** bool, bit-field or "? 1 : 0" converted to uint32_t *)
Definition flag (b : bool) : Z := if b then 1 else 0.
Definition js_text (name : String.string) (f : fld) (c : cfg) (s : list Z) : list Z := jb_str (str name) (text f c) false s.
Definition js_num (name : String.string) (f : fld) (c : cfg) (s : list Z) : list Z := jb_num (str name) (num f c) false s.
Arguments js_text _%string_scope.
Arguments js_num _%string_scope.

(** config_get_json, src/config.cpp:314-361 (the names are the CFG_FORM_ macros of src/config.h:65-101). The text members
    are read as C strings ([text] stops at the first NUL; C25 shows there is one in the array). *)
Definition config_get_json (c : cfg) (restricted : bool) : list Z :=
  let s0 :=
    if restricted then jb_new
    else
      js_text "password" Password c (js_text "username" Username c
      (js_num "ota_port" OtaPort c (js_text "ota_auth" OtaAuth c
      (js_text "ap_psk" ApPsk c (js_text "host" Host c (js_text "psk" Psk c (js_text "ssid" Ssid c jb_new))))))) in
  let s1 := jb_num (str "cfg_led_tinfo") (flag (bit 0 Options c)) false (js_num "sse_freq" SseFreq c s0) in
  let s2 :=
    js_num "emon_freq" EFreq c (js_num "emon_node" ENode c (js_text "emon_apikey" EKey c (js_text "emon_url" EUrl c
    (js_num "emon_port" EPort c (js_text "emon_host" EHost c s1))))) in
  let s3 :=
    js_num "jdom_freq" JFreq c (js_text "jdom_adco" JAdco c (js_text "jdom_apikey" JKey c (js_text "jdom_url" JUrl c
    (js_num "jdom_port" JPort c (js_text "jdom_host" JHost c s2))))) in
  let s4 :=
    jb_num (str "httpreq_use_post") (flag (bit 7 HFlags c)) false (js_text "httpreq_url" HUrl c
    (js_num "httpreq_port" HPort c (js_text "httpreq_host" HHost c s3))) in
  let s5 :=
    jb_num (str "httpreq_trigger_seuils") (flag (bit 2 HFlags c)) false
    (jb_num (str "httpreq_trigger_adps") (flag (bit 0 HFlags c)) false
    (jb_num (str "httpreq_trigger_ptec") (flag (bit 1 HFlags c)) false (js_num "httpreq_freq" HFreq c s4))) in
  jb_num (str "httpreq_seuil_haut") (num HSeuilHaut c) true (js_num "httpreq_seuil_bas" HSeuilBas c s5).

(** ** /spiffs.json *)

(** fs_get_json, src/filesystem.cpp:37-78: [files] is what the directory iteration gives, in order (C45), [total] and
    [used] what info() gives. The two builders are appended to the response (constructors without a size). *)
Definition fs_get_json (files : list (list Z * Z)) (total used : Z) (restricted : bool) : option (list Z) :=
  if restricted then Some (str "{}")
  else
    let r0 := [123; 34] ++ str "files" ++ [34; 58] in
    t <- jt_finalize (fold_left (fun s f => jt_num (fst f) (snd f) s) files (r0 ++ jt_new)) ;;
    let r1 := t ++ [44; 34] ++ str "info" ++ [34; 58] in
    let s1 := jb_num (str "Total") total false (r1 ++ jb_new) in
    Some (jb_num (str "Used") used true s1 ++ [125]).

(** ** /wifiscan.json *)

(** One network of the scan: SSID, RSSI (dBm), BSSID text, channel, encryption type. *)
Record network := mk_net { n_ssid : list Z; n_rssi : Z; n_bssid : list Z; n_channel : Z; n_enc : Z }.
(** Loop body of sys_wifi_scan_json, src/sys.cpp:207-230 *)
Definition scan_entry (w : network) : list Z :=
  [123; 34] ++ str "ssid" ++ [34; 58; 34] ++ n_ssid w ++
  [34; 44; 34] ++ str "rssi" ++ [34; 58] ++ decs (n_rssi w) ++
  [44; 34] ++ str "bssi" ++ [34; 58; 34] ++ n_bssid w ++
  [34; 44; 34] ++ str "channel" ++ [34; 58] ++ decs (n_channel w) ++
  [44; 34] ++ str "encryptionType" ++ [34; 58] ++ decs (n_enc w) ++ [125].
(** The loop: "uint8_t i; i < n" with n an int8_t, compared as int. [n] is the signed count, [i] the counter. The fuel is
    never exhausted (i cannot wrap before n <= 127). A result index outside the scan is [None]. *)
Fixpoint scan_loop (fuel : nat) (nets : list network) (n i : Z) (s : list Z) : option (list Z) :=
  if i <? n then
    match fuel with
    | O => None
    | S f =>
        w <- nth_error nets (Z.to_nat i) ;;
        scan_loop f nets n ((i + 1) mod 256) (s ++ (if i =? 0 then [] else [44]) ++ scan_entry w)
    end
  else Some s.
(** sys_wifi_scan_json, src/sys.cpp:190-234. [nets]: the networks found; scanNetworks returns their number as an int8_t
    (a failed scan is the empty list: a negative number lists nothing either). *)
Definition sys_wifi_scan_json (nets : list network) (restricted : bool) : option (list Z) :=
  if restricted then Some (str "{}")
  else
    let n := let m := Z.of_nat (List.length nets) mod 256 in if m <? 128 then m else m - 256 in
    s <- scan_loop 128 nets n 0 [91] ;; Some (s ++ [93]).

(** ** Sizes, uptime *)

(** String(double), two decimals: the number num/den rounded half up. Simplification: exact arithmetic, where dtostrf of
    the core library uses doubles. *)
Definition two_decimals (a b : Z) : list Z :=
  let h := (200 * a + b) / (2 * b) in dec (h / 100) ++ [46] ++ pad0 2 (dec (h mod 100)).
(** sys_format_size, src/sys.cpp:49-66 *)
Definition sys_format_size (bytes : Z) : list Z :=
  if bytes <? 1024 then dec bytes ++ str " byte"
  else if bytes <? 1048576 then two_decimals bytes 1024 ++ str " kB"
  else if bytes <? 1073741824 then two_decimals bytes 1048576 ++ str " MB"
  else two_decimals bytes 1073741824 ++ str " GB".

(** Conversion to a 32-bit int (modulo 2^32 on this target). *)
Definition s32 (x : Z) : Z := let m := x mod 4294967296 in if m <? 2147483648 then m else m - 4294967296.
(** printf "%0kd" *)
Definition pad_int (k : nat) (n : Z) : list Z := if n <? 0 then 45 :: pad0 (k - 1) (dec (- n)) else pad0 k (dec n).
(** sys_uptime, src/sys.cpp:68-80. C division truncates. [None]: buff[64] overflows. *)
Definition sys_uptime (micros : Z) : option (list Z) :=
  let sec := s32 (micros / 1000000) in
  let min := Z.quot sec 60 in
  let hr := Z.quot min 60 in
  let day := Z.quot hr 24 in
  let t := decs day ++ str " days " ++ pad_int 2 (Z.rem hr 24) ++ str " h " ++ pad_int 2 (Z.rem min 60) ++ str " m "
           ++ pad_int 2 (Z.rem sec 60) ++ str " sec" in
  if Nat.ltb (List.length t) 64 then Some t else None.

(** ** /system.json *)

(** What the page reads from the SDK and the rest of the program. [i_wifi]: connected, RSSI and MAC; [i_build]: version,
    date, options and SDK texts. *)
Record sysinfo := mk_info {
  i_micros : Z; i_now : list Z; i_connected : bool; i_rssi : Z; i_mac : list Z; i_reconnects : Z;
  i_version : list Z; i_date : list Z; i_flags : list Z; i_sdk : list Z; i_chip : Z;
  i_flash : Z; i_sketch : Z; i_free : Z; i_heap : Z; i_cpu : option Z;
  i_total : Z; i_used : Z; i_clients : Z; i_remotes : list Z }.

(** One js.append: a text or a number. *)
Inductive item := IText (name v : list Z) | INum (name : list Z) (n : Z).
Definition add_item (s : list Z) (i : item) : list Z :=
  match i with IText name v => jt_str name v s | INum name n => jt_num name n s end.
(** The entries of sys_get_info_json, src/sys.cpp:91-187, in order. e_acute is the UTF-8 form of the accented letter.
    100 * usedBytes wraps modulo 2^32; totalBytes = 0 is a division by zero ([None]). *)
Definition e_acute : list Z := [195; 169].
Definition info_items (c : cfg) (i : sysinfo) (restricted : bool) : option (list item) :=
  up <- sys_uptime (i_micros i) ;;
  if i_total i =? 0 then None else
  let T a b := IText a b in
  Some (
    [T (str "Uptime") up; T (str "Timestamp") (i_now i)] ++
    (if i_connected i && negb restricted then
       [T (str "Wi-Fi R" ++ e_acute ++ str "seau") (text Ssid c);
        T (str "Wi-Fi RSSI") (decs (i_rssi i) ++ str " dB"); T (str "Adresse MAC station") (i_mac i)]
     else []) ++
    [INum (str "Nb reconnexions Wi-Fi") (i_reconnects i)] ++
    (if restricted then []
     else
       [T (str "WifInfo Version (Firmware)") (i_version i); T (str "Compil" ++ e_acute ++ str " le") (i_date i);
        T (str "Options") (i_flags i); T (str "SDK Version") (i_sdk i); T (str "Chip ID") (str "0x" ++ hex6 (i_chip i));
        T (str "Taille m" ++ e_acute ++ str "moire Flash") (sys_format_size (i_flash i));
        T (str "Taille Firmware") (sys_format_size (i_sketch i))]) ++
    [T (str "M" ++ e_acute ++ str "moire Flash libre") (sys_format_size (i_free i));
     T (str "M" ++ e_acute ++ str "moire RAM libre") (sys_format_size (i_heap i))] ++
    (match i_cpu i with Some l => [T (str "CPU") (decs l ++ str " %")] | None => [] end) ++
    [T (str "FS Total") (sys_format_size (i_total i)); T (str "FS Utilis" ++ e_acute ++ str "s") (sys_format_size (i_used i));
     T (str "FS Occupation") (dec (u32 (100 * i_used i) / i_total i) ++ str " %");
     INum (str "SSE Clients") (i_clients i); T (str "SSE Connexions") (i_remotes i)]).
Definition sys_get_info_json (c : cfg) (i : sysinfo) (restricted : bool) : option (list Z) :=
  items <- info_items c i restricted ;; jt_finalize (fold_left add_item items jt_new).
