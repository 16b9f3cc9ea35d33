(** Property theorems C13, C28 (pages), C46, C53, C54: configuration, file list, Wi-Fi scan and system pages
    (src/config.cpp, src/filesystem.cpp, src/sys.cpp). *)
From Coq Require Import ZArith List Bool Lia.
From Verif Require Import Base BaseFacts Config ConfigSpec ToolSpec Json Pages PagesSpec PagesProofs ExactPages TicSamples PagesSamples.
From Verif Require ConfigSamples.
Import ListNotations.
Open Scope Z_scope.

(** C13: in every state, /config.json is a JSON object whose members are the settings, by name ([private_members],
    [public_members]: PagesSpec.v). Missing: this is so if and only if the texts on the page are copyable in a JSON string (a
    restricted client does not see the [secret] ones); the next theorem shows a state in which they are not. *)
Theorem C13_config_page_partial : forall s restricted, reachable s ->
  (json_of (config_get_json (c_cfg s) restricted) =
   Some (JObj ((if restricted then [] else private_members (view (c_cfg s))) ++ public_members (view (c_cfg s)))) <->
   forall f, is_text f = true -> restricted && secret f = false -> quotable (text f (c_cfg s)) = true).
Proof. exact c13_exact. Qed.
Print Assumptions C13_config_page_partial.
Example C13_case : reachable posted4 /\ (forall f, is_text f = true -> quotable (text f (c_cfg posted4)) = true) /\
  s_http_host (view (c_cfg posted4)) = str "10.0.0.2".
Proof. split; [exact (ordinary_reachable _ posted4_ordinary)|]. split; [exact posted4_quotable|]. rewrite posted4_view. vm_compute. reflexivity. Qed.
(** C13 fails once a key with a quote has been stored with the configuration form. *)
Theorem C13_quote_in_setting_refuted : exists s, ordinarily_reachable s /\ s_psk (view (c_cfg s)) = [97; 34; 98] /\
  json_of (config_get_json (c_cfg s) false) = None.
Proof. exact c13_quote_refuted. Qed.
Print Assumptions C13_quote_in_setting_refuted.

(** C28, page by page: what the pages answer to a restricted client is the same for two configurations that differ only
    in the secrets ([secret]: PagesSpec.v). *)
Theorem C28_config_page : forall c1 c2, same_public c1 c2 -> config_get_json c1 true = config_get_json c2 true.
Proof. exact config_page_public. Qed.
Print Assumptions C28_config_page.
Theorem C28_system_page : forall c1 c2 i, sys_get_info_json c1 i true = sys_get_info_json c2 i true.
Proof. exact info_page_public. Qed.
Print Assumptions C28_system_page.
Theorem C28_files_and_scan_pages : forall files total used nets,
  fs_get_json files total used true = Some (str "{}") /\ sys_wifi_scan_json nets true = Some (str "{}").
Proof. split; reflexivity. Qed.
Print Assumptions C28_files_and_scan_pages.
Example C28_case : same_public cfg0 cfg_other /\ text Psk cfg0 <> text Psk cfg_other /\
  config_get_json cfg0 false <> config_get_json cfg_other false /\
  sys_get_info_json (text_field Ssid "x" cfg0) info1 false <> sys_get_info_json cfg0 info1 false.
Proof. split; [exact other_public|]. split; [vm_compute; discriminate|]. split; vm_compute; discriminate. Qed.

(** C46: the uptime text. The buffer of 64 bytes never overflows, whatever the counter; below 2^31 s the numbers shown add
    up to the elapsed whole seconds. *)
Theorem C46_uptime : forall micros, sys_uptime micros <> None /\ (0 <= micros < 2147483648 * 1000000 ->
  exists d h m s, sys_uptime micros =
    Some (dec d ++ str " days " ++ pad0 2 (dec h) ++ str " h " ++ pad0 2 (dec m) ++ str " m " ++ pad0 2 (dec s) ++ str " sec") /\
    0 <= d /\ 0 <= h < 24 /\ 0 <= m < 60 /\ 0 <= s < 60 /\
    d * 86400 + h * 3600 + m * 60 + s = micros / 1000000).
Proof. intros micros. split; [apply c46_fits|apply c46]. Qed.
Print Assumptions C46_uptime.
Example C46_case : 0 <= 93784000000 < 2147483648 * 1000000 /\ sys_uptime 93784000000 = Some (str "1 days 02 h 03 m 04 sec").
Proof. split; [lia|vm_compute; reflexivity]. Qed.

(** C53: the file list and the Wi-Fi scan. Missing: names that cannot be copied in a JSON string, and more than 127
    networks (next theorems). *)
Theorem C53_files_page_partial : forall files total used, 0 <= total -> 0 <= used -> Forall (fun f => 0 <= snd f) files ->
  exists body, fs_get_json files total used false = Some body /\
    (json_of body = Some (JObj
      [ (str "files", JArr (map (fun f => JObj [(str "na", JStr (fst f)); (str "va", JNum (dec (snd f)))]) files));
        (str "info", JObj [(str "Total", JNum (dec total)); (str "Used", JNum (dec used))]) ]) <->
     Forall (fun f => quotable (fst f) = true) files).
Proof. exact c53_files_exact. Qed.
Print Assumptions C53_files_page_partial.
Theorem C53_scan_page_partial : forall nets, (length nets <= 127)%nat ->
  exists body, sys_wifi_scan_json nets false = Some body /\
    (json_of body = Some (JArr (map network_json nets)) <->
     Forall (fun w => quotable (n_ssid w) = true /\ quotable (n_bssid w) = true) nets).
Proof. exact c53_scan_exact. Qed.
Print Assumptions C53_scan_page_partial.
Example C53_case :
  Forall (fun f => quotable (fst f) = true /\ 0 <= snd f) [(str "/index.html", 1234); (str "/css/a.css.gz", 0)] /\
  Forall (fun w => quotable (n_ssid w) = true /\ quotable (n_bssid w) = true) [net1; net2] /\
  option_map json_of (sys_wifi_scan_json [net1; net2] false) = Some (Some (JArr [network_json net1; network_json net2])).
Proof. split; [repeat constructor; cbn; lia|]. split; [repeat constructor|]. vm_compute. reflexivity. Qed.
Theorem C53_quote_in_ssid_refuted : exists nets body, sys_wifi_scan_json nets false = Some body /\ json_of body = None.
Proof. exists [net_quote], ([91] ++ scan_entry net_quote ++ [93]). split; vm_compute; reflexivity. Qed.
Print Assumptions C53_quote_in_ssid_refuted.
Theorem C53_many_networks_refuted : exists nets body, length nets = 128%nat /\
  Forall (fun w => quotable (n_ssid w) = true /\ quotable (n_bssid w) = true) nets /\
  sys_wifi_scan_json nets false = Some body /\ json_of body = Some (JArr []).
Proof.
  exists (repeat net1 128), (str "[]"). split; [reflexivity|]. split; [|split; vm_compute; reflexivity].
  apply Forall_forall. intros w I. apply repeat_spec in I. subst w. split; reflexivity.
Qed.
Print Assumptions C53_many_networks_refuted.

(** /system.json is a JSON array of the entries, in order, when their texts can be copied. *)
Theorem C53_system_page_partial : forall c i restricted items, info_items c i restricted = Some items -> Forall item_ready items ->
  exists body, sys_get_info_json c i restricted = Some body /\ json_of body = Some (JArr (map item_json items)).
Proof. exact info_page. Qed.
Print Assumptions C53_system_page_partial.
Example C53_system_case : exists items, info_items cfg0 info1 false = Some items /\ Forall item_ready items /\ length items = 21%nat.
Proof.
  eexists. split; [vm_compute; reflexivity|]. split; [|reflexivity].
  repeat (apply Forall_cons; [split; [vm_compute; reflexivity|first [vm_compute; reflexivity|vm_compute; discriminate]]|]). constructor.
Qed.

(** C54: sizes. Below 1024 the number of bytes; else the unit u is the largest not above the size, and the number shown, h
    hundredths, is the size in that unit rounded to the nearest hundredth. *)
Theorem C54_sizes : forall bytes, 0 <= bytes < 4294967296 ->
  sys_format_size bytes = dec bytes ++ str " byte" /\ bytes < 1024 \/
  exists u unit h, In (u, unit) [(1024, str " kB"); (1048576, str " MB"); (1073741824, str " GB")] /\
    u <= bytes < 1024 * u /\
    sys_format_size bytes = dec (h / 100) ++ str "." ++ pad0 2 (dec (h mod 100)) ++ unit /\
    2 * Z.abs (100 * bytes - h * u) <= u.
Proof. exact c54. Qed.
Print Assumptions C54_sizes.
Example C54_case : sys_format_size 4194304 = str "4.00 MB" /\ sys_format_size 412345 = str "402.68 kB" /\ sys_format_size 1023 = str "1023 byte".
Proof. vm_compute. auto. Qed.
