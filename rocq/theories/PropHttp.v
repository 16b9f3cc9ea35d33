(** Property theorems C95: the requests of the module as the services read them (src/httpreq.cpp, src/tic.cpp). *)
From Coq Require Import ZArith List Bool Lia.
From Verif Require Import Base BaseFacts Teleinfo TeleinfoSpec Publish HistorySpec Config ConfigSpec ToolSpec Json Tic TicSpec TicSamples
  Http HttpSpec HttpProofs HttpMain HttpSamples.
Import ListNotations.
Open Scope Z_scope.

(** C95. A server reads the request as it was meant: the method, the address, the host and its port, the data, whatever headers
    the library adds. [read_request] is a reader of HTTP (HttpSpec.v). Missing: the address must not hold spaces or ends of
    line. *)
Theorem C95_message_partial : forall own r, Forall plain_header own -> Forall (fun c => c <> 13 /\ c <> 10) (r_host r) -> one_word (r_url r) ->
  exists v, read_request (sent_bytes own r) = Some v /\
    v_method v = (match r_data r with Some _ => str "POST" | None => str "GET" end) /\
    v_target v = (if Nat.eqb (length (r_url r)) 0 then str "/" else r_url r) /\
    header_value (str "host") (v_headers v) =
      Some (r_host r ++ (if (r_port r =? 80) || (r_port r =? 443) then [] else str ":" ++ dec (r_port r))) /\
    v_body v = (match r_data r with Some d => d | None => [] end).
Proof. exact c95_message. Qed.
Print Assumptions C95_message_partial.
Example C95_message_case : Forall plain_header own0 /\
  let r := mk_req (str "10.0.0.2") 8080 (str "/n?t=MAJ") (Some (str "{}")) in
  sent_bytes own0 r = str "POST /n?t=MAJ HTTP/1.1" ++ eol ++ str "Host: 10.0.0.2:8080" ++ eol ++ str "User-Agent: ESP8266HTTPClient" ++ eol ++
    str "Accept-Encoding: identity;q=1,chunked;q=0.1,*;q=0" ++ eol ++ str "Connection: close" ++ eol ++
    str "Content-Type: application/json" ++ eol ++ str "Content-Length: 2" ++ eol ++ eol ++ str "{}" /\
  option_map v_body (read_request (sent_bytes own0 r)) = Some (str "{}").
Proof. split; [apply own0_plain|]. split; vm_compute; reflexivity. Qed.

(** With a space in the address, no server takes the request. *)
Theorem C95_space : forall own r, Forall plain_header own -> Forall (fun c => c <> 13 /\ c <> 10) (r_host r) ->
  Forall (fun c => c <> 13 /\ c <> 10) (r_url r) -> In 32 (r_url r) -> read_request (sent_bytes own r) = None.
Proof. exact c95_space. Qed.
Print Assumptions C95_space.
Example C95_space_case : let r := mk_req (str "jeedom") 80 (str "/j?api=my key") None in
  Forall (fun c => c <> 13 /\ c <> 10) (r_url r) /\ In 32 (r_url r) /\ read_request (sent_bytes own0 r) = None.
Proof. cbv zeta. split; [chars|]. split; [cbn; tauto|vm_compute; reflexivity]. Qed.

(** Jeedom gets, at the address of the settings, its key and then every group of the frame with its value, in order; the
    number of the meter is the one of the settings if there is one. Missing: texts without the characters that have a meaning
    in an address ([unreserved]: HttpSpec.v). *)
Theorem C95_jeedom_partial : forall own e now0 c evs past st now k t gs o st' r, Forall plain_header own ->
  frames_published evs -> published_ti t ->
  tic_run e evs (tic_start now0 c) = Some (past, st) -> tic_step e (Frame now k t) st = Some (o, st') ->
  carries t gs -> In (Request JEEDOM r) o ->
  let s := settings_after (view c) evs in
  one_word (s_jdom_host s) -> unreserved (s_jdom_url s) -> unreserved (s_jdom_key s) -> unreserved (s_jdom_adco s) ->
  Forall (fun g => unreserved (fst g) /\ unreserved (snd g)) gs ->
  exists v, read_request (sent_bytes own r) = Some v /\ v_method v = str "GET" /\
    path_of (v_target v) = (if Nat.eqb (length (s_jdom_url s)) 0 then str "/" else s_jdom_url s) /\
    fields_of (v_target v) = (str "api", s_jdom_key s) ::
      map (fun g => (fst g, if beq (fst g) (str "ADCO") && negb (Nat.eqb (length (s_jdom_adco s)) 0) then s_jdom_adco s else snd g)) gs.
Proof. exact c95_jeedom. Qed.
Print Assumptions C95_jeedom_partial.

(** emoncms gets the node if there is one, its key, and the text json that it reads as the codes of all the groups, in order
    ([emon_code]: the documented codes, TicSpec.v). *)
Theorem C95_emoncms_partial : forall own e now0 c evs past st now k t gs o st' r, Forall plain_header own ->
  frames_published evs -> published_ti t ->
  tic_run e evs (tic_start now0 c) = Some (past, st) -> tic_step e (Frame now k t) st = Some (o, st') ->
  carries t gs -> In (Request EMONCMS r) o ->
  let s := settings_after (view c) evs in
  one_word (s_emon_host s) -> unreserved (s_emon_url s) -> unreserved (s_emon_key s) ->
  Forall (fun g => unreserved (fst g) /\ unreserved (snd g)) gs ->
  Forall (fun g => Forall (fun c => c <> 44 /\ c <> 58 /\ c <> 125) (fst g ++ snd g)) gs ->
  exists v json, read_request (sent_bytes own r) = Some v /\ v_method v = str "GET" /\
    path_of (v_target v) = (if Nat.eqb (length (s_emon_url s)) 0 then str "/" else s_emon_url s) /\
    fields_of (v_target v) = (if 0 <? s_emon_node s then [(str "node", dec (s_emon_node s))] else []) ++
      [(str "apikey", s_emon_key s); (str "json", json)] /\
    emon_read json = Some (map (fun g => (fst g, emon_code g)) gs).
Proof. exact c95_emoncms. Qed.
Print Assumptions C95_emoncms_partial.

(** One frame, the three services. *)
Example C95_services_case : published_ti (hp "00100") /\
  carries (hp "00100") [(str "ADCO", str "111111111111"); (str "PTEC", str "HP"); (str "PAPP", str "00100")] /\
  seen cfg0 (hp "00100") = Some
   [ (MAJ, Some (str "/n", [(str "t", str "MAJ"); (str "p", str "100,~")]));
     (JEEDOM, Some (str "/jee.php", [(str "api", str "k1"); (str "ADCO", str "42"); (str "PTEC", str "HP"); (str "PAPP", str "00100")]));
     (EMONCMS, Some (str "/input/post", [(str "node", str "7"); (str "apikey", str "k2"); (str "json", str "{ADCO:111111111111,PTEC:3,PAPP:100}")])) ] /\
  emon_read (str "{ADCO:111111111111,PTEC:3,PAPP:100}") = Some [(str "ADCO", str "111111111111"); (str "PTEC", str "3"); (str "PAPP", str "100")].
Proof. split; [apply shown_published; vm_compute; reflexivity|]. split; [vm_compute; reflexivity|]. split; vm_compute; reflexivity. Qed.

(** The server of the notifications gets the address of the template, the host and the port of the settings, and, with POST,
    the data of the frame as JSON. *)
Theorem C95_notification_partial : forall own e now0 c evs past st now k t gs o st' w r ps, Forall plain_header own ->
  frames_published evs -> published_ti t ->
  terminated c -> Forall (fun ev => match ev with Configure _ c' => terminated c' | _ => True end) evs ->
  tic_run e evs (tic_start now0 c) = Some (past, st) -> tic_step e (Frame now k t) st = Some (o, st') ->
  carries t gs ->
  let s := settings_after (view c) evs in let address := concat (map (meaning e (t_ts t) gs (type_name w)) ps) in
  s_http_url s = concat (map written ps) -> Forall piece_ok ps -> separated ps ->
  In (Request w r) o -> w <> JEEDOM -> w <> EMONCMS -> one_word (s_http_host s) -> one_word address -> address <> [] ->
  t_size t <> 0%nat -> quotable (iso e (tv_sec (t_ts t))) = true -> Forall json_ready gs ->
  exists v, read_request (sent_bytes own r) = Some v /\ v_target v = address /\
    v_method v = (if s_use_post s then str "POST" else str "GET") /\
    header_value (str "host") (v_headers v) = Some (s_http_host s ++
      (if (s_http_port s =? 80) || (s_http_port s =? 443) then [] else str ":" ++ dec (s_http_port s))) /\
    (s_use_post s = false -> v_body v = []) /\
    (s_use_post s = true -> json_of (v_body v) = Some (JObj (
       (str "timestamp", JStr (iso e (tv_sec (t_ts t)))) :: (str "seconds", JStr (seconds_text (t_ts t))) ::
       (str "notif", JStr (type_name w)) :: map (fun g => (fst g, json_value (snd g))) gs))).
Proof. exact c95_notification. Qed.
Print Assumptions C95_notification_partial.
Example C95_notification_case : terminated cfg0 /\ s_use_post (view cfg0) = true /\ one_word (s_http_host (view cfg0)) /\
  outcome (fun os => match nth 0 (concat os) (SseData []) with
     | Request w r => option_map (fun v => (v_method v, v_target v, header_value (str "host") (v_headers v), v_body v)) (read_request (sent_bytes own0 r))
     | SseData _ => None end) (tic_run env0 [Frame 300000 0 (with_ptec "HP..")] (tic_start 0 cfg0)) =
  Some (Some (str "POST", str "/n?t=MAJ&p=,~", Some (str "10.0.0.2:8080"),
    [123; 34] ++ str "timestamp" ++ [34; 58; 34] ++ str "2020-01-26T01:53:20+0100" ++ [34; 44; 34] ++ str "seconds" ++ [34; 58; 34] ++
    seconds_text (t_ts (with_ptec "HP..")) ++ [34; 44; 34] ++ str "notif" ++ [34; 58; 34] ++ str "MAJ" ++ [34; 44; 34] ++ str "PTEC" ++ [34; 58; 34] ++
    str "HP" ++ [34; 125])).
Proof.
  split; [apply cfg0_terminated|]. split; [vm_compute; reflexivity|]. split; [|vm_compute; reflexivity].
  assert (E : s_http_host (view cfg0) = str "10.0.0.2") by (vm_compute; reflexivity). rewrite E. chars.
Qed.

(** With the factory address (a Domoticz server) every notification gives the two indexes and the power, as numbers without
    leading zeros (nothing for an absent label). *)
Theorem C95_factory_partial : forall own e now0 c evs past st now k t gs o st' w r, Forall plain_header own ->
  frames_published evs -> published_ti t ->
  terminated c -> Forall (fun ev => match ev with Configure _ c' => terminated c' | _ => True end) evs ->
  tic_run e evs (tic_start now0 c) = Some (past, st) -> tic_step e (Frame now k t) st = Some (o, st') ->
  carries t gs ->
  let s := settings_after (view c) evs in
  let number label := match lookup label gs with Some v => trim_number v | None => [] end in
  s_http_url s = s_http_url (factory 0) ->
  In (Request w r) o -> w <> JEEDOM -> w <> EMONCMS -> one_word (s_http_host s) ->
  Forall (fun g => unreserved (fst g) /\ unreserved (snd g)) gs ->
  exists v, read_request (sent_bytes own r) = Some v /\ path_of (v_target v) = str "/json.htm" /\
    fields_of (v_target v) = [(str "type", str "command"); (str "param", str "udevice"); (str "idx", str "1"); (str "nvalue", str "0");
      (str "svalue", number (str "HCHP") ++ str ";" ++ number (str "HCHC") ++ str ";0;0;" ++ number (str "PAPP") ++ str ";0")].
Proof. exact c95_factory. Qed.
Print Assumptions C95_factory_partial.
Example C95_factory_case :
  let c := notify_only "/json.htm?type=command&param=udevice&idx=1&nvalue=0&svalue=$HCHP;$HCHC;0;0;$PAPP;0" in
  s_http_url (view c) = s_http_url (factory 0) /\ published_ti two_rates /\
  seen c two_rates = Some [(MAJ, Some (str "/json.htm", [(str "type", str "command"); (str "param", str "udevice"); (str "idx", str "1");
    (str "nvalue", str "0"); (str "svalue", str "200000;123456;0;0;100;0")]))].
Proof. cbv zeta. split; [vm_compute; reflexivity|]. split; [apply shown_published; vm_compute; reflexivity|]. vm_compute. reflexivity. Qed.

(** C95 fails for the date: its + is read as a space. *)
Theorem C95_date_refuted : exists c, s_http_url (view c) = str "/n?d=$date" /\ iso env0 0 = str "2020-01-26T01:53:20+0100" /\
  seen c (hp "00100") = Some [(MAJ, Some (str "/n", [(str "d", str "2020-01-26T01:53:20 0100")]))].
Proof. exists (notify_only "/n?d=$date"). split; [vm_compute; reflexivity|]. split; vm_compute; reflexivity. Qed.
Print Assumptions C95_date_refuted.
(** An address that has already a question mark: Jeedom does not get its key. *)
Theorem C95_question_mark_refuted : exists c, s_jdom_url (view c) = str "/api.php?plugin=teleinfo" /\ s_jdom_key (view c) = str "k1" /\
  seen c (with_ptec "HP..") = Some [(JEEDOM, Some (str "/api.php", [(str "plugin", str "teleinfo?api=k1"); (str "PTEC", str "HP")]))].
Proof. exists (jeedom_only "/api.php?plugin=teleinfo" "k1" 80). split; [vm_compute; reflexivity|]. split; vm_compute; reflexivity. Qed.
Print Assumptions C95_question_mark_refuted.
(** A key with a space: the request is refused. *)
Theorem C95_key_refuted : exists c, s_jdom_key (view c) = str "my key" /\ seen c (with_ptec "HP..") = Some [(JEEDOM, None)].
Proof. exists (jeedom_only "/jee.php" "my key" 80). split; vm_compute; reflexivity. Qed.
Print Assumptions C95_key_refuted.
(** A value with the character &: it is cut. *)
Theorem C95_value_refuted : exists t, published_ti t /\
  carries t [(str "OPTARIF", str "BBR&"); (str "PTEC", str "HPJB"); (str "PAPP", str "00100")] /\
  seen (jeedom_only "/jee.php" "k1" 80) t = Some [(JEEDOM, Some (str "/jee.php",
    [(str "api", str "k1"); (str "OPTARIF", str "BBR"); ([], []); (str "PTEC", str "HPJB"); (str "PAPP", str "00100")]))].
Proof. exists tempo. split; [apply shown_published; vm_compute; reflexivity|]. split; vm_compute; reflexivity. Qed.
Print Assumptions C95_value_refuted.
(** On port 443 the bytes are not encrypted: they do not begin as a TLS connection does (22), and the key is readable. *)
Theorem C95_encryption_refuted : exists c, s_jdom_port (view c) = 443 /\
  outcome (fun os => map (fun x => match x with Request _ r => firstn 22 (sent_bytes own0 r) | SseData _ => [] end) (concat os))
    (tic_run env0 [Frame 300000 0 (with_ptec "HP..")] (tic_start 0 c)) = Some [str "GET /jee.php?api=k1&PT"].
Proof. exists (jeedom_only "/jee.php" "k1" 443). split; vm_compute; reflexivity. Qed.
Print Assumptions C95_encryption_refuted.
