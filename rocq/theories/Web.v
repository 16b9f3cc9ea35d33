(** Model of src/webserver.cpp and src/update.cpp: the pages, who may read them, and uploads. *)
From Coq Require Import ZArith List Bool Lia.
From Verif Require Import Base Teleinfo Publish Config JsonBuild Tic Pages Sse Cpu.
Import ListNotations.
Open Scope Z_scope.

(** Result of a handler: it ends normally, its behaviour is undefined, or it has not ended after the given number of loop
    iterations. *)
Inductive res (A : Type) := Done (a : A) | Undefined | OutOfFuel.
Arguments Done {A}. Arguments Undefined {A}. Arguments OutOfFuel {A}.
Definition lift {A} (o : option A) : res A := match o with Some a => Done a | None => Undefined end.

(** ** Requests, surroundings, state, effects *)

Inductive method := GET | POST | OTHER.

(** A request as given by the library ESP8266WebServer. [q_uri]: server.uri() (without the arguments); [q_args]: names and
    values of the arguments; [q_accepts u p]: the result of server.authenticate(u, p), that is whether the request carries
    the credentials (u, p) (Basic or Digest, done by the library); [q_forwarded]: server.hasHeader of X-Forwarded-For. *)
Record hreq := mk_hreq {
  q_method : method; q_uri : list Z; q_args : form; q_accepts : list Z -> list Z -> bool; q_forwarded : bool }.

(** What the handlers ask of the rest of the world at the time of the request: time functions, millis(), system data,
    files of the file system with their sizes, networks found by the scan, content of a file by path, what the flash does
    during a commit, size of the file system partition. *)
Record around := mk_around {
  a_env : env; a_now : Z; a_info : sysinfo; a_files : list (list Z * Z); a_nets : list network;
  a_site : list Z -> option (list Z); a_flash : outcome; a_fs_size : Z }.

(** The global variables of the program: configuration and EEPROM; decoder, published frame and tinfo_pause; state of the
    notifications; timers; event stream clients; CPU load; sys_update_is_ok (src/update.cpp:18). *)
Record device := mk_dev {
  d_cs : cstate; d_pub : pub; d_ns : nstate; d_tm : timers; d_sse : sse; d_perf : perf; d_upd : bool }.

Inductive mime := Json | Text | Html.

(** What the outside world can see: a response with its status, type and body; a file sent as a 200 response; an action on
    an event stream; a restart (immediate, or 500 ms later); the erasure of the credentials stored by the SDK; calls of the
    library Updater: begin(size, U_FS or U_FLASH), write, end; a request sent to a server. Response headers are left out. *)
Inductive out :=
| Reply (code : Z) (kind : mime) (body : list Z)
| SendFile (path content : list Z)
| Streaming (e : sse_effect)
| RestartNow
| RestartSoon
| EraseSdk
| UpdateBegin (to_fs : bool) (size : Z)
| UpdateWrite (data : list Z)
| UpdateEnd (finish : bool)
| Sent (why : reason) (r : request).

Definition cfg_of (d : device) : cfg := c_cfg (d_cs d).
Definition ti_of (d : device) : teleinfo := p_ti (d_pub d).

(** ** Access: webserver_get_auth, src/webserver.cpp:28-41 *)
Inductive access := NoAccess | Restricted | Full.
Definition get_auth (c : cfg) (q : hreq) : access :=
  match text Username c with
  | [] => Full
  | u => if q_accepts q u (text Password c) then (if q_forwarded q then Restricted else Full) else NoAccess
  end.

(** server.requestAuthentication(BASIC_AUTH, realm, "Authentication Failed"): the library sends status 401. *)
Definition challenge : out := Reply 401 Html (str "Authentication Failed").
(** webserver_access_full, src/webserver.cpp:44-60, followed by the action when it returns true. *)
Definition if_full (q : hreq) (d : device) (act : res (device * list out)) : res (device * list out) :=
  match get_auth (cfg_of d) q with
  | Full => act
  | Restricted => Done (d, [Reply 403 Text (str "failed")])
  | NoAccess => Done (d, [challenge])
  end.
(** webserver_access_ok, src/webserver.cpp:63-67, followed by the action; [b]: access == RESTRICTED. *)
Definition if_ok (q : hreq) (d : device) (act : bool -> res (device * list out)) : res (device * list out) :=
  match get_auth (cfg_of d) q with
  | Full => act false
  | Restricted => act true
  | NoAccess => Done (d, [challenge])
  end.

(** server_send_json, src/webserver.cpp:69-92 *)
Definition or_braces (body : list Z) : list Z := match body with [] => str "{}" | _ => body end.
Definition send_json (q : hreq) (d : device) (get_json : bool -> option (list Z)) : res (device * list out) :=
  if_ok q d (fun r => lift (b <- get_json r ;; Some (d, [Reply 200 Json (or_braces b)]))).

(** ** Changes of state *)
Definition with_cs (s : cstate) (d : device) : device :=
  mk_dev s (d_pub d) (d_ns d) (d_tm d) (d_sse d) (d_perf d) (d_upd d).
Definition with_tm (t : timers) (d : device) : device :=
  mk_dev (d_cs d) (d_pub d) (d_ns d) t (d_sse d) (d_perf d) (d_upd d).
Definition with_sse (s : sse) (d : device) : device :=
  mk_dev (d_cs d) (d_pub d) (d_ns d) (d_tm d) s (d_perf d) (d_upd d).
Definition with_upload (paused ok : bool) (d : device) : device :=
  mk_dev (d_cs d) (mk_pub (p_dec (d_pub d)) (p_ti (d_pub d)) paused) (d_ns d) (d_tm d) (d_sse d) (d_perf d) ok.

(** ** The not-found page, src/webserver.cpp:94-128 *)

(** for (uint8_t i = 0; i < server.args(); i++): the counter has 8 bits. [None]: not ended after [fuel] iterations. *)
Definition arg_line (a : list Z * list Z) : list Z := str " " ++ fst a ++ str ": " ++ snd a ++ [10].
Fixpoint args_loop (fuel : nat) (i : Z) (args : form) (message : list Z) : option (list Z) :=
  match fuel with
  | O => None
  | S f =>
      if i <? Z.of_nat (length args) then
        args_loop f (u8 (i + 1)) args (message ++ arg_line (nth (Z.to_nat i) args ([], [])))
      else Some message
  end.
Definition method_name (m : method) : list Z := match m with GET => str "GET" | _ => str "POST" end.
Definition not_found_head (q : hreq) : list Z :=
  str "Not Found" ++ [10; 10] ++ str "URI: " ++ q_uri q ++ [10] ++ str "Method: " ++ method_name (q_method q) ++ [10]
  ++ str "Arguments: " ++ dec (Z.of_nat (length (q_args q))) ++ [10].

(** uri().c_str() + 1: the C string after the first character; undefined when the URI is empty (the pointer is past the
    terminator). *)
Definition after_slash (uri : list Z) : option (list Z) := match cstr uri with [] => None | _ :: l => Some l end.

(** webserver_handle_notfound. *)
Definition not_found (fuel : nat) (a : around) (q : hreq) (d : device) : res (device * list out) :=
  let value :=
    if q_accepts q (text Username (cfg_of d)) (text Password (cfg_of d)) then
      l <- after_slash (q_uri q) ;; tic_get_value (a_env a) (ti_of d) l
    else Some None in
  match value with
  | None => Undefined
  | Some (Some v) => Done (d, [Reply 200 Text v])
  | Some None =>
      match args_loop fuel 0 (q_args q) (not_found_head q) with
      | Some m => Done (d, [Reply 404 Text m])
      | None => OutOfFuel
      end
  end.

(** ** The other handlers *)

(** webserver_handle_read, src/webserver.cpp:249-280, for a path that does not end with a slash: the compressed file
    first. *)
Definition handle_read (site : list Z -> option (list Z)) (path : list Z) : option out :=
  match site (path ++ str ".gz") with
  | Some c => Some (SendFile (path ++ str ".gz") c)
  | None => match site path with Some c => Some (SendFile path c) | None => None end
  end.
(** redirect_update, src/webserver.cpp:21 *)
Definition redirect_update : list Z :=
  str "<!DOCTYPE HTML PUBLIC<title>update</title><a href=" ++ [34] ++ str "/update" ++ [34] ++ str ">update</a>".
(** update_html, src/update.cpp:21-32, abridged to its form. *)
Definition update_html : list Z := str "<form method=POST enctype=multipart/form-data>".

(** printf "%kd", "%ku": padded with spaces on the left. *)
Definition pad_space (k : nat) (s : list Z) : list Z := repeat 32 (k - length s) ++ s.
(** cpuload_print, src/cpuload.cpp:50-62 (ENABLE_CPULOAD) *)
Definition cpuload_text (now : Z) (p : perf) : list Z :=
  let sum := fold_left (fun s v => u32 (s + v)) (pf_vals p) 0 / 10 in
  str "PERF: millis=" ++ pad_space 10 (dec now) ++ str " counter=" ++ pad_space 6 (dec sum) ++ str "/sec load="
  ++ decs (cpuload_cpu p) ++ str " %" ++ [10].

(** What /system.json shows of the program itself: the number of streams (src/sys.cpp:163) and, with ENABLE_CPULOAD, the load
    (src/sys.cpp:149-152); the rest of [i] comes from the SDK. *)
Definition with_state (d : device) (i : sysinfo) : sysinfo :=
  mk_info (i_micros i) (i_now i) (i_connected i) (i_rssi i) (i_mac i) (i_reconnects i) (i_version i) (i_date i)
    (i_flags i) (i_sdk i) (i_chip i) (i_flash i) (i_sketch i) (i_free i) (i_heap i)
    (match i_cpu i with Some _ => Some (cpuload_cpu (d_perf d)) | None => None end) (i_total i) (i_used i)
    (Z.of_nat (length (sse_list (d_sse d)))) (i_remotes i).

(** config_handle_form and its answers, src/config.cpp:374-466: the timers are armed again in all cases (line 465). *)
Definition form_answer (code : Z) : list Z :=
  if code =? 200 then str "OK" else if code =? 412 then str "Unable to save configuration" else str "Missing Form Field".
Definition handle_form (a : around) (q : hreq) (restricted : bool) (d : device) : res (device * list out) :=
  lift ('(s, code) <- config_handle_form (a_flash a) restricted (q_args q) (d_cs d) ;;
        Some (with_tm (tic_make_timers (a_now a) (c_cfg s) (d_tm d)) (with_cs s d), [Reply code Text (form_answer code)])).

(** SseClients::on and handle_sse_data, src/sse.h:76-102: the refusal is a 503 response. *)
Definition sse_out (e : sse_effect) : out :=
  match e with Refused => Reply 503 Text (str "Service Unavailable (too many clients)") | _ => Streaming e end.
Definition handle_sse (d : device) : res (device * list out) :=
  let '(s, o) := handle_sse_data (d_sse d) in Done (with_sse s d, map sse_out o).

(** sys_handle_factory_reset, src/sys.cpp:382-392 *)
Definition factory_reset (a : around) (d : device) : res (device * list out) :=
  lift (s <- config_reset (chip_id (a_env a)) (a_flash a) (d_cs d) ;;
        Some (with_cs s d, [EraseSdk; Reply 200 Text (str "Reset"); RestartNow])).

(** ** The routes, in the order of their registration: src/webserver.cpp:130-216, src/update.cpp:60-175. [None] as a method:
    HTTP_ANY. *)
Inductive handler :=
| HStream | HCpu | HForm | HDict | HArray | HEmoncms | HSystem | HConfig | HFiles | HScan | HFactory | HReset | HBeat
| HUpdatePage | HUpdateDone | HIndex | HVersion.
Definition routes : list (option method * list Z * handler) :=
  [ (None, str "/sse/json", HStream); (None, str "/tic", HStream); (None, str "/cpuload", HCpu);
    (None, str "/config_form.json", HForm); (None, str "/json", HDict); (None, str "/tinfo.json", HArray);
    (None, str "/emoncms.json", HEmoncms); (None, str "/system.json", HSystem); (None, str "/config.json", HConfig);
    (None, str "/spiffs.json", HFiles); (None, str "/wifiscan.json", HScan); (None, str "/factory_reset", HFactory);
    (None, str "/reset", HReset); (Some GET, str "/hb.htm", HBeat); (Some GET, str "/update", HUpdatePage);
    (Some POST, str "/update", HUpdateDone); (None, str "/", HIndex); (None, str "/version", HVersion) ].
Definition method_fits (w : option method) (m : method) : bool :=
  match w, m with
  | None, _ => true
  | Some GET, GET | Some POST, POST | Some OTHER, OTHER => true
  | _, _ => false
  end.
(** The library calls the first handler registered for the method and exactly this URI. *)
Fixpoint find_route (rs : list (option method * list Z * handler)) (m : method) (uri : list Z) : option handler :=
  match rs with
  | [] => None
  | (w, u, h) :: r => if method_fits w m && beq u uri then Some h else find_route r m uri
  end.

Definition serve (a : around) (q : hreq) (d : device) (h : handler) : res (device * list out) :=
  match h with
  | HStream => if_ok q d (fun _ => handle_sse d)
  | HCpu => if_ok q d (fun _ => Done (d, [Reply 200 Text (cpuload_text (a_now a) (d_perf d))]))
  | HForm => if_ok q d (fun r => handle_form a q r d)
  | HDict => send_json q d (fun _ => tic_get_json_dict (a_env a) (ti_of d))
  | HArray => send_json q d (fun _ => tic_get_json_array (a_env a) (ti_of d))
  | HEmoncms => send_json q d (fun _ => tic_emoncms_data (ti_of d) [])
  | HSystem => send_json q d (sys_get_info_json (cfg_of d) (with_state d (a_info a)))
  | HConfig => send_json q d (fun r => Some (config_get_json (cfg_of d) r))
  | HFiles => send_json q d (fs_get_json (a_files a) (i_total (a_info a)) (i_used (a_info a)))
  | HScan => send_json q d (sys_wifi_scan_json (a_nets a))
  | HFactory => if_full q d (factory_reset a d)
  | HReset => if_ok q d (fun _ => Done (d, [Reply 200 Text (str "Restart"); RestartNow]))
  | HBeat => Done (d, [Reply 200 Text (str "OK")])
  | HUpdatePage => if_full q d (Done (d, [Reply 200 Html update_html]))
  (* src/update.cpp:79-97: no response here, the upload handler has sent one *)
  | HUpdateDone => if_full q d (Done (d, if d_upd d then [RestartSoon] else []))
  | HIndex =>
      if_ok q d (fun r =>
        match handle_read (a_site a) (str (if r then "/index.restrict.html" else "/index.html")) with
        | Some o => Done (d, [o])
        | None => Done (d, [Reply 304 Html redirect_update])
        end)
  (* a missing file gives an empty response *)
  | HVersion => Done (d, [match a_site a (str "/version") with Some c => SendFile (str "/version") c | None => Reply 200 Text [] end])
  end.

(** server.serveStatic, src/webserver.cpp:227-230: the library answers GET requests whose URI starts with one of the four
    prefixes with the file of that name, or its compressed form; when there is none the not-found handler is called. *)
Definition static_prefixes : list (list Z) := [str "/fonts"; str "/js"; str "/css"; str "/favicon.ico"].
Definition has_prefix (p s : list Z) : bool := beq (firstn (length p) s) p.
Definition static_file (a : around) (q : hreq) : option out :=
  if method_fits (Some GET) (q_method q) && existsb (fun p => has_prefix p (q_uri q)) static_prefixes then
    match a_site a (q_uri q) with
    | Some c => Some (SendFile (q_uri q) c)
    | None => match a_site a (q_uri q ++ str ".gz") with Some c => Some (SendFile (q_uri q ++ str ".gz") c) | None => None end
    end
  else None.

(** One request: server.handleClient(), src/webserver.cpp:245. *)
Definition handle (fuel : nat) (a : around) (q : hreq) (d : device) : res (device * list out) :=
  match find_route routes (q_method q) (q_uri q) with
  | Some h => serve a q d h
  | None =>
      match static_file a q with
      | Some o => Done (d, [o])
      | None => not_found fuel a q d
      end
  end.

(** ** Uploads: src/update.cpp:34-57, 101-174. The library calls this function for the parts of a file posted to /update
    before the handler above; it is given no chance to look at the credentials first. [ok]: what Update.begin, or
    Update.write, reported; [ended]: what Update.end reports if it is called. *)
Inductive upload :=
| UpStart (name : list Z) (content_length : Z) (ok ended : bool)
| UpWrite (data : list Z) (ok ended : bool)
| UpEnd (ended : bool)
| UpAborted (ended : bool).

(** filename.indexOf("fs.bin") != -1 *)
Fixpoint contains (w s : list Z) : bool :=
  has_prefix w s || match s with [] => false | _ :: r => contains w r end.

(** sys_update_finish *)
Definition update_finish (finish ended : bool) (d : device) : device * list out :=
  (with_upload false ended d, [UpdateEnd finish; Reply 200 Text (if ended then str "OK" else str "FAIL")]).
Definition handle_upload (a : around) (u : upload) (d : device) : device * list out :=
  match u with
  | UpStart name len ok ended =>
      let to_fs := contains (str "fs.bin") name in
      let b := UpdateBegin to_fs (if to_fs then a_fs_size a else len) in
      let d0 := with_upload (p_pause (d_pub d)) false d in
      if ok then (with_upload true false d, [b])
      else let '(d', o) := update_finish false ended d0 in (d', b :: o)
  | UpWrite data ok ended =>
      if ok then (d, [UpdateWrite data])
      else let '(d', o) := update_finish false ended d in (d', UpdateWrite data :: o)
  | UpEnd ended => update_finish true ended d
  | UpAborted ended => update_finish false ended d
  end.
