(** Model of src/tic.cpp: JSON texts, notifications, periodic requests. *)
From Coq Require Import ZArith List Bool Lia.
From Verif Require Import Base Teleinfo Publish Config JsonBuild.
Import ListNotations.
Open Scope Z_scope.

(** What the code asks of its environment: local time as "%Y-%m-%dT%H:%M:%S%z" (localtime and strftime of the C
    library, Teleinfo::get_timestamp_iso8601, src/teleinfo.h:331-337) and ESP.getChipId(). *)
Record env := mk_env { iso : Z -> list Z; chip_id : Z }.

(** Teleinfo::is_empty, src/teleinfo.h:92-95 *)
Definition is_empty (t : teleinfo) : bool := Nat.eqb (t_size t) 0.

(** All (label, value) pairs of the client loop "while (tinfo.get_value_next(label, value, &state))". *)
Definition ti_pairs (t : teleinfo) : option (list (list Z * list Z)) := all_pairs (t_frame t) (t_size t).
(** tinfo.get_value(label, nullptr, rz) *)
Definition ti_value (t : teleinfo) (label : list Z) (rz : bool) : option (option (list Z)) :=
  get_value (t_frame t) (t_size t) label rz.

(** Teleinfo::get_integer, src/teleinfo.h:385-399, on the C string [v] (the pointer version is in Teleinfo.v; both
    only read that string). *)
Fixpoint skip_zeros_s (v : list Z) : list Z :=
  match v with
  | c :: ((_ :: _) as r) => if c =? 48 then skip_zeros_s r else v
  | _ => v
  end.
Definition get_integer_s (v : list Z) : bool * list Z :=
  if all_digits v then (true, skip_zeros_s v) else (false, v).

(** tic_get_json_array, src/tic.cpp:182-207 (the period of watt() is the default one, 60 s) *)
Definition tic_get_json_array (e : env) (t : teleinfo) : option (list Z) :=
  if is_empty t then Some (str "[]")
  else
    let s0 := jt_str (str "timestamp") (iso e (tv_sec (t_ts t))) jt_new in
    w <- watt t 60 ;;
    let s1 := jt_num (str "watt") w s0 in
    gs <- ti_pairs t ;;
    jt_finalize (fold_left (fun s g => jt_str (fst g) (snd g) s) gs s1).

(** The loop body of tic_get_json_dict_notif, src/tic.cpp:233-241 *)
Definition dict_group (s : list Z) (g : list Z * list Z) : list Z :=
  let '(is_number, v) := get_integer_s (snd g) in
  if is_number then jb_raw (fst g) v false s else jb_str (fst g) v false s.

(** tic_get_json_dict_notif, src/tic.cpp:209-244 *)
Definition tic_get_json_dict_notif (e : env) (t : teleinfo) (notif : option (list Z)) : option (list Z) :=
  if is_empty t then Some (str "{}")
  else
    let s0 := jb_str (str "timestamp") (iso e (tv_sec (t_ts t))) false jb_new in
    let s1 := jb_str (str "seconds") (get_seconds (t_ts t)) false s0 in
    let s2 := match notif with Some n => jb_str (str "notif") n false s1 | None => s1 end in
    gs <- ti_pairs t ;;
    jb_finalize (fold_left dict_group gs s2).

(** tic_get_json_dict, src/tic.cpp:246-249 *)
Definition tic_get_json_dict (e : env) (t : teleinfo) : option (list Z) := tic_get_json_dict_notif e t None.

(** tic_get_value, src/tic.cpp:252-272; [Some None]: nullptr *)
Definition tic_get_value (e : env) (t : teleinfo) (label : list Z) : option (option (list Z)) :=
  if beq label (str "watt") then w <- watt t 60 ;; Some (Some (dec w))
  else if beq label (str "seconds") then Some (Some (get_seconds (t_ts t)))
  else if beq label (str "timestamp") then Some (Some (iso e (tv_sec (t_ts t))))
  else ti_value t label true.

(** ** URL templates *)

(** http_add_value_ex, src/tic.cpp:274-306: the text added to the URI. *)
Definition http_add_value_ex (e : env) (t : teleinfo) (label notif : list Z) : option (list Z) :=
  if beq_nocase label (str "type") then Some notif
  else if beq_nocase label (str "notif") then Some notif
  else if beq_nocase label (str "date") then Some (iso e (tv_sec (t_ts t)))
  else if beq_nocase label (str "timestamp") then Some (decs (tv_sec (t_ts t)))
  else if beq_nocase label (str "seconds") then Some (get_seconds (t_ts t))
  else if beq_nocase label (str "chipid") then Some (str "0x" ++ hex6 (chip_id e))
  else r <- ti_value t label true ;; Some (match r with Some v => v | None => [] end).

(** Loop "while ( *p && ( *p != '~') && (i < sizeof(label) - 1)) label[i++] = *p++", src/tic.cpp:321-324: [n] is the
    room left. Returns the label and the pointer. [m] is the array config.httpreq.url; [None] is a read outside it.
    The bound on i is tested last, so the character is read even when no room is left. *)
Fixpoint tilde_label (n : nat) (m : list Z) (p : nat) : option (list Z * nat) :=
  c <- rd m p ;;
  if (c =? 0) || (c =? 126) then Some ([], p)
  else match n with
       | O => Some ([], p)
       | S n' => '(l, q) <- tilde_label n' m (S p) ;; Some (c :: l, q)
       end.

(** Loop "while ((isalpha( *p) || ( *p == '_')) && (i < sizeof(label) - 1))", src/tic.cpp:347-350. A byte above 127 is
    not a letter (C locale). *)
Fixpoint dollar_label (n : nat) (m : list Z) (p : nat) : option (list Z * nat) :=
  c <- rd m p ;;
  if isalpha c || (c =? 95) then
    match n with
    | O => Some ([], p)
    | S n' => '(l, q) <- dollar_label n' m (S p) ;; Some (c :: l, q)
    end
  else Some ([], p).

(** The expansion loop of http_notif, src/tic.cpp:316-362. The text of the URI is accumulated in [uri]. [None]: a read
    outside the array (or, impossible, more iterations than bytes). *)
Fixpoint expand (fuel : nat) (e : env) (t : teleinfo) (notif : list Z) (m : list Z) (p : nat) (uri : list Z)
  : option (list Z) :=
  match fuel with
  | O => None
  | S f =>
      c <- rd m p ;;
      if c =? 0 then Some uri
      else if c =? 126 (* ~ *) then
        '(label, q) <- tilde_label 15 m (S p) ;;
        v <- (match label with [] => Some [126] | _ => http_add_value_ex e t label notif end) ;;
        expand f e t notif m (S q) (uri ++ v)
      else if c =? 36 (* $ *) then
        d <- rd m (S p) ;;
        if d =? 36 then expand f e t notif m (S (S p)) (uri ++ [36])
        else
          '(label, q) <- dollar_label 15 m (S p) ;;
          v <- http_add_value_ex e t label notif ;;
          expand f e t notif m q (uri ++ v)   (* --p, then ++p *)
      else expand f e t notif m (S p) (uri ++ [c])
  end.
Definition expand_url (e : env) (t : teleinfo) (notif : list Z) (m : list Z) : option (list Z) :=
  expand (S (List.length m)) e t notif m 0 [].

(** ** Requests *)

(** A call of http_request, src/httpreq.cpp:11-34: GET, or POST of [r_data]. The bytes written are in Http.v. *)
Record request := mk_req { r_host : list Z; r_port : Z; r_url : list Z; r_data : option (list Z) }.

(** The reason of a request: the notification types of src/tic.cpp:18-23, and the two other services. *)
Inductive reason := MAJ | PTEC | HAUT | BAS | ADPS | NORM | JEEDOM | EMONCMS.
Definition reason_text (r : reason) : list Z :=
  match r with
  | MAJ => str "MAJ" | PTEC => str "PTEC" | HAUT => str "HAUT" | BAS => str "BAS" | ADPS => str "ADPS"
  | NORM => str "NORM" | JEEDOM => [] | EMONCMS => []
  end.

(** http_notif, src/tic.cpp:308-378 *)
Definition http_notif (e : env) (c : cfg) (t : teleinfo) (why : reason) : option request :=
  uri <- expand_url e t (reason_text why) (get HUrl c) ;;
  if bit 7 HFlags c then
    data <- tic_get_json_dict_notif e t (Some (reason_text why)) ;;
    Some (mk_req (text HHost c) (num HPort c) uri (Some data))
  else Some (mk_req (text HHost c) (num HPort c) uri None).

(** ** State of the notifications: src/tic.cpp:33-36. [n_periode] is the C string held by periode_en_cours (at most 7
    characters: strncpy_s terminates it). *)
Record nstate := mk_ns { n_periode : list Z; n_init : bool; n_haut : bool; n_adps : bool }.
Definition ns_init : nstate := mk_ns [] true false false.

(** http_notif_periode_en_cours, src/tic.cpp:380-402. strncmp(a, b, 8) compares at most the first 8 characters. The
    result is the notification to send, if any. *)
Definition notif_ptec (t : teleinfo) (s : nstate) : option (nstate * option reason) :=
  r <- ti_value t (str "PTEC") false ;;
  match r with
  | None => Some (s, None)
  | Some v =>
      if beq (firstn 8 (n_periode s)) (firstn 8 v) then Some (s, None)
      else
        let p := firstn 7 v in
        if n_init s then Some (mk_ns p false (n_haut s) (n_adps s), None)
        else Some (mk_ns p false (n_haut s) (n_adps s), Some PTEC)
  end.

(** http_notif_adps, src/tic.cpp:404-426 *)
Definition notif_adps (t : teleinfo) (s : nstate) : option (nstate * option reason) :=
  r <- ti_value t (str "ADPS") false ;;
  match r with
  | None => if n_adps s then Some (mk_ns (n_periode s) (n_init s) (n_haut s) false, Some NORM) else Some (s, None)
  | Some _ => if n_adps s then Some (s, None) else Some (mk_ns (n_periode s) (n_init s) (n_haut s) true, Some ADPS)
  end.

(** http_notif_seuils, src/tic.cpp:428-452. strtol in base 10 is the same as String::toInt (Config.to_int). *)
Definition notif_seuils (c : cfg) (t : teleinfo) (s : nstate) : option (nstate * option reason) :=
  r <- ti_value t (str "PAPP") false ;;
  match r with
  | None => Some (s, None)
  | Some v =>
      let papp := to_int v in
      if papp =? 0 then Some (s, None)
      else if (num HSeuilHaut c <=? papp) && negb (n_haut s)
           then Some (mk_ns (n_periode s) (n_init s) true (n_adps s), Some HAUT)
      else if (papp <=? num HSeuilBas c) && n_haut s
           then Some (mk_ns (n_periode s) (n_init s) false (n_adps s), Some BAS)
      else Some (s, None)
  end.

(** ** Jeedom and Emoncms *)

(** The loop of jeedom_notif, src/tic.cpp:472-489 *)
Definition jeedom_group (c : cfg) (url : list Z) (g : list Z * list Z) : list Z :=
  let v := if beq (fst g) (str "ADCO")
           then match text JAdco c with [] => snd g | a => a end
           else snd g in
  url ++ str "&" ++ fst g ++ str "=" ++ v.

(** jeedom_notif, src/tic.cpp:455-492; [Some None]: no request *)
Definition jeedom_notif (c : cfg) (t : teleinfo) : option (option request) :=
  match text JHost c with
  | [] => Some None
  | h =>
      let url0 := match text JUrl c with [] => str "/" | u => u end in
      gs <- ti_pairs t ;;
      Some (Some (mk_req h (num JPort c)
        (fold_left (jeedom_group c) gs (url0 ++ str "?" ++ str "api=" ++ text JKey c)) None))
  end.

(** Character i of the C string v, 0 for its terminator. [None] beyond the terminator. *)
Definition char_at (v : list Z) (i : nat) : option Z := rd (v ++ [0]) i.

(** OPTARIF, src/tic.cpp:532-553. && stops at the first false operand, so each character is read only if the previous
    ones matched. *)
Definition starts (v : list Z) (w : list Z) : option bool :=
  (fix go (i : nat) (w : list Z) : option bool :=
     match w with
     | [] => Some true
     | x :: w' => c <- char_at v i ;; if c =? x then go (S i) w' else Some false
     end) 0%nat w.
Definition emon_optarif (v : list Z) : option (list Z) :=
  b1 <- starts v (str "BAS") ;;
  if b1 then Some (str "1") else
  b2 <- starts v (str "HC") ;;
  if b2 then Some (str "2") else
  b3 <- starts v (str "EJP") ;;
  if b3 then Some (str "3") else
  b4 <- starts v (str "BBR") ;;
  if b4 then Some (str "4") else Some (str "0").

(** HHPHC, src/tic.cpp:555-561: the code of the first character ([char] is unsigned on the ESP8266) *)
Definition emon_hhphc (v : list Z) : option (list Z) := c <- char_at v 0 ;; Some (decs c).

(** PTEC, src/tic.cpp:562-625 *)
Definition emon_ptec (v : list Z) : list Z :=
  if beq v (str "TH") then str "1" else
  if beq v (str "HC") then str "2" else
  if beq v (str "HP") then str "3" else
  if beq v (str "HN") then str "4" else
  if beq v (str "PM") then str "5" else
  if beq v (str "HCJB") then str "6" else
  if beq v (str "HCJW") then str "7" else
  if beq v (str "HCJR") then str "8" else
  if beq v (str "HPJB") then str "9" else
  if beq v (str "HPJW") then str "10" else
  if beq v (str "HPJR") then str "11" else
  str "0".

(** The loop body of tic_emoncms_data, src/tic.cpp:505-634 *)
Definition emon_value (g : list Z * list Z) : option (list Z) :=
  if beq (fst g) (str "OPTARIF") then emon_optarif (snd g)
  else if beq (fst g) (str "HHPHC") then emon_hhphc (snd g)
  else if beq (fst g) (str "PTEC") then Some (emon_ptec (snd g))
  else Some (snd (get_integer_s (snd g))).
Fixpoint emon_groups (first : bool) (gs : list (list Z * list Z)) (url : list Z) : option (list Z) :=
  match gs with
  | [] => Some url
  | g :: gs' =>
      v <- emon_value g ;;
      emon_groups false gs' (url ++ (if first then [] else str ",") ++ fst g ++ str ":" ++ v)
  end.

(** tic_emoncms_data, src/tic.cpp:495-638 *)
Definition tic_emoncms_data (t : teleinfo) (url : list Z) : option (list Z) :=
  gs <- ti_pairs t ;;
  u <- emon_groups true gs (url ++ str "{") ;;
  Some (u ++ str "}").

(** emoncms_notif, src/tic.cpp:641-668 *)
Definition emoncms_notif (c : cfg) (t : teleinfo) : option (option request) :=
  match text EHost c with
  | [] => Some None
  | h =>
      let url0 := match text EUrl c with [] => str "/" | u => u end in
      let node := if 0 <? num ENode c then str "node=" ++ dec (num ENode c) ++ str "&" else [] in
      u <- tic_emoncms_data t (url0 ++ str "?" ++ node ++ str "apikey=" ++ text EKey c ++ str "&json=") ;;
      Some (Some (mk_req h (num EPort c) u None))
  end.

(** ** Timers: esp8266::polledTimeout::periodicMs (library PolledTimeout.h): _timeout, _neverExpires, _start. *)
Record timer := mk_timer { tm_period : Z; tm_never : bool; tm_start : Z }.

(** resetToNeverExpires(): _timeout = alwaysExpired + 1; _start is kept. *)
Definition tm_disable (tm : timer) : timer := mk_timer 1 true (tm_start tm).
(** reset(timeout): starts now; a timeout above 2^32 - 2 never expires. *)
Definition tm_reset (now timeout : Z) : timer := mk_timer timeout (4294967294 <? timeout) now.
(** operator bool = expired() = expiredRetrigger() of a periodic timer: a null timeout is always expired; otherwise
    true when at least one period has elapsed (modulo 2^32 ms), and the start advances by whole periods. *)
Definition tm_expired (now : Z) (tm : timer) : bool * timer :=
  if tm_period tm =? 0 then (true, tm)
  else if tm_never tm then (false, tm)
  else
    let d := u32 (now - tm_start tm) in
    if tm_period tm <=? d
    then (true, mk_timer (tm_period tm) (tm_never tm) (u32 (tm_start tm + d / tm_period tm * tm_period tm)))
    else (false, tm).

(** src/tic.cpp:38-41 *)
Record timers := mk_timers { t_http : timer; t_emoncms : timer; t_jeedom : timer; t_sse : timer }.
(** Constructed with neverExpires (start at boot). *)
Definition tm_init : timer := mk_timer 4294967295 true 0.
Definition timers_init : timers := mk_timers tm_init tm_init tm_init tm_init.

(** One service in tic_make_timers, src/tic.cpp:134-169: freq is a uint32_t, freq * 1000 wraps. *)
Definition arm (now freq port : Z) (host : list Z) (tm : timer) : timer :=
  if (freq =? 0) || (Nat.eqb (List.length host) 0) || (port =? 0) then tm_disable tm
  else tm_reset now (u32 (freq * 1000)).

(** tic_make_timers, src/tic.cpp:131-180 (sse_freq is a uint16_t: no wrap) *)
Definition tic_make_timers (now : Z) (c : cfg) (ts : timers) : timers :=
  mk_timers
    (arm now (num HFreq c) (num HPort c) (text HHost c) (t_http ts))
    (arm now (num EFreq c) (num EPort c) (text EHost c) (t_emoncms ts))
    (arm now (num JFreq c) (num JPort c) (text JHost c) (t_jeedom ts))
    (if num SseFreq c =? 0 then tm_reset now 0 else tm_reset now (num SseFreq c * 1000)).

(** ** tic_notifs *)

(** Effects, in order: requests with their reason, and the data handed to the SSE clients. *)
Inductive effect := Request (why : reason) (r : request) | SseData (d : list Z).

(** Send the notification decided by one of the notif_* functions. *)
Definition send (e : env) (c : cfg) (t : teleinfo) (why : option reason) : option (list effect) :=
  match why with
  | None => Some []
  | Some w => r <- http_notif e c t w ;; Some [Request w r]
  end.

(** First part of tic_notifs, src/tic.cpp:91-112 *)
Definition notifs_http (e : env) (c : cfg) (now : Z) (t : teleinfo) (s : nstate) (tm : timer)
  : option (list effect * nstate * timer) :=
  match text HHost c with
  | [] => Some ([], s, tm)
  | _ =>
      '(s1, w1) <- (if bit 1 HFlags c then notif_ptec t s else Some (s, None)) ;;
      o1 <- send e c t w1 ;;
      '(s2, w2) <- (if bit 2 HFlags c then notif_seuils c t s1 else Some (s1, None)) ;;
      o2 <- send e c t w2 ;;
      '(s3, w3) <- (if bit 0 HFlags c then notif_adps t s2 else Some (s2, None)) ;;
      o3 <- send e c t w3 ;;
      let '(fired, tm') := tm_expired now tm in
      o4 <- send e c t (if fired then Some MAJ else None) ;;
      Some (o1 ++ o2 ++ o3 ++ o4, s3, tm')
  end.

Definition as_effect (why : reason) (r : option request) : list effect :=
  match r with Some r => [Request why r] | None => [] end.

(** tic_notifs, src/tic.cpp:88-129. [clients] is sse_clients.count(); the whole call happens at time [now]. *)
Definition tic_notifs (e : env) (c : cfg) (now : Z) (clients : nat) (t : teleinfo) (s : nstate) (ts : timers)
  : option (list effect * nstate * timers) :=
  '(o, s', th) <- notifs_http e c now t s (t_http ts) ;;
  let '(fj, tj) := tm_expired now (t_jeedom ts) in
  rj <- (if fj then jeedom_notif c t else Some None) ;;
  let '(fe, te) := tm_expired now (t_emoncms ts) in
  re <- (if fe then emoncms_notif c t else Some None) ;;
  let '(fs, tsse) := tm_expired now (t_sse ts) in
  ds <- (if fs && negb (Nat.eqb clients 0) then d <- tic_get_json_dict e t ;; Some [SseData d] else Some []) ;;
  Some (o ++ as_effect JEEDOM rj ++ as_effect EMONCMS re ++ ds, s', mk_timers th te tj tsse).

(** ** Histories *)

(** What happens to the module, in order: the configuration is (re)loaded and the timers armed (start-up,
    src/main.cpp:44, 71, or the end of config_handle_form, src/config.cpp:459); a frame [t] has just been published
    while [clients] browsers are connected (src/tic.cpp:74). *)
Inductive tevent := Configure (now : Z) (c : cfg) | Frame (now : Z) (clients : nat) (t : teleinfo).
Record tstate := mk_ts { ts_cfg : cfg; ts_ns : nstate; ts_tm : timers }.
Definition tic_step (e : env) (ev : tevent) (s : tstate) : option (list effect * tstate) :=
  match ev with
  | Configure now c => Some ([], mk_ts c (ts_ns s) (tic_make_timers now c (ts_tm s)))
  | Frame now clients t =>
      '(o, n, tm) <- tic_notifs e (ts_cfg s) now clients t (ts_ns s) (ts_tm s) ;; Some (o, mk_ts (ts_cfg s) n tm)
  end.
(** The effects of each event. *)
Fixpoint tic_run (e : env) (evs : list tevent) (s : tstate) : option (list (list effect) * tstate) :=
  match evs with
  | [] => Some ([], s)
  | ev :: r => '(o, s1) <- tic_step e ev s ;; '(os, s2) <- tic_run e r s1 ;; Some (o :: os, s2)
  end.
(** A module that has just started with configuration [c]. *)
Definition tic_start (now : Z) (c : cfg) : tstate := mk_ts c ns_init (tic_make_timers now c timers_init).
