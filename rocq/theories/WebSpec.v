(** Specification of the access rules, of the web pages and of the whole module. *)
From Coq Require Import ZArith List Bool Lia.
From Verif Require Import Base Teleinfo TeleinfoSpec Publish Config ConfigSpec Tic Pages PagesSpec Sse Web Device.
Import ListNotations.
Open Scope Z_scope.

(** ** Clients *)

(** A login is configured and the request does not carry it. *)
Definition refused (q : hreq) (d : device) : Prop :=
  text Username (cfg_of d) <> [] /\ q_accepts q (text Username (cfg_of d)) (text Password (cfg_of d)) = false.
(** A login is configured, the request carries it, and it came through a proxy. *)
Definition restricted (q : hreq) (d : device) : Prop :=
  text Username (cfg_of d) <> [] /\ q_accepts q (text Username (cfg_of d)) (text Password (cfg_of d)) = true /\
  q_forwarded q = true.
(** No login is configured, or the request carries it and did not come through a proxy. *)
Definition fully_allowed (q : hreq) (d : device) : Prop :=
  text Username (cfg_of d) = [] \/
  q_accepts q (text Username (cfg_of d)) (text Password (cfg_of d)) = true /\ q_forwarded q = false.

(** What a response may be when it has no other effect. *)
Definition only_response (o : out) : Prop :=
  match o with Reply _ _ _ | SendFile _ _ => True | _ => False end.

(** Only pages of the site are the same. *)
Definition same_site (a1 a2 : around) : Prop := forall p, a_site a1 p = a_site a2 p.

(** ** The not-found page: the request, then one line per argument *)
Definition not_found_text (q : hreq) : list Z :=
  str "Not Found" ++ [10; 10] ++
  str "URI: " ++ q_uri q ++ [10] ++
  str "Method: " ++ (match q_method q with GET => str "GET" | _ => str "POST" end) ++ [10] ++
  str "Arguments: " ++ dec (Z.of_nat (length (q_args q))) ++ [10] ++
  concat (map (fun a => [32] ++ fst a ++ [58; 32] ++ snd a ++ [10]) (q_args q)).

(** The URIs that are not a page. *)
Definition page_uris : list (list Z) :=
  [ str "/sse/json"; str "/tic"; str "/cpuload"; str "/config_form.json"; str "/json"; str "/tinfo.json"; str "/emoncms.json";
    str "/system.json"; str "/config.json"; str "/spiffs.json"; str "/wifiscan.json"; str "/factory_reset"; str "/reset";
    str "/hb.htm"; str "/update"; str "/"; str "/version" ].
Definition no_such_page (a : around) (q : hreq) : Prop :=
  ~ In (q_uri q) page_uris /\ a_site a (q_uri q) = None /\ a_site a (q_uri q ++ str ".gz") = None.

(** ** Uploads *)

(** The upload is over, or has failed. *)
Definition upload_over (u : upload) : bool :=
  match u with UpStart _ _ ok _ | UpWrite _ ok _ => negb ok | UpEnd _ | UpAborted _ => true end.
(** Decoding is suspended: a start succeeded, and nothing has ended that upload yet. *)
Definition suspended (us : list upload) : Prop :=
  exists before name len ended after, us = before ++ UpStart name len true ended :: after /\
    forall u, In u after -> upload_over u = false.
Definition uploads (es : list devent) : list upload :=
  flat_map (fun e => match e with DUpload _ u => [u] | _ => [] end) es.
(** The bytes that arrive while decoding is not suspended, with their times. *)
Fixpoint heard (off : bool) (es : list devent) : list event :=
  match es with
  | [] => []
  | DByte _ _ tv c :: r => if off then heard off r else (tv, c) :: heard off r
  | DUpload _ u :: r => heard (if upload_over u then false else match u with UpStart _ _ _ _ => true | _ => off end) r
  | _ :: r => heard off r
  end.

(** ** What can be given to the module *)
Definition start_ok (b : start) : Prop :=
  0 <= b_chip b < 4294967296 /\ wf (b_mem b) /\ flash_ok (b_flash b) /\ bytes (b_ssid b) /\ bytes (b_psk b) /\
  length (b_g1 b) = 350%nat /\ length (b_g2 b) = 350%nat.
Definition devent_ok (e : devent) : Prop :=
  match e with
  | DByte _ _ _ c => is_byte c
  | DHttp a q => form_bytes (q_args q) /\ 0 <= chip_id (a_env a) < 4294967296
  | _ => True
  end.

(** The two devices differ only by the secrets of the configuration and what depends on them (EEPROM image). *)
Definition same_but_secrets (d1 d2 : device) : Prop :=
  same_public (cfg_of d1) (cfg_of d2) /\
  d_pub d1 = d_pub d2 /\ d_ns d1 = d_ns d2 /\ d_tm d1 = d_tm d2 /\ d_sse d1 = d_sse d2 /\ d_perf d1 = d_perf d2 /\ d_upd d1 = d_upd d2.
(** Two executions on such devices that cannot be told apart: same effects, or neither has any. *)
Definition same_outcome {A} (r1 r2 : res (device * A)) : Prop :=
  match r1, r2 with
  | Done (d1, o1), Done (d2, o2) => o1 = o2 /\ same_but_secrets d1 d2
  | Undefined, Undefined | OutOfFuel, OutOfFuel => True
  | _, _ => False
  end.
(** Same rank for both, and not a full access. *)
Definition outsider (d1 d2 : device) (e : devent) : Prop :=
  match e with
  | DHttp _ q => restricted q d1 /\ restricted q d2 \/ refused q d1 /\ refused q d2
  | _ => True
  end.

(** ** Updates *)

(** The last upload ended well: its end was reached and nothing was started or failed since. *)
Definition just_updated (us : list upload) : Prop :=
  exists before u after, us = before ++ u :: after /\ upload_over u = true /\
    match u with UpStart _ _ _ e | UpWrite _ _ e | UpEnd e | UpAborted e => e = true end /\
    forall x, In x after -> exists data ended, x = UpWrite data true ended.

(** ** Ordinary requests: less than 256 arguments, a URI that is not empty, and a mounted file system *)
Definition ordinary_event (e : devent) : Prop :=
  devent_ok e /\
  match e with
  | DHttp a q => (length (q_args q) < 256)%nat /\ cstr (q_uri q) <> [] /\ i_total (a_info a) <> 0
  | _ => True
  end.

(** The addresses of the module that need a login, besides /update. *)
Definition protected_uris : list (list Z) :=
  [ str "/"; str "/sse/json"; str "/tic"; str "/cpuload"; str "/config_form.json"; str "/json"; str "/tinfo.json"; str "/emoncms.json";
    str "/system.json"; str "/config.json"; str "/spiffs.json"; str "/wifiscan.json"; str "/factory_reset"; str "/reset" ].
