(** Model of the updates over the air, in a program built with ENABLE_OTA (platformio.ini:28, 76): src/sys.cpp:356-376 and 405-440,
    src/main.cpp:45-55 and 90-92. The library ArduinoOTA of the ESP8266 core is not in the repository: it is modelled from its source
    (ArduinoOTA.cpp), with datagrams given as their fields and MD5 (as 32 hexadecimal digits) as an arbitrary function. *)
From Coq Require Import ZArith List Bool.
From Verif Require Import Base Config.
Import ListNotations.
Open Scope Z_scope.

(** OTA_IDLE, OTA_WAITAUTH, OTA_RUNUPDATE *)
Inductive ota_state := Idle | WaitAuth | RunUpdate.
(** The object ArduinoOTA: _port, _password (the MD5 of the password), _state, _nonce, the invitation (_ota_ip, _ota_port, _cmd,
    _size, _md5), and whether the callbacks of sys_ota_setup have been installed. *)
Record ota := mk_ota {
  o_port : Z; o_pass : list Z; o_state : ota_state; o_nonce : list Z;
  o_peer : nat; o_back : Z; o_cmd : Z; o_size : Z; o_md5 : list Z; o_calls : bool }.
(** The module: the settings now, and the object. *)
Record module := mk_module { m_cfg : cfg; m_ota : ota }.

(** A datagram: an invitation "<command> <port> <size> <md5>", an answer "200 <cnonce> <response>", anything else. *)
Inductive datagram := Invite (cmd port size : Z) (md5 : list Z) | Answer (cnonce response : list Z) | Noise.

(** [Saved c]: the settings become [c]. [Reboots]: the module restarts for another reason. [SetupDone]: sys_ota_setup.
    [Comes p d nonce]: the datagram [d] comes from [p]; [nonce] is the MD5 of micros() then. [Handles b c image]:
    ArduinoOTA.handle(): whether Update.begin accepts, whether the sender can be reached, and what it sends. *)
Inductive event := Saved (c : cfg) | Reboots | SetupDone | Comes (p : nat) (d : datagram) (nonce : list Z)
| Handles (begin_ok connect_ok : bool) (image : list Z).
(** [Challenge p n]: "AUTH n" is sent to [p]. [Failed p]: "Authentication Failed" is sent. [Written cmd image]: the image becomes the
    firmware (0) or the file system (100). [Restart]: ESP.restart(). *)
Inductive out := Challenge (p : nat) (nonce : list Z) | Failed (p : nat) | Written (cmd : Z) (image : list Z) | Restart.

Section Md5.
Variable md5 : list Z -> list Z.

(** sys_wifi_connect, src/sys.cpp:356-361: setPort (ignored if 0; begin then takes 8266), setPassword (the MD5 of the text, even an
    empty one), begin. Later calls of these functions do nothing. No callback yet: sys_ota_setup comes after (src/main.cpp:47, 54). *)
Definition ota_begin (c : cfg) : ota :=
  mk_ota (if num OtaPort c =? 0 then 8266 else num OtaPort c) (md5 (text OtaAuth c)) Idle [] 0 0 0 0 [] false.
Definition boot (c : cfg) : module := mk_module c (ota_begin c).

Definition in_state (s : ota_state) (t : ota) : ota :=
  mk_ota (o_port t) (o_pass t) s (o_nonce t) (o_peer t) (o_back t) (o_cmd t) (o_size t) (o_md5 t) (o_calls t).
(** The callback of src/sys.cpp:424-439 ends with ESP.restart(); without callback the object is idle again. *)
Definition on_error (m : module) (o : list out) : module * list out :=
  if o_calls (m_ota m) then (boot (m_cfg m), o ++ [Restart]) else (mk_module (m_cfg m) (in_state Idle (m_ota m)), o).

(** ArduinoOTAClass::_onRx. U_FLASH is 0, U_FS 100, U_AUTH 200. *)
Definition is32 (l : list Z) : bool := Nat.eqb (length l) 32.
Definition expected (pass nonce cnonce : list Z) : list Z := md5 (pass ++ [58] ++ nonce ++ [58] ++ cnonce).
Definition on_rx (p : nat) (d : datagram) (nonce : list Z) (m : module) : module * list out :=
  let t := m_ota m in
  match o_state t, d with
  | Idle, Invite cmd port size sum =>
      if ((cmd =? 0) || (cmd =? 100)) && is32 sum then
        let t' s := mk_ota (o_port t) (o_pass t) s nonce p port cmd size sum (o_calls t) in
        match o_pass t with
        | [] => (mk_module (m_cfg m) (t' RunUpdate), [])
        | _ => (mk_module (m_cfg m) (t' WaitAuth), [Challenge p nonce])
        end
      else (m, [])
  | Idle, _ => (m, [])
  | WaitAuth, Answer cnonce response =>
      if is32 cnonce && is32 response then
        if beq (expected (o_pass t) (o_nonce t) cnonce) response
        then (mk_module (m_cfg m) (in_state RunUpdate t), [])
        else on_error m [Failed p]
      else (mk_module (m_cfg m) (in_state Idle t), [])
  | WaitAuth, _ => (mk_module (m_cfg m) (in_state Idle t), [])
  | RunUpdate, _ => (m, [])
  end.

(** ArduinoOTAClass::handle and _runUpdate; Update.end checks the size and the MD5 announced. After a success the library
    restarts the module. *)
Definition handle (begin_ok connect_ok : bool) (image : list Z) (m : module) : module * list out :=
  let t := m_ota m in
  match o_state t with
  | RunUpdate =>
      if begin_ok && connect_ok && (Z.of_nat (length image) =? o_size t) && beq (md5 image) (o_md5 t)
      then (boot (m_cfg m), [Written (o_cmd t) image; Restart])
      else on_error m []
  | _ => (m, [])
  end.

Definition step (e : event) (m : module) : module * list out :=
  match e with
  | Saved c => (mk_module c (m_ota m), [])
  | Reboots => (boot (m_cfg m), [])
  | SetupDone =>
      let t := m_ota m in
      (mk_module (m_cfg m)
         (mk_ota (o_port t) (o_pass t) (o_state t) (o_nonce t) (o_peer t) (o_back t) (o_cmd t) (o_size t) (o_md5 t) true), [])
  | Comes p d nonce => on_rx p d nonce m
  | Handles b c image => handle b c image m
  end.
(** The effects of each event. *)
Fixpoint run (es : list event) (m : module) : module * list (list out) :=
  match es with
  | [] => (m, [])
  | e :: r => let '(m1, o) := step e m in let '(m2, os) := run r m1 in (m2, o :: os)
  end.
End Md5.
