(** Model of the life of a module: src/main.cpp with the serial command line (src/cli.cpp), restarts and power cuts. *)
From Coq Require Import ZArith List Bool Lia.
From Verif Require Import Base Teleinfo Publish Config JsonBuild Tic Pages Sse Cpu Web Wifi Device Cli.
Import ListNotations.
Open Scope Z_scope.

(** ** Commands *)

(** What the library SimpleCLI makes of a line, for the commands declared in src/cli.cpp:41-251: the command and the
    values of its arguments. [CBad]: no such command, or wrong arguments (src/cli.cpp:253-266). *)
Inductive command :=
| CLed (value : list Z)
| CSse (data : list Z)
| CTime
| CConfig
| CLs
| CDump
| CTic
| CSet (args : list (list Z))
| CGet (args : list (list Z))
| CEsp (arg : list Z)
| CBad.

(** What happens: an effect of the module, a text printed on the serial port (only where a definition below gives it; the
    prompt, the echo, the messages and what "time" and "esp" print are left out), a request to the radio, a line handed to
    the command interpreter. *)
Inductive happening :=
| Did (o : out)
| Printed (text : list Z)
| Radio (a : wifi_act)
| Command (line : list Z).

Definition eol : list Z := [13; 10].

(** config_show, src/config.cpp:212-311, printed by a program built with ENABLE_DEBUG (src/emptyserial.h). The label
    "url" of the HTTP request and its value are not on the same line (:283-293). *)
Definition config_text (c : cfg) : list Z :=
  eol ++ str "===== Wi-Fi" ++ eol
  ++ str "ssid     :" ++ text Ssid c ++ eol
  ++ str "psk      :" ++ text Psk c ++ eol
  ++ str "host     :" ++ text Host c ++ eol
  ++ str "===== Advanced" ++ eol
  ++ str "ap_psk   :" ++ text ApPsk c ++ eol
  ++ str "OTA auth :" ++ text OtaAuth c ++ eol
  ++ str "OTA port :" ++ dec (num OtaPort c) ++ eol
  ++ str "Username :" ++ text Username c ++ eol
  ++ str "Password :" ++ text Password c ++ eol
  ++ str "SSE freq :" ++ dec (num SseFreq c) ++ eol
  ++ str "Config   :" ++ (if bit 0 Options c then str " LED_TINFO" else []) ++ eol
  ++ str "===== Emoncms" ++ eol
  ++ str "host     :" ++ text EHost c ++ eol
  ++ str "port     :" ++ dec (num EPort c) ++ eol
  ++ str "url      :" ++ text EUrl c ++ eol
  ++ str "key      :" ++ text EKey c ++ eol
  ++ str "node     :" ++ dec (num ENode c) ++ eol
  ++ str "freq     :" ++ dec (num EFreq c) ++ eol
  ++ str "===== Jeedom" ++ eol
  ++ str "host     :" ++ text JHost c ++ eol
  ++ str "port     :" ++ dec (num JPort c) ++ eol
  ++ str "url      :" ++ text JUrl c ++ eol
  ++ str "key      :" ++ text JKey c ++ eol
  ++ str "compteur :" ++ text JAdco c ++ eol
  ++ str "freq     :" ++ dec (num JFreq c) ++ eol
  ++ str "===== HTTP request" ++ eol
  ++ str "host      : " ++ text HHost c ++ eol
  ++ str "port      : " ++ dec (num HPort c) ++ eol
  ++ str "url       : " ++ str "method    : " ++ (if bit 7 HFlags c then str "POST" else str "GET") ++ eol
  ++ text HUrl c ++ eol
  ++ str "freq      : " ++ dec (num HFreq c) ++ eol
  ++ str "notifs    :" ++ (if bit 1 HFlags c then str " PTEC" else []) ++ (if bit 0 HFlags c then str " ADPS" else [])
  ++ (if bit 2 HFlags c then str " seuils" else []) ++ eol
  ++ str "seuil bas : " ++ dec (num HSeuilBas c) ++ eol
  ++ str "seuil haut: " ++ dec (num HSeuilHaut c) ++ eol.

(** fs_ls, src/filesystem.cpp:25-35 *)
Fixpoint ls_text (i : Z) (files : list (list Z * Z)) : list Z :=
  match files with
  | [] => []
  | (name, size) :: r =>
      str "FS File: " ++ pad_space 2 (dec (i + 1)) ++ str " " ++ cstr name ++ str ", size: " ++ dec size ++ [10]
      ++ ls_text (i + 1) r
  end.

(** tic_dump, src/tic.cpp:670-676; [raw]: content of the array on the stack before the call *)
Definition tic_dump (e : env) (raw : list Z) (t : teleinfo) : option (list Z) :=
  '(frame, _) <- get_frame_ascii (t_frame t) (t_size t) raw ;;
  Some (iso e (tv_sec (t_ts t)) ++ eol ++ cstr frame ++ eol).

(** "get ver", src/cli.cpp:150-161: at most 63 bytes of the file are read; nothing is printed if there is no file. *)
Definition version_text (site : list Z -> option (list Z)) : list Z :=
  match site (str "/version") with
  | Some c => let buf := firstn 63 c in
      str "read " ++ dec (Z.of_nat (length buf)) ++ str ", version: '" ++ cstr buf ++ str "'" ++ [10]
  | None => []
  end.

(** What a command does: src/cli.cpp:41-251. [raw]: see tic_dump. getArg(n) gives an empty text if there are not so many
    arguments. The LED and the pins (commands "led" and "set gpio") are left out. *)
Definition run_command (a : around) (up : nat -> bool) (raw : list Z) (c : command) (d : device)
  : option (device * list happening) :=
  let arg (args : list (list Z)) n := nth n args [] in
  match c with
  | CLed _ | CTime | CBad => Some (d, [])
  | CSse data => '(s, o) <- handle_clients up (Some data) (d_sse d) ;; Some (with_sse s d, map (fun e => Did (Streaming e)) o)
  | CConfig => Some (d, [Printed (config_text (cfg_of d))])
  | CLs => Some (d, [Printed (ls_text 0 (a_files a))])
  | CDump => t <- cli_dump (d_cs d) ;; Some (d, [Printed t])
  | CTic => t <- tic_dump (a_env a) raw (ti_of d) ;; Some (d, [Printed t])
  | CSet args =>
      match args with
      | [] => Some (d, [Printed (str "nothing to set" ++ eol)])
      | what :: _ =>
          if beq what (str "timers") then Some (with_tm (tic_make_timers (a_now a) (cfg_of d) (d_tm d)) d, [])
          else if beq what (str "wifi") then
            s <- cli_wifi (a_flash a) (arg args 1%nat) (arg args 2%nat) (d_cs d) ;; Some (with_cs s d, [Did RestartNow])
          else if beq what (str "ap") then
            s <- cli_ap (a_flash a) (arg args 1%nat) (arg args 2%nat) (d_cs d) ;; Some (with_cs s d, [Did RestartNow])
          else Some (d, [])
      end
  | CGet args =>
      match args with
      | [] => Some (d, [Printed (str "nothing to get" ++ eol)])
      | what :: _ => Some (d, if has_prefix (str "ver") what then [Printed (version_text (a_site a))] else [])
      end
  | CEsp what =>
      if beq what (str "restart") then Some (d, [Did RestartNow])
      else if beq what (str "reset") then
        s <- cli_erase (a_flash a) (d_cs d) ;; Some (with_cs s d, [Did EraseSdk; Did RestartNow])
      else Some (d, [])
  end.

(** ** A life *)

(** The module runs, or waits for the power or the end of a restart; only the flash survives. *)
Inductive module := Off (flash : list Z) | On (d : device) (cl : cli).
Definition flash_of (m : module) : list Z :=
  match m with Off f => f | On d _ => e_flash (c_ee (d_cs d)) end.

(** The program as built: signedness of char; ENABLE_CLI; what SimpleCLI makes of a line. *)
Record build := mk_build { bd_signed : bool; bd_cli : bool; bd_parse : list Z -> command }.

(** What can happen: the module is switched on, or restarts, after whatever state it was in (a cut during a write is
    told by the outcome of this write); or loop() meets an event. [raw]: see tic_dump. *)
Inductive levent :=
| PowerOn (b : start)
| Event (e : devent) (raw : list Z).

Definition restarts (h : happening) : bool := match h with Did RestartNow => true | _ => false end.

(** A byte on the serial port: end of loop(), src/main.cpp:96-109 *)
Definition serial_byte (bd : build) (a : around) (up : nat -> bool) (tv : timeval) (c : Z) (raw : list Z) (d : device) (cl : cli)
  : option (device * cli * list happening) :=
  if bd_cli bd then
    let '(cl', r, line) := cli_loop_read c cl in
    '(d1, o1) <- (match line with
                  | Some l => '(d1, o1) <- run_command a up raw (bd_parse bd l) d ;; Some (d1, Command l :: o1)
                  | None => Some (d, [])
                  end) ;;
    '(d2, o2) <- (if negb (r =? -1) then receive (bd_signed bd) a up tv r d1 else Some (d1, [])) ;;
    Some (d2, cl', o1 ++ map Did o2)
  else '(d2, o2) <- receive (bd_signed bd) a up tv c d ;; Some (d2, cl, map Did o2).

(** One event. ESP.restart() ends the program. The restart asked for after an update happens 500 ms later: until then the
    module runs (a [PowerOn] follows at any time). *)
Definition after (d : device) (cl : cli) (o : list happening) : module * list happening :=
  if existsb restarts o then (Off (flash_of (On d cl)), o) else (On d cl, o).
Definition lstep (fuel : nat) (bd : build) (e : levent) (m : module) : res (module * list happening) :=
  match e with
  | PowerOn b =>
      lift ('(d, acts) <- boot (mk_start (b_chip b) (b_mem b) (flash_of m) (b_o1 b) (b_o2 b) (b_o3 b) (b_status b)
                                 (b_ssid b) (b_psk b) (b_now b) (b_g1 b) (b_g2 b)) ;;
            Some (On d cli_init, map Radio acts))
  | Event e raw =>
      match m with
      | Off f => Done (Off f, [])
      | On d cl =>
          match e with
          | DByte a up tv c => lift ('(d', cl', o) <- serial_byte bd a up tv c raw d cl ;; Some (after d' cl' o))
          | _ =>
              match dstep fuel (bd_signed bd) e d with
              | Done (d', o) => Done (after d' cl (map Did o))
              | Undefined => Undefined
              | OutOfFuel => OutOfFuel
              end
          end
      end
  end.
Fixpoint lrun (fuel : nat) (bd : build) (es : list levent) (m : module) : res (module * list (list happening)) :=
  match es with
  | [] => Done (m, [])
  | e :: r =>
      match lstep fuel bd e m with
      | Done (m1, o) =>
          match lrun fuel bd r m1 with
          | Done (m2, os) => Done (m2, o :: os)
          | Undefined => Undefined
          | OutOfFuel => OutOfFuel
          end
      | Undefined => Undefined
      | OutOfFuel => OutOfFuel
      end
  end.
