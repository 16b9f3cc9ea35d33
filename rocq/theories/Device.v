(** Model of src/main.cpp (setup and loop): the whole program, event by event. *)
From Coq Require Import ZArith List Bool Lia.
From Verif Require Import Base Teleinfo Publish Config JsonBuild Tic Pages Sse Cpu Web Wifi.
Import ListNotations.
Open Scope Z_scope.

(** tic_decode with the notifications, src/tic.cpp:54-129: a byte [c] received at time [tv] ([a_now]: millis()). [up] tells
    which browsers are still connected when data are sent to them. *)
Definition effect_out (up : nat -> bool) (e : effect) (d : device) : option (device * list out) :=
  match e with
  | Request why r => Some (d, [Sent why r])
  | SseData data => '(s, o) <- handle_clients up (Some data) (d_sse d) ;; Some (with_sse s d, map Streaming o)
  end.
Fixpoint effects_out (up : nat -> bool) (es : list effect) (d : device) : option (device * list out) :=
  match es with
  | [] => Some (d, [])
  | e :: r => '(d1, o1) <- effect_out up e d ;; '(d2, o2) <- effects_out up r d1 ;; Some (d2, o1 ++ o2)
  end.
Definition receive (sgn : bool) (a : around) (up : nat -> bool) (tv : timeval) (c : Z) (d : device) : option (device * list out) :=
  '(p, fresh) <- tic_decode sgn tv c (d_pub d) ;;
  let d1 := mk_dev (d_cs d) p (d_ns d) (d_tm d) (d_sse d) (d_perf d) (d_upd d) in
  if fresh : bool then
    '(es, n, t) <- tic_notifs (a_env a) (cfg_of d) (a_now a) (length (sse_list (d_sse d))) (p_ti p) (d_ns d) (d_tm d) ;;
    effects_out up es (mk_dev (d_cs d) p n t (d_sse d) (d_perf d) (d_upd d))
  else Some (d1, []).

(** What loop() (src/main.cpp:81-110) may meet. The surroundings are those of the moment. Here a restart does not end the run: see
    Life.v, where it does. *)
Inductive devent :=
| DTurn (a : around)
| DByte (a : around) (up : nat -> bool) (tv : timeval) (c : Z)
| DHttp (a : around) (q : hreq)
| DUpload (a : around) (u : upload)
| DPoll (up : nat -> bool).

(** [DTurn]: cpuload_loop() of one turn; [DByte]: a byte was available on the serial port; [DHttp], [DUpload]: what
    server.handleClient() met; [DPoll]: sse_clients.handle_clients() of webserver_loop (src/webserver.cpp:243-247). *)
Definition dstep (fuel : nat) (sgn : bool) (e : devent) (d : device) : res (device * list out) :=
  match e with
  | DTurn a =>
      lift (p <- cpuload_loop (a_now a) (d_perf d) ;;
            Some (mk_dev (d_cs d) (d_pub d) (d_ns d) (d_tm d) (d_sse d) p (d_upd d), []))
  | DByte a up tv c => lift (receive sgn a up tv c d)
  | DHttp a q => handle fuel a q d
  | DUpload a u => Done (handle_upload a u d)
  | DPoll up => lift ('(s, o) <- handle_clients up None (d_sse d) ;; Some (with_sse s d, map Streaming o))
  end.
(** The effects of each event. *)
Fixpoint drun (fuel : nat) (sgn : bool) (es : list devent) (d : device) : res (device * list (list out)) :=
  match es with
  | [] => Done (d, [])
  | e :: r =>
      match dstep fuel sgn e d with
      | Done (d1, o) =>
          match drun fuel sgn r d1 with
          | Done (d2, os) => Done (d2, o :: os)
          | Undefined => Undefined
          | OutOfFuel => OutOfFuel
          end
      | Undefined => Undefined
      | OutOfFuel => OutOfFuel
      end
  end.

(** What a start finds: contents of the memory and of the flash, what the flash does when written, the radio and the
    credentials known by the SDK, the time when the timers are armed. *)
Record start := mk_start {
  b_chip : Z; b_mem : cfg; b_flash : list Z; b_o1 : outcome; b_o2 : outcome; b_o3 : outcome;
  b_status : nat -> Z; b_ssid : list Z; b_psk : list Z; b_now : Z; b_g1 : list Z; b_g2 : list Z }.

(** setup, src/main.cpp:20-79: configuration, Wi-Fi, timers; the other globals have their initial values ([b_g1], [b_g2]:
    the uninitialised frame buffers). *)
Definition boot (b : start) : option (device * list wifi_act) :=
  s <- config_setup (b_chip b) (b_o1 b) (b_o2 b) (b_mem b) (b_flash b) ;;
  '(s', acts, _) <- sys_wifi_connect (b_o3 b) (b_status b) (b_ssid b) (b_psk b) s ;;
  Some (mk_dev s' (pub_init (b_g1 b) (b_g2 b)) ns_init (tic_make_timers (b_now b) (c_cfg s') timers_init) sse_init
          (perf_init (b_now b)) false, acts).
