(** Model of src/cpuload.cpp. *)
From Coq Require Import ZArith List Bool Lia.
From Verif Require Import Base Teleinfo Tic.
Import ListNotations.
Open Scope Z_scope.

(** MAX_COUNTER_80MHZ, src/cpuload.cpp:12 *)
Definition MAX_COUNTER : Z := 85000.

(** perf_counter, perfs[10], perf_index, timer_perf: src/cpuload.cpp:14-17. The timer is constructed with 1000 ms when the
    program starts, at time [now] (periodicMs is the timer modelled in Tic.v). *)
Record perf := mk_perf { pf_counter : Z; pf_vals : list Z; pf_index : nat; pf_timer : timer }.
Definition perf_init (now : Z) : perf := mk_perf 0 (repeat 0 10) 0 (tm_reset now 1000).

(** cpuload_loop, src/cpuload.cpp:19-37, called at time [now]; the debug print is left out. [None]: write outside perfs. *)
Definition cpuload_loop (now : Z) (p : perf) : option perf :=
  let k := u32 (pf_counter p + 1) in
  let '(fired, tm) := tm_expired now (pf_timer p) in
  if fired then
    v <- upd (pf_vals p) (pf_index p) k ;;
    Some (mk_perf 0 v ((pf_index p + 1) mod 10) tm)
  else Some (mk_perf k (pf_vals p) (pf_index p) tm).
Fixpoint cpuload_run (nows : list Z) (p : perf) : option perf :=
  match nows with
  | [] => Some p
  | n :: r => p' <- cpuload_loop n p ;; cpuload_run r p'
  end.

(** cpuload_cpu, src/cpuload.cpp:39-48: all in uint32_t (the constant is converted), then converted to int. *)
Definition cpuload_cpu (p : perf) : Z :=
  let sum := fold_left (fun s v => u32 (s + v)) (pf_vals p) 0 / 10 in
  u32 (100 * u32 (MAX_COUNTER - sum)) / MAX_COUNTER.
