(** The LED during the updates over the air, in a program built with ENABLE_OTA and ENABLE_LED: the callbacks of src/sys.cpp:407-440 and
    src/led.h, on top of Ota.v. *)
From Coq Require Import ZArith List Bool.
From Verif Require Import Base Config Ota.
Import ListNotations.
Open Scope Z_scope.

(** What is seen: the LED is switched on or off, or one of the effects of Ota.v. *)
Inductive seen_out := Led (on : bool) | Does (o : out).

(** led_toggle, src/led.h:27-30, called by onProgress (src/sys.cpp:420-422) for each of the pieces that Update.write takes from the
    connection (the library calls it if at least one byte was taken). The LED after, and what is seen. *)
Fixpoint progress (calls lit : bool) (pieces : list (list Z)) : bool * list seen_out :=
  match pieces with
  | [] => (lit, [])
  | [] :: r => progress calls lit r
  | _ :: r => if calls then let '(l, o) := progress calls (negb lit) r in (l, Led (negb lit) :: o) else progress calls lit r
  end.

(** ArduinoOTAClass::_runUpdate: Update.begin; onStart (led_on, src/sys.cpp:410-413) and a first onProgress with nothing received;
    the connection; the pieces; Update.end, which checks the size and the MD5; onEnd (led_off, src/sys.cpp:415-418), then the restart.
    onError (src/sys.cpp:424-439) leaves the LED as it is. [lit]: the LED before. Simplified: the texts written to the serial port and to the
    sender are left out. The result: the module, the LED, what is seen. *)
Definition run_update (md5 : list Z -> list Z) (begin_ok connect_ok : bool) (pieces : list (list Z)) (m : module) (lit : bool)
  : module * bool * list seen_out :=
  let t := m_ota m in let calls := o_calls t in
  let stop lit o := let '(m', e) := on_error md5 m [] in (m', lit, o ++ map Does e) in
  if negb begin_ok then stop lit []
  else
    let '(l1, o1) := if calls then (negb true, [Led true; Led (negb true)]) else (lit, []) in
    if negb connect_ok then stop l1 o1
    else
      let '(l2, o2) := progress calls l1 pieces in
      if (Z.of_nat (length (concat pieces)) =? o_size t) && beq (md5 (concat pieces)) (o_md5 t)
      then (boot md5 (m_cfg m), if calls then false else l2,
            o1 ++ o2 ++ [Does (Written (o_cmd t) (concat pieces))] ++ (if calls then [Led false] else []) ++ [Does Restart])
      else stop l2 (o1 ++ o2).

(** The other events do not touch the LED here (the turns of src/sys.cpp:366-374 are in Startup.v). An event [Handles b c image] comes
    with the pieces of [image]. *)
Definition led_step (md5 : list Z -> list Z) (e : event) (pieces : list (list Z)) (m : module) (lit : bool) : module * bool * list seen_out :=
  match e, o_state (m_ota m) with
  | Handles b c _, RunUpdate => run_update md5 b c pieces m lit
  | _, _ => let '(m', o) := step md5 e m in (m', lit, map Does o)
  end.
Fixpoint led_run (md5 : list Z -> list Z) (es : list (event * list (list Z))) (m : module) (lit : bool) : module * bool * list (list seen_out) :=
  match es with
  | [] => (m, lit, [])
  | (e, ps) :: r => let '(m1, l1, o) := led_step md5 e ps m lit in let '(m2, l2, os) := led_run md5 r m1 l1 in (m2, l2, o :: os)
  end.
