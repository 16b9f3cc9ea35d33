(** Property theorem C115: the LED during the updates over the air (src/sys.cpp:407-440, with ENABLE_OTA and ENABLE_LED).
    Specification: OtaLedSpec.v. *)
From Coq Require Import ZArith List Bool Lia.
From Verif Require Import Base Config Ota OtaSpec OtaLed OtaLedSpec OtaLedProofs TicSamples WebSamples.
Import ListNotations.
Open Scope Z_scope.

(** C115. The LED changes nothing to the updates: in any history, whatever the pieces in which the images come, the module does what C98 says. *)
Theorem C115_same_updates : forall md5 es m lit m' l' os, Forall cut_in es -> led_run md5 es m lit = (m', l', os) ->
  run md5 (map fst es) m = (m', map apart os).
Proof. intros md5 es m lit m' l' os C E. assert (A := c115_same md5 es m lit C). rewrite E in A. exact A. Qed.
Print Assumptions C115_same_updates.

(** C115. After the start, when an update that was allowed goes on: nothing is shown if there is no room; else the LED is lit, goes
    off, then changes each time something is received; after the image is written, and only then, it is switched off for the restart. *)
Theorem C115_blinks : forall md5 m lit b c ps m' l' o, o_state (m_ota m) = RunUpdate -> o_calls (m_ota m) = true ->
  led_step md5 (Handles b c (concat ps)) ps m lit = (m', l', o) ->
  lights o = (if b then true :: false :: (if c then blinks (received ps) true else []) else []) ++
             (if existsb (fun x => match x with Written _ _ => true | _ => false end) (apart o) then [false] else []) /\
  (In (Written (o_cmd (m_ota m)) (concat ps)) (apart o) -> exists o', o = o' ++ [Led false; Does Restart] /\ l' = false).
Proof. exact c115_update. Qed.
Print Assumptions C115_blinks.

(** C115. The LED does not change otherwise: datagrams from anybody, refused or not, other events, and updates that come before
    the end of the start. *)
Theorem C115_quiet : forall md5 m lit e ps m' l' o, led_step md5 e ps m lit = (m', l', o) ->
  o_calls (m_ota m) = false \/ o_state (m_ota m) <> RunUpdate \/ (forall b c i, e <> Handles b c i) -> lights o = [] /\ l' = lit.
Proof. exact c115_dark. Qed.
Print Assumptions C115_quiet.

(** C115. The LED is as the last change left it. *)
Theorem C115_state : forall md5 m lit e ps m' l' o, led_step md5 e ps m lit = (m', l', o) -> l' = last (lights o) lit.
Proof. exact c115_state. Qed.
Print Assumptions C115_state.

(** Any function that gives 32 digits; a history: the end of the start, a refused datagram, an invitation and the answer to the challenge. *)
Definition sum32 (l : list Z) : list Z := firstn 32 (dec (fold_left (fun h c => (h * 31 + c) mod 1000003) l 7) ++ repeat 48 32).
Definition invited : list (event * list (list Z)) :=
  let firmware := [233; 1; 2; 3] in let cn := repeat 99 32 in
  [(SetupDone, []); (Comes 1 Noise [], []); (Comes 1 (Invite 0 8000 4 (sum32 firmware)) (str "n0"), []);
   (Comes 1 (Answer cn (response sum32 [] (str "n0") cn)) [], [])].
Example C115_case : exists m os m' o1 o2, Forall cut_in (invited ++ [(Handles true true [233; 1; 2; 3], [[233]; []; [1; 2]; [3]])]) /\
  led_run sum32 invited (boot sum32 cfg_login) false = (m, false, os) /\ o_state (m_ota m) = RunUpdate /\ o_calls (m_ota m) = true /\
  map lights os = [[]; []; []; []] /\
  led_step sum32 (Handles true true [233; 1; 2; 3]) [[233]; []; [1; 2]; [3]] m false = (m', false, o1) /\
  o1 = [Led true; Led false; Led true; Led false; Led true; Does (Written 0 [233; 1; 2; 3]); Led false; Does Restart] /\
  led_step sum32 (Handles true true [233; 1]) [[233]; [1]] m false = (m', false, o2) /\
  o2 = [Led true; Led false; Led true; Led false; Does Restart].
Proof.
  do 5 eexists. split; [unfold invited; cbn [app]; repeat constructor|]. split; [vm_compute; reflexivity|]. split; [reflexivity|]. split; [reflexivity|]. split; [reflexivity|].
  split; [vm_compute; reflexivity|]. split; [reflexivity|]. split; [vm_compute; reflexivity|]. reflexivity.
Qed.
