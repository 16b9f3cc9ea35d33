(** Property theorems C86 and C87: the LED and the restart after an update (src/led.h, src/tic.cpp:54-85, src/update.cpp). *)
From Coq Require Import ZArith List Bool Lia.
From Verif Require Import Base BaseFacts Teleinfo TeleinfoSpec Publish HistorySpec Config ConfigSpec JsonBuild Tic TicSpec Pages Sse Cpu Web WebSpec Wifi WifiSpec Device
  DeviceProofs DeviceFinal TicSamples WebSamples Samples SamplesFacts Led LedSpec LedProofs.
Import ListNotations.
Open Scope Z_scope.

(** C86. After every start, whatever happens: between two events the LED is lit only during an upload. *)
Theorem C86_after_every_start : forall b d0 acts, start_ok b -> boot b = Some (d0, acts) -> just_started d0.
Proof. exact boot_started. Qed.
Print Assumptions C86_after_every_start.
Theorem C86_off_at_rest : forall fuel sgn d0 es b os, just_started d0 ->
  brun fuel sgn es (board_of d0) = Done (Some b, os) -> lit os = true -> suspended (uploads (met es)).
Proof. exact (fun fuel sgn d0 es b os S => c86_rest fuel sgn d0 es b os (started_unpaused d0 S)). Qed.
Print Assumptions C86_off_at_rest.

(** During an upload it blinks: it changes every third of a second after the start of the upload. *)
Theorem C86_blinks : forall fuel sgn d0 es1 a name len ended es2 b os, just_started d0 ->
  ~ suspended (uploads (met es1)) -> uploads_go_on es2 ->
  brun fuel sgn (es1 ++ Meets (DUpload a (UpStart name len true ended)) :: es2) (board_of d0) = Done (Some b, os) ->
  lit os = Z.odd (elapsed es2 / 333).
Proof.
  exact (fun fuel sgn d0 es1 a name len ended es2 b os S => c86_blinks fuel sgn d0 es1 a name len ended es2 b os (started_unpaused d0 S)).
Qed.
Print Assumptions C86_blinks.

(** Other events than the parts of an upload: the LED flashes once (on, then off) exactly when the byte that arrives is
    the end of a valid frame, outside uploads, and the user has chosen so; else it is not touched. *)
Theorem C86_flashes : forall fuel sgn d0 es e bd os, just_started d0 ->
  Forall is_byte (map snd (heard false (met es ++ [e]))) ->
  brun fuel sgn (es ++ [Meets e]) (board_of d0) = Done (Some bd, os) -> (forall a u, e <> DUpload a u) ->
  exists b1 os1, brun fuel sgn es (board_of d0) = Done (Some b1, os1) /\
  (switched (last os []) = [true; false] \/ switched (last os []) = []) /\
  (switched (last os []) <> [] <-> bit 0 Options (cfg_of (b_dev b1)) = true /\ (exists a up tv c, e = DByte a up tv c) /\
    ~ suspended (uploads (met es)) /\
    exists t0 bodies, frame_ends (heard false (met es ++ [e])) t0 bodies /\ valid_frame bodies).
Proof. exact c86_frames. Qed.
Print Assumptions C86_flashes.

(** A module with the option set; a frame; then an upload, looked at after 400 ms. *)
Definition cfg_led : cfg := put32 Options 1 cfg0.
Definition dev_led : device := mk_dev (d_cs (with_frame cfg_led (hp "00100"))) (pub_init (repeat 7 350) (repeat 9 350))
  (d_ns dev_login) (d_tm dev_login) (d_sse dev_login) (d_perf dev_login) false.
Definition papp : list devent := hear (frame_of [(str "PAPP", str "00100")]).
Definition up_start : bevent := Meets (DUpload around0 (UpStart (str "firmware.bin") 3 true true)).
Example C86_case : just_started dev_led /\ exists b os b' os', papp = removelast papp ++ [last papp (DPoll (fun _ => true))] /\
  brun 256 true (map Meets papp) (board_of dev_led) = Done (Some b, os) /\
  switched (last os []) = [true; false] /\ switched (concat os) = [true; false] /\
  brun 256 true (map Meets papp ++ up_start :: repeat Ms 400) (board_of dev_led) = Done (Some b', os') /\ lit os' = true /\
  heard false (met (map Meets papp)) = ev (frame_of [(str "PAPP", str "00100")]) /\ bytesb (frame_of [(str "PAPP", str "00100")]) = true.
Proof.
  split; [exists (repeat 7 350), (repeat 9 350); split; [reflexivity|]; split; reflexivity|].
  exists (match brun 256 true (map Meets papp) (board_of dev_led) with Done (Some b, _) => b | _ => board_of dev_led end),
    (match brun 256 true (map Meets papp) (board_of dev_led) with Done (_, o) => o | _ => [] end),
    (match brun 256 true (map Meets papp ++ up_start :: repeat Ms 400) (board_of dev_led) with Done (Some b, _) => b | _ => board_of dev_led end),
    (match brun 256 true (map Meets papp ++ up_start :: repeat Ms 400) (board_of dev_led) with Done (_, o) => o | _ => [] end).
  split; [reflexivity|]. do 7 (try (split; [vm_compute; reflexivity|])). vm_compute; reflexivity.
Qed.

(** C87. When an update is complete, the module restarts 500 ms later, not before and not after, if meanwhile nobody starts or
    ends an upload nor asks for a restart. *)
Theorem C87_restart_partial : forall fuel sgn es1 a q es2 d r os, uploads_go_on es2 -> no_order es2 ->
  brun fuel sgn (es1 ++ Meets (DHttp a q) :: es2) (board_of d) = Done (r, os) ->
  In (Other RestartSoon) (nth (length es1) os []) ->
  (elapsed es2 < 500 -> r <> None) /\
  (forall e3 e4, es2 = e3 ++ Ms :: e4 -> elapsed e3 = 499 ->
     r = None /\ length os = length (es1 ++ Meets (DHttp a q) :: e3 ++ [Ms]) /\ last os [] = [Restarted]).
Proof. exact c87_restart. Qed.
Print Assumptions C87_restart_partial.

(** The passing of time restarts the module in no other case. *)
Theorem C87_no_other_restart : forall fuel sgn d es b os os', brun fuel sgn es (board_of d) = Done (Some b, os) ->
  p_pause (d_pub d) = false -> brun fuel sgn (es ++ [Ms]) (board_of d) = Done (None, os') ->
  exists e1 a q e2, es = e1 ++ Meets (DHttp a q) :: e2 /\ In (Other RestartSoon) (nth (length e1) os []) /\ elapsed e2 = 499 /\
    (forall x u, In (Meets (DUpload x u)) e2 -> exists data ended, u = UpWrite data true ended).
Proof. exact c87_only. Qed.
Print Assumptions C87_no_other_restart.

(** The restart can be cancelled by anybody (the parts of an upload are handled without looking at the credentials): here
    the administrator has updated the module, which has answered OK and is about to restart; someone who has no password sends
    a file that is refused. The module never restarts. *)
Definition good_post : devent := DHttp around0 (mk_hreq POST (str "/update") [] login false).
Definition updated : list bevent := map Meets good_upload ++ [Meets good_post; Ms].
Definition intruder : bevent := Meets (DUpload around0 (UpStart (str "x") 0 false false)).
Lemma updated_run : exists d os, brun 256 true updated (board_of dev_login) = Done (Some (mk_board d false (Restarting 499)), os) /\
  nth 3 os [] = [Other RestartSoon].
Proof. do 2 eexists. split; reflexivity. Qed.
Theorem C87_cancelled_refuted : exists b os, brun 256 true updated (board_of dev_login) = Done (Some b, os) /\
  nth (length good_upload) os [] = [Other RestartSoon] /\ text Username (cfg_of dev_login) <> [] /\
  forall n, exists b' os', brun 256 true (updated ++ intruder :: repeat Ms n) (board_of dev_login) = Done (Some b', os').
Proof.
  destruct updated_run as (d & os & R & N). eexists. exists os. split; [exact R|]. split; [exact N|]. split; [vm_compute; discriminate|].
  intros n. rewrite brun_app, R. cbn [brun]. 
  match goal with |- context [bstep ?f ?s intruder ?b] => destruct (bstep f s intruder b) as [[[b2|] o]| |] eqn:S end;
    try (cbn [bstep intruder dstep handle_upload] in S; discriminate).
  assert (K : b_tick b2 = Stopped).
  { cbn [bstep intruder dstep handle_upload b_dev] in S. cbn in S. injection S as <- _. reflexivity. }
  rewrite (idle _ _ n b2 K). eauto.
Qed.
Print Assumptions C87_cancelled_refuted.

Example C87_case : exists os, brun 256 true (map Meets good_upload ++ Meets good_post :: repeat Ms 499 ++ Ms :: [Ms; Ms]) (board_of dev_login) = Done (None, os) /\
  nth (length (map Meets good_upload)) os [] = [Other RestartSoon] /\ uploads_go_on (repeat Ms 499 ++ Ms :: [Ms; Ms]) /\ no_order (repeat Ms 499 ++ Ms :: [Ms; Ms]) /\ elapsed (repeat Ms 499) = 499 /\
  length os = 504%nat.
Proof.
  eexists. split; [vm_compute; reflexivity|]. split; [reflexivity|].
  assert (X : forall x, In x (repeat Ms 499 ++ Ms :: [Ms; Ms]) -> x = Ms).
  { intros x I. apply in_app_or in I. destruct I as [I|I]; [apply repeat_spec in I; exact I|]. cbn in I. intuition congruence. }
  split; [intros a u I; apply X in I; discriminate|]. split; [intros a u I; apply X in I; discriminate|]. split; vm_compute; reflexivity.
Qed.
