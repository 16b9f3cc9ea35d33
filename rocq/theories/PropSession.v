(** Property theorem C101: the commands typed on the serial port and the restarts, together with the services and the pages.
    Specification: SessionSpec.v ([keyboard_removed]), CliSpec.v ([session]), LifeSpec.v, ChainSpec.v. *)
From Coq Require Import ZArith List Bool Lia.
From Verif Require Import Base BaseFacts Teleinfo TeleinfoSpec Publish HistorySpec Config ConfigSpec Json
  Tic TicSpec Sse Cpu Web Wifi Device WebSpec DeviceProofs SlotSpec ChainSpec Samples SamplesFacts TicSamples WebSamples ChainSamples
  Cli CliSpec Life LifeSpec LifeSamples SessionSpec SessionProofs SessionSamples.
Import ListNotations.
Open Scope Z_scope.

(** C101. A life (starts, restarts, power cuts, commands, bytes, requests ...) after which the module runs: it has a last start. *)
Theorem C101_last_start : forall fuel bd flash life d cl os, lrun fuel bd life (Off flash) = Done (On d cl, os) ->
  exists es b evs, life = es ++ started b evs.
Proof. exact c101_last_start. Qed.
Print Assumptions C101_last_start.
Example C101_ex_last_start : exists d cl os,
  lrun 256 only_tic ([PowerOn start1] ++ started start1 (with_raw keyboard1)) (Off (b_flash start1)) = Done (On d cl, os).
Proof. destruct sitting1 as (d & cl & os & R & _). exists d, cl, os. exact R. Qed.

(** C101. Since this start, the bytes received divide into commands and bytes of the meter. If no command meddles with the streams or
    the timers (sse, set timers), the module is in the very state, and has done exactly what, a module started on the same flash is and
    does without a keyboard, when it meets the same events without the bytes typed. So C99 and C100 hold. *)
Theorem C101_session : forall fuel bd flash es b evs d cl os, build_ok bd -> flash_ok flash -> Forall ordinary_life (es ++ started b evs) ->
  lrun fuel bd (es ++ started b evs) (Off flash) = Done (On d cl, os) ->
  let since := skipn (S (length es)) os in
  (forall l, In l (commands_of since) -> ~ meddles (bd_parse bd l)) ->
  exists m os1 d0 acts rest outs, lrun fuel bd es (Off flash) = Done (m, os1) /\ start_ok (on_flash (flash_of m) b) /\
    boot (on_flash (flash_of m) b) = Some (d0, acts) /\ keyboard_removed (bd_cli bd) (map fst evs) rest (commands_of since) /\
    Forall ordinary_event rest /\ incl rest (map fst evs) /\
    drun fuel (bd_signed bd) rest d0 = Done (d, outs) /\ effects_of since = concat outs /\ ~ In RestartNow (concat outs).
Proof. exact c101_session. Qed.
Print Assumptions C101_session.

(** C101, services. The requests sent since the last start are those of the valid frames that remain, with the notifications of C99. *)
Theorem C101_services : forall fuel bd flash es b evs d cl os en, build_ok bd -> flash_ok flash -> Forall ordinary_life (es ++ started b evs) ->
  lrun fuel bd (es ++ started b evs) (Off flash) = Done (On d cl, os) ->
  let since := skipn (S (length es)) os in
  (forall l, In l (commands_of since) -> ~ meddles (bd_parse bd l)) -> Forall (fun p => same_env en (fst p)) evs ->
  exists m os1 d0 acts rest ms, lrun fuel bd es (Off flash) = Done (m, os1) /\ boot (on_flash (flash_of m) b) = Some (d0, acts) /\
    keyboard_removed (bd_cli bd) (map fst evs) rest (commands_of since) /\ frames fuel (bd_signed bd) d0 [] rest ms /\
    requests (effects_of since) = flat_map (fun x => requests (m_out x)) ms /\
    map (sends PTEC) ms = changes_7 None (map (watched s_ptec (lookup (str "PTEC"))) ms) /\
    map (fun x => (sends ADPS x, sends NORM x)) ms =
      edges false (map (watched s_adps (fun gs => match lookup (str "ADPS") gs with Some _ => true | None => false end)) ms) /\
    forall before x after, ms = before ++ x :: after ->
      let on := s_http_host (m_set x) <> [] /\ s_seuils (m_set x) = true /\ power (m_groups x) <> 0 in
      (sends HAUT x = true <-> on /\ s_seuil_haut (m_set x) <= power (m_groups x) /\ last_crossing before <> Some HAUT) /\
      (sends BAS x = true <-> on /\ power (m_groups x) <= s_seuil_bas (m_set x) /\ last_crossing before = Some HAUT).
Proof. exact c101_services. Qed.
Print Assumptions C101_services.
(** Two starts; then three valid frames, the command "tic" typed in the middle of the second one: the events that remain are those
    of the examples of C99, and the requests too. *)
Example C101_ex_session : exists d cl os, build_ok only_tic /\ flash_ok (b_flash start1) /\
  Forall ordinary_life ([PowerOn start1] ++ started start1 (with_raw keyboard1)) /\
  lrun 256 only_tic ([PowerOn start1] ++ started start1 (with_raw keyboard1)) (Off (b_flash start1)) = Done (On d cl, os) /\
  commands_of (skipn 2 os) = [str "tic" ++ [13]] /\ (forall l, ~ meddles (bd_parse only_tic l)) /\
  Forall (fun p => same_env env0 (fst p)) (with_raw keyboard1) /\
  keyboard_removed (bd_cli only_tic) (map fst (with_raw keyboard1)) history1 [str "tic" ++ [13]] /\
  map fst (requests (effects_of (skipn 2 os))) = [PTEC; HAUT; ADPS; EMONCMS; BAS; NORM; MAJ; EMONCMS].
Proof.
  destruct sitting1 as (d & cl & os & R & C & Q). exists d, cl, os. split; [exact only_tic_ok|]. split; [exact (proj1 (proj2 (proj2 start1_ok)))|].
  split; [constructor; [exact start1_ok|constructor; [exact start1_ok|apply with_raw_ordinary, keyboard1_ordinary]]|].
  split; [exact R|]. split; [exact C|].
  split; [intros l; cbn [bd_parse only_tic]; destruct (beq l (str "tic" ++ [13])); intros []|].
  split; [unfold with_raw; rewrite Forall_map; exact keyboard1_env|]. rewrite fst_with_raw. split; [exact keyboard1_removed|exact Q].
Qed.
