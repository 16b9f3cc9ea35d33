(** Property theorem C102: what the module notifies after a restart. Specification: ChainSpec.v, SessionSpec.v, LifeSpec.v. *)
From Coq Require Import ZArith List Bool Lia.
From Verif Require Import Base BaseFacts Teleinfo TeleinfoSpec Publish HistorySpec Config ConfigSpec Json
  Tic TicSpec Sse Cpu Web Wifi Device WebSpec DeviceProofs SlotSpec ChainSpec Samples SamplesFacts TicSamples WebSamples ChainSamples
  Cli CliSpec Life LifeSpec LifeSamples SessionSpec SessionSamples RestartProofs RestartSamples.
Import ListNotations.
Open Scope Z_scope.

(** C102. After the last start of any life, nothing is sent before the first valid frame; for this frame, whatever the module knew before
    the start, no change of tariff, no end of overload and no return below the low threshold is notified; an overload, or a power above
    the high threshold, is notified if the frame shows it. *)
Theorem C102_after_start_partial : forall fuel bd flash es b evs d cl os en, build_ok bd -> flash_ok flash -> Forall ordinary_life (es ++ started b evs) ->
  lrun fuel bd (es ++ started b evs) (Off flash) = Done (On d cl, os) ->
  let since := skipn (S (length es)) os in
  (forall l, In l (commands_of since) -> ~ meddles (bd_parse bd l)) -> Forall (fun p => same_env en (fst p)) evs ->
  exists m os1 d0 acts rest, lrun fuel bd es (Off flash) = Done (m, os1) /\ boot (on_flash (flash_of m) b) = Some (d0, acts) /\
    keyboard_removed (bd_cli bd) (map fst evs) rest (commands_of since) /\
    (exists ms, frames fuel (bd_signed bd) d0 [] rest ms) /\
    (frames fuel (bd_signed bd) d0 [] rest [] -> requests (effects_of since) = []) /\
    forall x r, frames fuel (bd_signed bd) d0 [] rest (x :: r) ->
      requests (effects_of since) = requests (m_out x) ++ flat_map (fun y => requests (m_out y)) r /\
      sends PTEC x = false /\ sends NORM x = false /\ sends BAS x = false /\
      (sends ADPS x = true <-> s_http_host (m_set x) <> [] /\ s_adps (m_set x) = true /\ lookup (str "ADPS") (m_groups x) <> None) /\
      (sends HAUT x = true <-> s_http_host (m_set x) <> [] /\ s_seuils (m_set x) = true /\ power (m_groups x) <> 0 /\
         s_seuil_haut (m_set x) <= power (m_groups x)).
Proof. exact c102_after_start. Qed.
Print Assumptions C102_after_start_partial.
(** An overload is notified; the supply is cut; the same frame comes again. *)
Example C102_ex_after_start : exists d cl os, build_ok only_tic /\ flash_ok (b_flash start1) /\ Forall ordinary_life (cut_life first_life) /\
  lrun 256 only_tic (cut_life first_life) (Off (b_flash start1)) = Done (On d cl, os) /\
  commands_of (skipn (S (length (started start1 (with_raw first_life)))) os) = [] /\
  Forall (fun p => same_env env0 (fst p)) (with_raw first_life) /\
  map fst (requests (effects_of (skipn (S (length (started start1 (with_raw first_life)))) os))) = [HAUT; ADPS].
Proof.
  destruct (cut_life_done first_life _ (fun v ee => proj1 (lives_run v ee))) as (d & cl & os & R & _ & Q & C & _). exists d, cl, os.
  split; [exact only_tic_ok|]. split; [exact (proj1 (proj2 (proj2 start1_ok)))|]. split.
  - apply Forall_app. split; (constructor; [exact start1_ok|apply with_raw_ordinary, lives_ordinary]).
  - split; [exact R|]. split; [exact C|]. split; [unfold with_raw; rewrite Forall_map; apply lives_env|exact Q].
Qed.

(** The full claim (a change seen between two successive valid frames is notified, once) is false across a restart: the tariff changes, the
    overload ends and the power returns below the low threshold while the supply is cut, and nothing is ever notified. *)
Theorem C102_forgotten_refuted : exists bd b es1 es2 d cl os d0 acts x y, start_ok b /\ boot b = Some (d0, acts) /\
  lrun 256 bd (started b (with_raw es1) ++ started b (with_raw es2)) (Off (b_flash b)) = Done (On d cl, os) /\
  frames 256 (bd_signed bd) d0 [] es1 [x] /\ frames 256 (bd_signed bd) d0 [] es2 [y] /\
  (m_set x = m_set y /\ s_http_host (m_set x) <> [] /\ s_ptec (m_set x) = true /\ s_adps (m_set x) = true /\ s_seuils (m_set x) = true) /\
  (lookup (str "PTEC") (m_groups x) = Some (str "HC") /\ lookup (str "PTEC") (m_groups y) = Some (str "HP")) /\
  (lookup (str "ADPS") (m_groups x) = Some (str "031") /\ lookup (str "ADPS") (m_groups y) = None) /\
  (power (m_groups x) = 5600 /\ s_seuil_haut (m_set x) = 5500 /\ power (m_groups y) = 300 /\ s_seuil_bas (m_set y) = 4200) /\
  map fst (requests (m_out x)) = [HAUT; ADPS] /\ requests (effects_of (skipn (length (started b (with_raw es1))) os)) = [].
Proof.
  destruct boot1 as (v & ee & B). destruct (first_frame v ee) as (x & F1 & G1 & S1 & R1). destruct (second_frame v ee) as (y & F2 & G2 & S2 & R2).
  destruct (cut_life_done second_life _ (fun v ee => proj2 (lives_run v ee))) as (d & cl & os & R & _ & Q & _ & E).
  exists only_tic, start1, first_life, second_life, d, cl, os, (dev_at v ee), [StationMode; AutoReconnect], x, y.
  split; [exact start1_ok|]. split; [exact B|]. split; [exact R|]. split; [exact F1|]. split; [exact F2|]. rewrite S1, S2, G1, G2.
  split; [split; [reflexivity|split; [vm_compute; discriminate|vm_compute; auto]]|]. split; [vm_compute; auto|]. split; [vm_compute; auto|].
  split; [vm_compute; auto|]. split; [exact R1|].
  rewrite E. exact (map_eq_nil _ _ Q).
Qed.
Print Assumptions C102_forgotten_refuted.
(** And the same overload is notified again after the restart. *)
Theorem C102_twice_refuted : exists bd b es d cl os d0 acts x, start_ok b /\ boot b = Some (d0, acts) /\
  lrun 256 bd (started b (with_raw es) ++ started b (with_raw es)) (Off (b_flash b)) = Done (On d cl, os) /\
  frames 256 (bd_signed bd) d0 [] es [x] /\ lookup (str "ADPS") (m_groups x) = Some (str "031") /\
  map fst (requests (effects_of os)) = [HAUT; ADPS; HAUT; ADPS].
Proof.
  destruct boot1 as (v & ee & B). destruct (first_frame v ee) as (x & F1 & G1 & S1 & R1).
  destruct (cut_life_done first_life _ (fun v ee => proj1 (lives_run v ee))) as (d & cl & os & R & P & Q & _ & E).
  exists only_tic, start1, first_life, d, cl, os, (dev_at v ee), [StationMode; AutoReconnect], x.
  split; [exact start1_ok|]. split; [exact B|]. split; [exact R|]. split; [exact F1|]. rewrite G1. split; [reflexivity|].
  rewrite <- E in Q. rewrite <- (firstn_skipn (length (started start1 (with_raw first_life))) os).
  unfold effects_of, requests in *. rewrite concat_app, !flat_map_app, map_app, P, Q. reflexivity.
Qed.
Print Assumptions C102_twice_refuted.
