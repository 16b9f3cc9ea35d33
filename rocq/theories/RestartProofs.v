(** The first valid frame that follows a start. *)
From Coq Require Import ZArith List Bool Lia.
From Verif Require Import Base BaseFacts Teleinfo TeleinfoSpec Publish HistorySpec Config ConfigSpec Json
  Tic TicSpec Sse Cpu Web Wifi Device WebSpec DeviceProofs SlotSpec ChainSpec ChainProofs ChainMain
  Cli CliSpec Life LifeSpec LifeProofs LifeMain LifeFinal SessionSpec SessionProofs.
Import ListNotations.
Open Scope Z_scope.

Lemma c102_after_start : forall fuel bd flash es b evs d cl os en, build_ok bd -> flash_ok flash -> Forall ordinary_life (es ++ started b evs) ->
  lrun fuel bd (es ++ started b evs) (Off flash) = Done (On d cl, os) ->
  let since := skipn (Datatypes.S (length es)) os in
  (forall l, In l (commands_of since) -> ~ meddles (bd_parse bd l)) -> Forall (fun p => same_env en (fst p)) evs ->
  exists m os1 d0 acts rest, lrun fuel bd es (Off flash) = Done (m, os1) /\ boot (on_flash (flash_of m) b) = Some (d0, acts) /\
    keyboard_removed (bd_cli bd) (map fst evs) rest (commands_of since) /\
    (exists ms, frames fuel (bd_signed bd) d0 [] rest ms) /\
    (frames fuel (bd_signed bd) d0 [] rest [] -> requests (effects_of since) = []) /\
    forall x r, frames fuel (bd_signed bd) d0 [] rest (x :: r) ->
      requests (effects_of since) = requests (m_out x) ++ flat_map (fun y => requests (m_out y)) r /\
      sends PTEC x = false /\ sends NORM x = false /\ sends BAS x = false /\
      (sends ADPS x = true <-> s_http_host (m_set x) <> [] /\ s_adps (m_set x) = true /\ lookup (str "ADPS") (m_groups x) <> None) /\
      (sends HAUT x = true <-> s_http_host (m_set x) <> [] /\ s_seuils (m_set x) = true /\ power (m_groups x) <> 0 /\
         s_seuil_haut (m_set x) <= power (m_groups x)).
Proof.
  intros fuel bd flash es b evs d cl os en B F O H since K En.
  destruct (c101_session _ _ _ _ _ _ _ _ _ B F O H K) as (m & os1 & d0 & acts & rest & outs & R1 & So & Bo & Kr & Or & Ir & Rr & Ef & NR).
  assert (Hb := heard_ordinary rest false Or).
  assert (He : Forall (same_env en) rest).
  { apply Forall_forall. intros x I. apply Ir, in_map_iff in I. destruct I as (p & <- & I). rewrite Forall_forall in En. exact (En _ I). }
  exists m, os1, d0, acts, rest. split; [exact R1|]. split; [exact Bo|]. split; [exact Kr|].
  split; [exact (frames_exist fuel (bd_signed bd) _ d0 acts So Bo [] rest d outs Hb Rr)|]. split.
  - intros Fr. unfold since in *. rewrite Ef. exact (c99_only _ _ _ _ _ _ _ _ _ _ So Bo Hb He Rr NR Fr).
  - intros x r Fr. split; [unfold since in *; rewrite Ef; exact (c99_only _ _ _ _ _ _ _ _ _ _ So Bo Hb He Rr NR Fr)|].
    assert (T := c99_tariff _ _ _ _ _ _ _ _ _ _ So Bo Hb He Rr NR Fr). assert (V := c99_overload _ _ _ _ _ _ _ _ _ _ So Bo Hb He Rr NR Fr).
    destruct (c99_thresholds _ _ _ _ _ _ _ _ _ _ So Bo Hb He Rr NR Fr [] x r eq_refl) as (A & C).
    split; [|split; [|split; [|split]]].
    + cbn [map changes_7] in T. destruct (watched s_ptec (lookup (str "PTEC")) x) as [[[|c p]|]|]; injection T as -> _; reflexivity.
    + cbn [map edges] in V. destruct (watched s_adps _ x); injection V as _ -> _; reflexivity.
    + destruct (sends BAS x); [|reflexivity]. destruct (proj1 C eq_refl) as (_ & _ & X). discriminate X.
    + cbn [map edges] in V. unfold watched in V. destruct (s_http_host (m_set x)) as [|c h] eqn:Eh.
      * cbn [length Nat.eqb negb andb] in V. injection V as -> _. split; [discriminate|]. intros (X & _). contradiction.
      * cbn [length Nat.eqb negb andb] in V. destruct (s_adps (m_set x)).
        -- injection V as -> _. rewrite andb_true_r. change [65; 68; 80; 83] with (str "ADPS"). destruct (lookup (str "ADPS") (m_groups x)).
           ++ split; [|reflexivity]. intros _. split; [discriminate|]. split; [reflexivity|discriminate].
           ++ split; [discriminate|]. intros (_ & _ & X). contradiction.
        -- injection V as -> _. split; [discriminate|]. intros (_ & X & _). discriminate X.
    + rewrite A. cbn [last_crossing flat_map map filter rev hd_error]. split; [intros ((P & Q & R) & S & _); auto|].
      intros (P & Q & R & S). split; [auto|]. split; [exact S|discriminate].
Qed.
