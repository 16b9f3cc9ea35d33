(** The module of ChainSamples, whose supply is cut between two frames. *)
From Coq Require Import ZArith List Bool Lia.
From Verif Require Import Base BaseFacts Teleinfo TeleinfoSpec Publish HistorySpec Config ConfigSpec Json
  Tic TicSpec Sse Cpu Web Wifi Device WebSpec DeviceProofs SlotSpec ChainSpec ChainProofs ChainMain Samples SamplesFacts TicSamples WebSamples ChainSamples
  Cli CliSpec Life LifeSpec LifeProofs LifeMain LifeFinal LifeSamples SessionSpec SessionProofs SessionSamples.
Import ListNotations.
Open Scope Z_scope.

(** An overload in off-peak hours; then a small power in peak hours. *)
Definition first_life : list devent := bytes_at 1000 (frame_of groups_b).
Definition groups_d : list group := [(str "PTEC", str "HP.."); (str "PAPP", str "00300")].
Definition second_life : list devent := bytes_at 1000 (frame_of groups_d).
Lemma lives_ordinary : Forall ordinary_event first_life /\ Forall ordinary_event second_life.
Proof. split; apply bytes_ordinary; vm_compute; reflexivity. Qed.
Lemma lives_env : Forall (same_env env0) first_life /\ Forall (same_env env0) second_life.
Proof. unfold first_life, second_life, bytes_at. rewrite !Forall_map. split; apply Forall_forall; intros; reflexivity. Qed.

Definition live_run (es : list devent) (d : device) :=
  match lrun 256 only_tic (map (fun p => Event (fst p) (snd p)) (with_raw es)) (On d cli_init) with
  | Done (On d cl, os) => Some (e_flash (c_ee (d_cs d)), map fst (requests (effects_of os)), commands_of os)
  | _ => None
  end.
Lemma lives_run : forall v ee, live_run first_life (dev_at v ee) = Some (e_flash ee, [HAUT; ADPS], []) /\ live_run second_life (dev_at v ee) = Some (e_flash ee, [], []).
Proof. intros v ee. split; vm_compute; reflexivity. Qed.
Lemma live_run_done : forall es d x, live_run es d = Some x -> exists d' cl os,
  lrun 256 only_tic (map (fun p => Event (fst p) (snd p)) (with_raw es)) (On d cli_init) = Done (On d' cl, os) /\
  x = (e_flash (c_ee (d_cs d')), map fst (requests (effects_of os)), commands_of os).
Proof.
  intros es d x H. unfold live_run in H.
  destruct (lrun 256 only_tic (map (fun p => Event (fst p) (snd p)) (with_raw es)) (On d cli_init)) as [[[f|d' cl] os]| |]; try discriminate H.
  exists d', cl, os. split; [reflexivity|congruence].
Qed.
Lemma lrun_join : forall fuel bd es1 es2 m m1 m2 os1 os2, lrun fuel bd es1 m = Done (m1, os1) -> lrun fuel bd es2 m1 = Done (m2, os2) ->
  lrun fuel bd (es1 ++ es2) m = Done (m2, os1 ++ os2).
Proof.
  intros fuel bd. induction es1 as [|e es1 IH]; intros es2 m m1 m2 os1 os2 A B.
  - cbn [lrun] in A. assert (m = m1) by congruence. assert (os1 = []) by congruence. subst. exact B.
  - cbn [lrun] in A. destruct (lstep fuel bd e m) as [[m3 o]| |] eqn:X; try discriminate A.
    destruct (lrun fuel bd es1 m3) as [[m4 os3]| |] eqn:Y; try discriminate A.
    assert (m4 = m1) by congruence. assert (os1 = o :: os3) by congruence. subst.
    exact (run_cons _ _ _ _ _ _ _ _ _ X (IH _ _ _ _ _ _ Y B)).
Qed.
(** The first frame, a power cut, then the events [es]. *)
Definition cut_life (es : list devent) : list levent := started start1 (with_raw first_life) ++ started start1 (with_raw es).
Lemma cut_life_done : forall es rs, (forall v ee, live_run es (dev_at v ee) = Some (e_flash ee, rs, [])) -> exists d cl os,
  lrun 256 only_tic (cut_life es) (Off (b_flash start1)) = Done (On d cl, os) /\
  map fst (requests (effects_of (firstn (length (started start1 (with_raw first_life))) os))) = [HAUT; ADPS] /\
  map fst (requests (effects_of (skipn (S (length (started start1 (with_raw first_life)))) os))) = rs /\
  commands_of (skipn (S (length (started start1 (with_raw first_life)))) os) = [] /\
  effects_of (skipn (length (started start1 (with_raw first_life))) os) = effects_of (skipn (S (length (started start1 (with_raw first_life)))) os).
Proof.
  intros es rs Hes. destruct boot1_flash as (v & ee & B & E). destruct (lives_run v ee) as (X & _). specialize (Hes v ee).
  destruct (live_run_done _ _ _ X) as (d1 & cl1 & os1 & R1 & Y1). destruct (live_run_done _ _ _ Hes) as (d2 & cl2 & os2 & R2 & Y2).
  assert (F1 : e_flash (c_ee (d_cs d1)) = b_flash start1) by congruence.
  assert (Q1 : map fst (requests (effects_of os1)) = [HAUT; ADPS]) by congruence.
  assert (Q2 : map fst (requests (effects_of os2)) = rs) by congruence. assert (Q3 : commands_of os2 = []) by congruence. clear X Hes Y1 Y2.
  set (wake := map Radio [StationMode; AutoReconnect]).
  assert (W1 := run_cons _ _ _ _ _ _ _ _ _ (power_on 256 only_tic (Off (b_flash start1)) start1 _ _ eq_refl B) R1).
  assert (W2 := run_cons _ _ _ _ _ _ _ _ _ (power_on 256 only_tic (On d1 cl1) start1 _ _ F1 B) R2).
  exists d2, cl2, ((wake :: os1) ++ wake :: os2).
  assert (L : length (wake :: os1) = length (started start1 (with_raw first_life))) by exact (lrun_length _ _ _ _ _ _ W1).
  split; [|split; [|split; [|split]]].
  - exact (lrun_join _ _ _ _ _ _ _ _ _ W1 W2).
  - rewrite <- L, firstn_app, firstn_all, Nat.sub_diag. cbn [firstn]. rewrite app_nil_r. exact Q1.
  - rewrite <- L. replace (skipn (S (length (wake :: os1))) ((wake :: os1) ++ wake :: os2)) with os2; [exact Q2|].
    change (wake :: os2) with ([wake] ++ os2). rewrite app_assoc, skipn_app. replace (S (length (wake :: os1))) with (length ((wake :: os1) ++ [wake])) by (rewrite app_length; cbn; lia).
    rewrite skipn_all, Nat.sub_diag. reflexivity.
  - rewrite <- L. replace (skipn (S (length (wake :: os1))) ((wake :: os1) ++ wake :: os2)) with os2; [exact Q3|].
    change (wake :: os2) with ([wake] ++ os2). rewrite app_assoc, skipn_app. replace (S (length (wake :: os1))) with (length ((wake :: os1) ++ [wake])) by (rewrite app_length; cbn; lia).
    rewrite skipn_all, Nat.sub_diag. reflexivity.
  - rewrite <- L. rewrite skipn_app, skipn_all, Nat.sub_diag. replace (skipn (S (length (wake :: os1))) ((wake :: os1) ++ wake :: os2)) with os2.
    2: { change (wake :: os2) with ([wake] ++ os2). rewrite app_assoc, skipn_app. replace (S (length (wake :: os1))) with (length ((wake :: os1) ++ [wake])) by (rewrite app_length; cbn; lia).
      rewrite skipn_all, Nat.sub_diag. reflexivity. }
    reflexivity.
Qed.
(** The frame of each life, for the module just started. *)
Lemma live_frame : forall gs v ee, valid_frameb (map (enc_group 32) gs) = true ->
  forallb (fun c => negb (c =? 3)) (concat (map enc_body (map (enc_group 32) gs))) = true ->
  (exists r, outcome1 (bytes_at 1000 (frame_of gs)) (dev_at v ee) = Some (view cfg0, r)) ->
  outcome1 (bytes_at 1000 (2 :: concat (map enc_body (map (enc_group 32) gs)))) (dev_at v ee) = Some (view cfg0, []) ->
  exists m, frames 256 true (dev_at v ee) [] (bytes_at 1000 (frame_of gs)) [m] /\ m_groups m = pairs_of (content (map (enc_group 32) gs)) /\
    m_set m = view cfg0 /\ outcome1 (bytes_at 1000 (frame_of gs)) (dev_at v ee) = Some (view cfg0, map fst (requests (m_out m))).
Proof.
  intros gs v ee V N (r & X) Y. destruct (outcome1_done _ _ _ X) as (d1 & os1 & R1 & _ & Q1).
  destruct (one_frame 256 true (dev_at v ee) [] 1000 [] [] (map (enc_group 32) gs) d1 os1) as (m1 & F1 & N1 & G1 & _ & e1 & o1 & P1 & S1 & O1).
  { constructor. } { apply valid_frameb_spec, V. } { apply notthree, N. } { exact (proj1 (heard_bytes _ _)). } { exact R1. }
  destruct (outcome1_moment _ _ _ _ _ _ _ _ _ _ _ Y P1 S1 R1 O1 Q1) as (A1 & B1). exists m1. rewrite B1. auto.
Qed.
Lemma first_frame : forall v ee, exists m, frames 256 true (dev_at v ee) [] first_life [m] /\
  m_groups m = [(str "PTEC", str "HC"); (str "ADPS", str "031"); (str "PAPP", str "05600")] /\ m_set m = view cfg0 /\
  map fst (requests (m_out m)) = [HAUT; ADPS].
Proof.
  intros v ee. destruct (live_frame groups_b v ee) as (m & F & G & S & R); [vm_compute; reflexivity|vm_compute; reflexivity|eexists; vm_compute; reflexivity|vm_compute; reflexivity|].
  exists m. split; [exact F|]. split; [rewrite G; vm_compute; reflexivity|]. split; [exact S|].
  assert (X : outcome1 (bytes_at 1000 (frame_of groups_b)) (dev_at v ee) = Some (view cfg0, [HAUT; ADPS])) by (vm_compute; reflexivity). congruence.
Qed.
Lemma second_frame : forall v ee, exists m, frames 256 true (dev_at v ee) [] second_life [m] /\
  m_groups m = [(str "PTEC", str "HP"); (str "PAPP", str "00300")] /\ m_set m = view cfg0 /\ requests (m_out m) = [].
Proof.
  intros v ee. destruct (live_frame groups_d v ee) as (m & F & G & S & R); [vm_compute; reflexivity|vm_compute; reflexivity|eexists; vm_compute; reflexivity|vm_compute; reflexivity|].
  exists m. split; [exact F|]. split; [rewrite G; vm_compute; reflexivity|]. split; [exact S|].
  assert (X : outcome1 (bytes_at 1000 (frame_of groups_d)) (dev_at v ee) = Some (view cfg0, [])) by (vm_compute; reflexivity).
  assert (Y : map fst (requests (m_out m)) = []) by congruence. destruct (requests (m_out m)); [reflexivity|discriminate Y].
Qed.
