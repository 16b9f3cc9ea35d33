(** Proof of the exact description of the tariff notifications (C14), for periods of any length. *)
From Coq Require Import ZArith List Bool Lia.
From Verif Require Import Base BaseFacts Teleinfo TeleinfoSpec Publish HistorySpec Config ConfigSpec Tic TicSpec NotifProofs NotifMain.
Import ListNotations.
Open Scope Z_scope.

Definition ptec_memory (last : option (list Z)) (s : nstate) : Prop :=
  match last with
  | None => n_init s = true /\ n_periode s = []
  | Some q => n_init s = false /\ n_periode s = firstn 7 q
  end.
Lemma memory_keeps : forall last s s', n_periode s' = n_periode s -> n_init s' = n_init s -> ptec_memory last s -> ptec_memory last s'.
Proof. unfold ptec_memory. intros [q|] s s' -> ->; auto. Qed.
(** Comparing 8 characters with a text of 7 at most is comparing the texts. *)
Lemma first8 : forall a b : list Z, beq (firstn 8 (firstn 7 a)) (firstn 8 b) = beq b (firstn 7 a).
Proof.
  intros a b. rewrite firstn_firstn. change (Nat.min 8 7) with 7%nat. destruct (beq b (firstn 7 a)) eqn:E.
  - apply beq_eq in E. subst b. rewrite firstn_firstn. change (Nat.min 8 7) with 7%nat. apply beq_refl.
  - apply beq_neq. apply beq_neq in E. intros X. apply E.
    assert (L : (length (firstn 8 b) <= 7)%nat) by (rewrite <- X; apply firstn_le_length).
    rewrite firstn_length in L. rewrite X. symmetry. apply firstn_all2. lia.
Qed.
Lemma memory_step : forall v q s, ptec_memory (Some q) s ->
  fires (snd (f_ptec (Some v) s)) = negb (beq v (firstn 7 q)) /\ ptec_memory (Some v) (fst (f_ptec (Some v) s)).
Proof.
  intros v q s [J1 J2]. cbn [f_ptec]. rewrite J2, first8. destruct (beq v (firstn 7 q)) eqn:E; cbn [fst snd].
  - apply beq_eq in E. split; [reflexivity|]. split; [exact J1|]. rewrite J2, E, firstn_firstn. reflexivity.
  - rewrite J1. split; [reflexivity|]. split; reflexivity.
Qed.
Lemma memory_first : forall v s, ptec_memory None s ->
  snd (f_ptec (Some v) s) = None /\ ptec_memory (match v with [] => None | _ => Some v end) (fst (f_ptec (Some v) s)).
Proof.
  intros v s [J1 J2]. cbn [f_ptec]. rewrite J2. destruct v as [|x v].
  - cbn. auto.
  - rewrite J1. cbn [firstn beq fst snd]. split; [reflexivity|]. split; reflexivity.
Qed.
Lemma run_ptec_exact : forall e evs st last os st', frames_published evs -> ptec_memory last (ts_ns st) ->
  tic_run e evs st = Some (os, st') ->
  map (sent PTEC) os = changes_7 last (seen s_ptec see_ptec (view (ts_cfg st)) evs).
Proof.
  induction evs as [|ev evs IH]; intros st last os st' P J H.
  - inv H. reflexivity.
  - apply run_cons in H. destruct H as (o & st1 & os' & S & R & ->). inv P. destruct ev as [now c|now k t].
    + inv S. cbn [seen map] in *. cbn [changes_7]. f_equal.
      exact (IH (mk_ts c (ts_ns st) (tic_make_timers now c (ts_tm st))) last os' st' H2 J R).
    + apply frame_step in S. destruct S as (n & tm & S & ->). cbn [seen map].
      change (negb (Nat.eqb (length (s_http_host (view (ts_cfg st)))) 0)) with (has_host HHost (ts_cfg st)) in *.
      change (s_ptec (view (ts_cfg st))) with (bit 1 HFlags (ts_cfg st)) in *.
      pose proof (frame_reasons _ _ _ _ _ _ _ _ _ _ H1 S) as (-> & _). apply frame_state in S; auto.
      assert (IH' := fun last' J' => IH (mk_ts (ts_cfg st) n tm) last' os' st' H2 J' R). cbn [ts_cfg ts_ns] in IH'.
      unfold step_ptec in *. destruct (has_host HHost (ts_cfg st)); [|cbn [andb changes_7 fires snd]; f_equal; apply IH'; now subst n].
      cbn [andb] in *.
      assert (K : forall s1 l, ptec_memory l s1 -> ptec_memory l (fst (step_adps (ts_cfg st) t (fst (step_seuils (ts_cfg st) t s1))))).
      { intros s1 l J1. destruct (adps_keeps (ts_cfg st) t (fst (step_seuils (ts_cfg st) t s1))) as (K1 & K2 & _).
        destruct (seuils_keeps (ts_cfg st) t s1) as (K3 & K4 & _). eapply memory_keeps; [..|exact J1]; congruence. }
      destruct (bit 1 HFlags (ts_cfg st)).
      * unfold see_ptec at 1. destruct (value_in t "PTEC") as [v|].
        { destruct last as [q|].
          - destruct (memory_step v q (ts_ns st) J) as [A B]. rewrite A. cbn [changes_7]. f_equal. apply IH'. subst n. apply K, B.
          - destruct (memory_first v (ts_ns st) J) as [A B]. rewrite A. cbn [fires]. cbn [changes_7]. destruct v as [|x v]; f_equal; apply IH'; subst n; apply K, B. }
        { cbn [f_ptec snd fires changes_7]. f_equal. apply IH'. subst n. cbn [f_ptec fst]. apply K, J. }
      * cbn [changes_7 fires snd]. f_equal. apply IH'. subst n. cbn [fst]. apply K, J.
Qed.
Lemma c14_exact : forall e now c evs os st, frames_published evs ->
  tic_run e evs (tic_start now c) = Some (os, st) ->
  map (sent PTEC) os = changes_7 None (seen s_ptec (fun _ t => value_in t "PTEC") (view c) evs).
Proof. intros. eapply (run_ptec_exact e evs (tic_start now c) None); eauto. split; reflexivity. Qed.
