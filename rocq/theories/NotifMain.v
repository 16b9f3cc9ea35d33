(** Notifications and periodic requests over histories. *)
From Coq Require Import ZArith List Bool Lia.
From Verif Require Import Base BaseFacts Teleinfo TeleinfoSpec HistorySpec Publish Config ConfigSpec ConfigMain PageProofs
  TemplateProofs Tic TicSpec NotifProofs.
Import ListNotations.
Open Scope Z_scope.

Lemma sent_app : forall w a b, existsb (reason_eqb w) (a ++ b) = existsb (reason_eqb w) a || existsb (reason_eqb w) b.
Proof. intros. apply existsb_app. Qed.
Definition fires (w : option reason) : bool := match w with Some _ => true | None => false end.

(** ** One frame, one reason *)
Ltac frame_cases c t s :=
  let s1 := constr:(fst (step_ptec c t s)) in
  let s2 := constr:(fst (step_seuils c t (fst (step_ptec c t s)))) in
  let a := fresh in let b := fresh in let d := fresh in
  assert (a : snd (step_ptec c t s) = None \/ snd (step_ptec c t s) = Some PTEC)
    by (unfold step_ptec; destruct (bit 1 HFlags c); [apply f_ptec_reason|auto]);
  assert (b : snd (step_seuils c t s1) = None \/ snd (step_seuils c t s1) = Some HAUT \/ snd (step_seuils c t s1) = Some BAS)
    by (unfold step_seuils; destruct (bit 2 HFlags c); [apply f_seuils_reason|auto]);
  assert (d : snd (step_adps c t s2) = None \/ snd (step_adps c t s2) = Some ADPS \/ snd (step_adps c t s2) = Some NORM)
    by (unfold step_adps; destruct (bit 0 HFlags c); [apply f_adps_reason|auto]);
  destruct a as [a|a]; destruct b as [b|[b|b]]; destruct d as [d|[d|d]]; rewrite ?a, ?b, ?d in *.

Lemma frame_reasons : forall e c now k t s ts o s' ts', published_ti t ->
  tic_notifs e c now k t s ts = Some (o, s', ts') ->
  sent PTEC o = has_host HHost c && fires (snd (step_ptec c t s)) /\
  thresholds o = (if has_host HHost c then olist (snd (step_seuils c t (fst (step_ptec c t s)))) else []) /\
  (sent ADPS o, sent NORM o) =
    (if has_host HHost c then
       match snd (step_adps c t (fst (step_seuils c t (fst (step_ptec c t s))))) with
       | Some ADPS => (true, false) | Some _ => (false, true) | None => (false, false) end
     else (false, false)) /\
  sent MAJ o = has_host HHost c && fst (tm_expired now (t_http ts)) /\
  sent JEEDOM o = has_host JHost c && fst (tm_expired now (t_jeedom ts)) /\
  sent EMONCMS o = has_host EHost c && fst (tm_expired now (t_emoncms ts)) /\
  increasing (map rank (reasons o)).
Proof.
  intros e c now k t s ts o s' ts' P H. apply tic_notifs_spec in H; auto.
  destruct H as (_ & _ & _ & front & R & F). unfold sent, thresholds. rewrite R. clear R.
  destruct (has_host HHost c).
  - cbv zeta in F. destruct F as [_ F]. subst front.
    destruct (fst (tm_expired now (t_http ts))); destruct (fst (tm_expired now (t_jeedom ts)));
    destruct (fst (tm_expired now (t_emoncms ts))); destruct (has_host JHost c); destruct (has_host EHost c);
    frame_cases c t s; cbn; repeat split; lia.
  - destruct F as [_ ->].
    destruct (fst (tm_expired now (t_http ts))); destruct (fst (tm_expired now (t_jeedom ts)));
    destruct (fst (tm_expired now (t_emoncms ts))); destruct (has_host JHost c); destruct (has_host EHost c);
      cbn; repeat split; lia.
Qed.

(** ** Histories *)
Lemma run_cons : forall e ev evs st os st', tic_run e (ev :: evs) st = Some (os, st') ->
  exists o st1 os', tic_step e ev st = Some (o, st1) /\ tic_run e evs st1 = Some (os', st') /\ os = o :: os'.
Proof.
  intros. cbn [tic_run] in H. destruct (tic_step e ev st) as [[o st1]|]; [|discriminate].
  destruct (tic_run e evs st1) as [[os' st2]|] eqn:E; [|discriminate]. inv H. eauto 8.
Qed.
Lemma frame_step : forall e now k t st o st', tic_step e (Frame now k t) st = Some (o, st') ->
  exists n tm, tic_notifs e (ts_cfg st) now k t (ts_ns st) (ts_tm st) = Some (o, n, tm) /\ st' = mk_ts (ts_cfg st) n tm.
Proof.
  intros. cbn [tic_step] in H. destruct (tic_notifs _ _ _ _ _ _ _) as [[[o' n] tm]|]; [|discriminate]. inv H. eauto.
Qed.
(** State of the notifications after a frame. *)
Lemma frame_state : forall e c now k t s ts o s' ts', published_ti t -> tic_notifs e c now k t s ts = Some (o, s', ts') ->
  s' = if has_host HHost c then fst (step_adps c t (fst (step_seuils c t (fst (step_ptec c t s))))) else s.
Proof.
  intros. apply tic_notifs_spec in H0; auto. destruct H0 as (_ & _ & _ & front & _ & F).
  destruct (has_host HHost c); cbv zeta in F; tauto.
Qed.
Lemma run_snoc : forall e evs ev st os st', tic_run e (evs ++ [ev]) st = Some (os, st') ->
  exists os1 st1 o, tic_run e evs st = Some (os1, st1) /\ tic_step e ev st1 = Some (o, st') /\ os = os1 ++ [o].
Proof.
  induction evs as [|x evs IH]; intros ev st os st' H.
  - apply run_cons in H. destruct H as (o & st1 & os' & S & R & ->). inv R. exists [], st, o. auto.
  - cbn [app] in H. apply run_cons in H. destruct H as (o & st1 & os' & S & R & ->).
    apply IH in R. destruct R as (os1 & st2 & o' & R & S' & ->). exists (o :: os1), st2, o'. cbn [tic_run]. rewrite S, R. auto.
Qed.

Lemma run_settings : forall e evs st os st', tic_run e evs st = Some (os, st') ->
  view (ts_cfg st') = settings_after (view (ts_cfg st)) evs /\ length os = length evs.
Proof.
  induction evs as [|ev evs IH]; intros st os st' H.
  - inv H. auto.
  - apply run_cons in H. destruct H as (o & st1 & os' & S & R & ->). apply IH in R. destruct R as [R L]. rewrite R. cbn [length].
    split; [|lia]. destruct ev as [now c|now k t].
    + inv S. reflexivity.
    + apply frame_step in S. destruct S as (n & tm & _ & ->). reflexivity.
Qed.

(** ** C14 *)
Definition ptec_state (last : option (list Z)) (s : nstate) : Prop :=
  match last with
  | None => n_init s = true /\ n_periode s = []
  | Some q => n_init s = false /\ n_periode s = q /\ (1 <= length q <= 7)%nat
  end.
Definition ptec_short (x : option (option (list Z))) : Prop :=
  match x with Some (Some p) => (1 <= length p <= 7)%nat | _ => True end.
Definition see_ptec (s : settings) (t : teleinfo) : option (list Z) := value_in t "PTEC".
Lemma adps_keeps : forall c t s, n_periode (fst (step_adps c t s)) = n_periode s /\ n_init (fst (step_adps c t s)) = n_init s /\
  n_haut (fst (step_adps c t s)) = n_haut s.
Proof. intros. unfold step_adps. destruct (bit 0 HFlags c); auto. unfold f_adps. destruct (value_in t "ADPS"), (n_adps s); auto. Qed.
Lemma seuils_keeps : forall c t s, n_periode (fst (step_seuils c t s)) = n_periode s /\ n_init (fst (step_seuils c t s)) = n_init s /\
  n_adps (fst (step_seuils c t s)) = n_adps s.
Proof.
  intros. unfold step_seuils. destruct (bit 2 HFlags c); auto. unfold f_seuils.
  destruct (_ =? 0); auto. destruct (_ && _); auto. destruct (_ && _); auto.
Qed.
Lemma ptec_keeps : forall c t s, n_haut (fst (step_ptec c t s)) = n_haut s /\ n_adps (fst (step_ptec c t s)) = n_adps s.
Proof. intros. unfold step_ptec. destruct (bit 1 HFlags c); auto. unfold f_ptec. destruct (value_in t "PTEC"); auto. destruct (beq _ _); auto. Qed.
Lemma ptec_state_keeps : forall last s s', n_periode s' = n_periode s -> n_init s' = n_init s -> ptec_state last s -> ptec_state last s'.
Proof. unfold ptec_state. intros [q|] s s' -> ->; auto. Qed.
Lemma ptec_step : forall v last s, ptec_state last s -> (1 <= length v <= 7)%nat ->
  fires (snd (f_ptec (Some v) s)) = match last with Some q => negb (beq v q) | None => false end /\
  ptec_state (Some v) (fst (f_ptec (Some v) s)).
Proof.
  intros v last s J L. cbn [f_ptec]. repeat rewrite (firstn_all2 v) by lia. destruct last as [q|]; cbn [ptec_state] in J.
  - destruct J as (J1 & J2 & J3). rewrite J2, firstn_all2 by lia. destruct (beq q v) eqn:E; cbn [fst snd].
    + apply beq_eq in E. subst. rewrite beq_refl. cbn. auto.
    + rewrite J1. cbn [fires]. split.
      * apply beq_neq in E. symmetry. apply negb_true_iff, beq_neq. congruence.
      * cbn [ptec_state n_init n_periode]. auto.
  - destruct J as (J1 & J2). rewrite J2. cbn [firstn]. destruct v as [|x v]; [cbn in L; lia|]. cbn [beq fst snd]. rewrite J1. cbn [fires]. split; auto.
    cbn [ptec_state n_init n_periode]. auto.
Qed.
Lemma run_ptec : forall e evs st last os st', frames_published evs ->
  Forall ptec_short (seen s_ptec see_ptec (view (ts_cfg st)) evs) -> ptec_state last (ts_ns st) ->
  tic_run e evs st = Some (os, st') ->
  map (sent PTEC) os = changes last (seen s_ptec see_ptec (view (ts_cfg st)) evs).
Proof.
  induction evs as [|ev evs IH]; intros st last os st' P L J H.
  - inv H. reflexivity.
  - apply run_cons in H. destruct H as (o & st1 & os' & S & R & ->). inv P. destruct ev as [now c|now k t].
    + inv S. cbn [seen map] in *. inv L. cbn [changes]. f_equal.
      exact (IH (mk_ts c (ts_ns st) (tic_make_timers now c (ts_tm st))) last os' st' H2 H4 J R).
    + cbn [seen] in L. apply Forall_cons_iff in L. destruct L as [H3 H4]. apply frame_step in S. destruct S as (n & tm & S & ->). cbn [seen map].
      change (negb (Nat.eqb (length (s_http_host (view (ts_cfg st)))) 0)) with (has_host HHost (ts_cfg st)) in *.
      change (s_ptec (view (ts_cfg st))) with (bit 1 HFlags (ts_cfg st)) in *.
      pose proof (frame_reasons _ _ _ _ _ _ _ _ _ _ H1 S) as (-> & _). apply frame_state in S; auto.
      assert (IH' := fun last' J' => IH (mk_ts (ts_cfg st) n tm) last' os' st' H2 H4 J' R). cbn [ts_cfg ts_ns] in IH'.
      unfold step_ptec in *. destruct (has_host HHost (ts_cfg st)); [|cbn [andb changes fires snd]; f_equal; apply IH'; now subst n].
      cbn [andb] in *. destruct (bit 1 HFlags (ts_cfg st)).
      * unfold see_ptec at 1. unfold see_ptec at 1 in H3. destruct (value_in t "PTEC") as [v|]; cbn [ptec_short] in H3.
        { destruct (ptec_step v last (ts_ns st) J H3) as [A B]. rewrite A. cbn [changes]. f_equal. apply IH'. subst n.
          destruct (adps_keeps (ts_cfg st) t (fst (step_seuils (ts_cfg st) t (fst (f_ptec (Some v) (ts_ns st)))))) as (K1 & K2 & _).
          destruct (seuils_keeps (ts_cfg st) t (fst (f_ptec (Some v) (ts_ns st)))) as (K3 & K4 & _).
          eapply ptec_state_keeps; [..|exact B]; congruence. }
        { cbn [f_ptec snd fires changes]. f_equal. apply IH'. subst n. cbn [f_ptec fst].
          destruct (adps_keeps (ts_cfg st) t (fst (step_seuils (ts_cfg st) t (ts_ns st)))) as (K1 & K2 & _).
          destruct (seuils_keeps (ts_cfg st) t (ts_ns st)) as (K3 & K4 & _).
          eapply ptec_state_keeps; [..|exact J]; congruence. }
      * cbn [changes fires snd]. f_equal. apply IH'. subst n. cbn [fst].
        destruct (adps_keeps (ts_cfg st) t (fst (step_seuils (ts_cfg st) t (ts_ns st)))) as (K1 & K2 & _).
        destruct (seuils_keeps (ts_cfg st) t (ts_ns st)) as (K3 & K4 & _).
        eapply ptec_state_keeps; [..|exact J]; congruence.
Qed.
Lemma c14 : forall e now c evs os st, frames_published evs ->
  Forall (fun x => match x with Some (Some p) => (1 <= length p <= 7)%nat | _ => True end)
    (seen s_ptec (fun _ t => value_in t "PTEC") (view c) evs) ->
  tic_run e evs (tic_start now c) = Some (os, st) ->
  map (sent PTEC) os = changes None (seen s_ptec (fun _ t => value_in t "PTEC") (view c) evs).
Proof. intros. eapply (run_ptec e evs (tic_start now c) None); eauto. split; reflexivity. Qed.

(** ** C16 *)
Definition see_adps (s : settings) (t : teleinfo) : bool := match value_in t "ADPS" with Some _ => true | None => false end.
Lemma run_adps : forall e evs st os st', frames_published evs -> tic_run e evs st = Some (os, st') ->
  map (fun o => (sent ADPS o, sent NORM o)) os = edges (n_adps (ts_ns st)) (seen s_adps see_adps (view (ts_cfg st)) evs).
Proof.
  induction evs as [|ev evs IH]; intros st os st' P H.
  - inv H. reflexivity.
  - apply run_cons in H. destruct H as (o & st1 & os' & S & R & ->). inv P. apply IH in R; auto. cbn [map]. rewrite R. clear R IH.
    destruct ev as [now c|now k t].
    + inv S. reflexivity.
    + apply frame_step in S. destruct S as (n & tm & S & ->). cbn [seen ts_cfg ts_ns].
      change (negb (Nat.eqb (length (s_http_host (view (ts_cfg st)))) 0)) with (has_host HHost (ts_cfg st)) in *.
      change (s_adps (view (ts_cfg st))) with (bit 0 HFlags (ts_cfg st)) in *.
      pose proof (frame_reasons _ _ _ _ _ _ _ _ _ _ H1 S) as (_ & _ & -> & _). apply frame_state in S; auto.
      destruct (has_host HHost (ts_cfg st)); [|subst n; reflexivity].
      destruct (seuils_keeps (ts_cfg st) t (fst (step_ptec (ts_cfg st) t (ts_ns st)))) as (_ & _ & K1).
      destruct (ptec_keeps (ts_cfg st) t (ts_ns st)) as (_ & K2). rewrite K2 in K1. clear K2.
      set (s2 := fst (step_seuils _ _ _)) in *. subst n. cbn [andb]. unfold step_adps, see_adps at 1 2.
      destruct (bit 0 HFlags (ts_cfg st)); [|cbn [snd fst edges]; rewrite K1; reflexivity].
      unfold f_adps, see_adps. destruct (value_in t "ADPS"); cbn [edges]; destruct (n_adps s2) eqn:E; rewrite <- K1; cbn [fst snd n_adps]; rewrite ?E; reflexivity.
Qed.
Lemma c16 : forall e now c evs os st, frames_published evs -> tic_run e evs (tic_start now c) = Some (os, st) ->
  map (fun o => (sent ADPS o, sent NORM o)) os =
  edges false (seen s_adps (fun _ t => match value_in t "ADPS" with Some _ => true | None => false end) (view c) evs).
Proof. intros. eapply (run_adps e evs (tic_start now c)); eauto. Qed.

(** ** C15 *)
Lemma thresholds_app : forall a b, thresholds (a ++ b) = thresholds a ++ thresholds b.
Proof. intros. unfold thresholds. rewrite reasons_app. induction (reasons a); cbn; auto. destruct (is_threshold a0); cbn; congruence. Qed.
Definition is_haut (o : option reason) : bool := match o with Some HAUT => true | _ => false end.
Lemma seuils_step : forall c t s,
  snd (step_seuils c t s) =
    (if bit 2 HFlags c && negb (papp t =? 0) then
       if negb (n_haut s) then opt_if (num HSeuilHaut c <=? papp t) HAUT else opt_if (papp t <=? num HSeuilBas c) BAS
     else None) /\
  n_haut (fst (step_seuils c t s)) = match snd (step_seuils c t s) with Some w => is_haut (Some w) | None => n_haut s end.
Proof.
  intros. unfold step_seuils, f_seuils. destruct (bit 2 HFlags c); cbn [andb]; [|auto].
  destruct (papp t =? 0); cbn [negb]; [auto|].
  destruct (n_haut s) eqn:E; cbn [negb]; rewrite ?andb_false_r, ?andb_true_r.
  - destruct (papp t <=? num HSeuilBas c); cbn; auto.
  - destruct (num HSeuilHaut c <=? papp t); cbn; auto.
Qed.
Lemma last_threshold_app : forall a b, last_threshold (a ++ b) =
  match rev (thresholds b) with [] => last_threshold a | w :: _ => Some w end.
Proof. intros. unfold last_threshold. rewrite thresholds_app, rev_app_distr. destruct (rev (thresholds b)); reflexivity. Qed.
Lemma frame_haut : forall e c now k t s ts o s' ts', published_ti t -> tic_notifs e c now k t s ts = Some (o, s', ts') ->
  thresholds o = (if has_host HHost c && bit 2 HFlags c && negb (papp t =? 0) then
     olist (if negb (n_haut s) then opt_if (num HSeuilHaut c <=? papp t) HAUT else opt_if (papp t <=? num HSeuilBas c) BAS)
     else []) /\
  n_haut s' = match thresholds o with [] => n_haut s | w :: _ => is_haut (Some w) end.
Proof.
  intros. pose proof (frame_reasons _ _ _ _ _ _ _ _ _ _ H H0) as (_ & T & _). apply frame_state in H0; auto. rewrite T. subst s'.
  destruct (has_host HHost c); cbn [andb]; [|auto].
  destruct (adps_keeps c t (fst (step_seuils c t (fst (step_ptec c t s))))) as (_ & _ & ->).
  destruct (seuils_step c t (fst (step_ptec c t s))) as (A & B). destruct (ptec_keeps c t s) as (K & _). rewrite K in *.
  rewrite B, A. destruct (bit 2 HFlags c && negb (papp t =? 0)); [|auto].
  destruct (n_haut s); cbn [negb].
  - destruct (papp t <=? num HSeuilBas c); auto.
  - destruct (num HSeuilHaut c <=? papp t); auto.
Qed.
Lemma run_haut : forall e evs st os st' past, frames_published evs -> n_haut (ts_ns st) = is_haut (last_threshold past) ->
  tic_run e evs st = Some (os, st') -> n_haut (ts_ns st') = is_haut (last_threshold (past ++ concat os)).
Proof.
  induction evs as [|ev evs IH]; intros st os st' past P J H.
  - inv H. cbn. now rewrite app_nil_r.
  - apply run_cons in H. destruct H as (o & st1 & os' & S & R & ->). inv P. cbn [concat]. rewrite app_assoc.
    eapply IH; eauto. destruct ev as [now c|now k t].
    + inv S. now rewrite app_nil_r.
    + apply frame_step in S. destruct S as (n & tm & S & ->). cbn [ts_ns]. apply frame_haut in S; auto.
      destruct S as [A B]. rewrite B, last_threshold_app.
      assert (T : thresholds o = [] \/ exists w, thresholds o = [w]).
      { rewrite A. destruct (_ && _ && _); auto. destruct (if negb _ then _ else _); cbn; eauto. }
      destruct T as [->|[w ->]]; auto.
Qed.
Lemma sent_threshold : forall w o, is_threshold w = true -> sent w o = existsb (reason_eqb w) (thresholds o).
Proof.
  intros w o T. unfold sent, thresholds. induction (reasons o) as [|x l IH]; [reflexivity|]. cbn [existsb filter]. rewrite IH.
  destruct (is_threshold x) eqn:E; [reflexivity|]. destruct w, x; discriminate || reflexivity.
Qed.
Lemma host_ne : forall f c, has_host f c = true <-> text f c <> [].
Proof. intros. unfold has_host. destruct (text f c); cbn; split; congruence. Qed.
Lemma c15 : forall e now0 c evs past st now k t o st', frames_published evs -> published_ti t ->
  tic_run e evs (tic_start now0 c) = Some (past, st) ->
  tic_step e (Frame now k t) st = Some (o, st') ->
  let s := settings_after (view c) evs in
  let on := s_http_host s <> [] /\ s_seuils s = true /\ papp t <> 0 in
  (sent HAUT o = true <-> on /\ s_seuil_haut s <= papp t /\ last_threshold (concat past) <> Some HAUT) /\
  (sent BAS o = true <-> on /\ papp t <= s_seuil_bas s /\ last_threshold (concat past) = Some HAUT).
Proof.
  intros e now0 c evs past st now k t o st' P Pt R S s on.
  assert (V := run_settings _ _ _ _ _ R). destruct V as [V _]. change (ts_cfg (tic_start now0 c)) with c in V. subst s.
  assert (J := run_haut _ _ _ _ _ [] P (eq_refl : n_haut (ts_ns (tic_start now0 c)) = _) R). cbn [app] in J.
  apply frame_step in S. destruct S as (n & tm & S & ->). apply frame_haut in S; auto. destruct S as [A _].
  rewrite !sent_threshold, A by reflexivity. subst on. rewrite <- V.
  change (s_seuils (view (ts_cfg st))) with (bit 2 HFlags (ts_cfg st)).
  change (s_seuil_haut (view (ts_cfg st))) with (num HSeuilHaut (ts_cfg st)).
  change (s_seuil_bas (view (ts_cfg st))) with (num HSeuilBas (ts_cfg st)).
  change (s_http_host (view (ts_cfg st))) with (text HHost (ts_cfg st)). rewrite <- host_ne, J.
  destruct (has_host HHost (ts_cfg st)); cbn [andb]; [|cbn; intuition discriminate].
  destruct (bit 2 HFlags (ts_cfg st)); cbn [andb]; [|cbn; intuition discriminate].
  destruct (Z.eqb_spec (papp t) 0) as [E|E]; cbn [negb]; [cbn; intuition congruence|].
  destruct (last_threshold (concat past)) as [w|]; [destruct w|]; cbn [is_haut negb];
  destruct (Z.leb_spec (papp t) (num HSeuilBas (ts_cfg st))); destruct (Z.leb_spec (num HSeuilHaut (ts_cfg st)) (papp t));
  cbn; intuition (congruence || lia).
Qed.
Lemma run_alternate : forall e evs st os st', frames_published evs -> tic_run e evs st = Some (os, st') ->
  if n_haut (ts_ns st) then alternate BAS HAUT (thresholds (concat os)) else alternate HAUT BAS (thresholds (concat os)).
Proof.
  induction evs as [|ev evs IH]; intros st os st' P H.
  - inv H. destruct (n_haut (ts_ns st')); exact I.
  - apply run_cons in H. destruct H as (o & st1 & os' & S & R & ->). inv P. cbn [concat]. rewrite thresholds_app.
    apply IH in R; auto. destruct ev as [now c|now k t].
    + inv S. exact R.
    + apply frame_step in S. destruct S as (n & tm & S & ->). cbn [ts_ns] in R. apply frame_haut in S; auto.
      destruct S as [A B]. rewrite B in R. clear B. rewrite A in *. destruct (_ && _ && _); [|exact R].
      destruct (n_haut (ts_ns st)); cbn [negb] in *; unfold opt_if in *.
      * destruct (papp t <=? num HSeuilBas (ts_cfg st)); cbn in *; auto.
      * destruct (num HSeuilHaut (ts_cfg st) <=? papp t); cbn in *; auto.
Qed.
Lemma c15_alternate : forall e now c evs os st, frames_published evs -> tic_run e evs (tic_start now c) = Some (os, st) ->
  alternate HAUT BAS (thresholds (concat os)).
Proof. intros. exact (run_alternate e evs (tic_start now c) os st H H0). Qed.

(** ** C19 *)
Definition dead (tm : timer) : Prop := tm_period tm <> 0 /\ tm_never tm = true.
Lemma dead_expired : forall now tm, dead tm -> tm_expired now tm = (false, tm).
Proof. intros now tm [A B]. unfold tm_expired. apply Z.eqb_neq in A. rewrite A, B. reflexivity. Qed.
Definition unset (freq port : Z) (host : list Z) : bool := (freq =? 0) || (Nat.eqb (length host) 0) || (port =? 0).
Definition timers_match (c : cfg) (ts : timers) : Prop :=
  (unset (num HFreq c) (num HPort c) (text HHost c) = true -> dead (t_http ts)) /\
  (unset (num EFreq c) (num EPort c) (text EHost c) = true -> dead (t_emoncms ts)) /\
  (unset (num JFreq c) (num JPort c) (text JHost c) = true -> dead (t_jeedom ts)).
Lemma arm_dead : forall now f p h tm, unset f p h = true -> dead (arm now f p h tm).
Proof. intros. unfold arm. unfold unset in H. rewrite H. split; [discriminate|reflexivity]. Qed.
Lemma armed_match : forall now c ts, timers_match c (tic_make_timers now c ts).
Proof. intros. unfold timers_match, tic_make_timers. cbn. split; [|split]; apply arm_dead. Qed.
Lemma run_timers : forall e evs st os st', frames_published evs -> timers_match (ts_cfg st) (ts_tm st) ->
  tic_run e evs st = Some (os, st') -> timers_match (ts_cfg st') (ts_tm st').
Proof.
  induction evs as [|ev evs IH]; intros st os st' P J H.
  - inv H. auto.
  - apply run_cons in H. destruct H as (o & st1 & os' & S & R & ->). inv P. refine (IH st1 os' st' H2 _ R).
    destruct ev as [now c|now k t].
    + inv S. apply armed_match.
    + apply frame_step in S. destruct S as (n & tm & S & ->). apply tic_notifs_spec in S; auto.
      destruct S as (_ & -> & _). destruct J as (J1 & J2 & J3). cbn [ts_cfg ts_tm]. unfold timers_match. cbn [t_http t_emoncms t_jeedom].
      split; [|split]; intros U.
      * specialize (J1 U). rewrite (dead_expired _ _ J1). destruct (has_host _ _); auto.
      * specialize (J2 U). rewrite (dead_expired _ _ J2). auto.
      * specialize (J3 U). rewrite (dead_expired _ _ J3). auto.
Qed.
Lemma alive : forall now tm f p h, (unset f p h = true -> dead tm) -> fst (tm_expired now tm) = true -> f <> 0 /\ p <> 0.
Proof.
  intros now tm f p h H F. destruct (unset f p h) eqn:U.
  - rewrite dead_expired in F by auto. discriminate.
  - unfold unset in U. apply orb_false_iff in U. destruct U as [U W]. apply orb_false_iff in U. destruct U as [U _].
    apply Z.eqb_neq in U, W. auto.
Qed.
Lemma in_sent : forall w r o, In (Request w r) o -> sent w o = true.
Proof.
  intros w r o H. unfold sent, reasons. apply existsb_exists. exists w. split; [|destruct w; reflexivity].
  apply in_flat_map. exists (Request w r). split; auto. left. reflexivity.
Qed.
Lemma http_notif_dest : forall e c t w r, http_notif e c t w = Some r -> r_host r = text HHost c /\ r_port r = num HPort c.
Proof.
  intros e c t w r H. unfold http_notif in H. destruct (expand_url _ _ _ _); [|discriminate].
  destruct (bit 7 HFlags c); [destruct (tic_get_json_dict_notif _ _ _); [|discriminate]|]; inv H; auto.
Qed.
Lemma jeedom_dest : forall c t r, jeedom_notif c t = Some (Some r) -> r_host r = text JHost c /\ r_port r = num JPort c.
Proof. intros c t r H. unfold jeedom_notif in H. destruct (text JHost c); [discriminate|]. destruct (ti_pairs t); [|discriminate]. inv H. auto. Qed.
Lemma emoncms_dest : forall c t r, emoncms_notif c t = Some (Some r) -> r_host r = text EHost c /\ r_port r = num EPort c.
Proof. intros c t r H. unfold emoncms_notif in H. destruct (text EHost c); [discriminate|]. destruct (tic_emoncms_data t _); [|discriminate]. inv H. auto. Qed.

Lemma c19 : forall e now0 c evs past st now k t o st', frames_published evs -> published_ti t ->
  tic_run e evs (tic_start now0 c) = Some (past, st) -> tic_step e (Frame now k t) st = Some (o, st') ->
  let s := settings_after (view c) evs in
  increasing (map rank (reasons o)) /\
  forall w r, In (Request w r) o ->
    host_of s w <> [] /\ r_host r = host_of s w /\ r_port r = port_of s w /\ trigger_of s w = true /\
    (periodic w = true -> port_of s w <> 0 /\ freq_of s w <> 0).
Proof.
  intros e now0 c evs past st now k t o st' P Pt R S s.
  assert (V := run_settings _ _ _ _ _ R). destruct V as [V _]. change (ts_cfg (tic_start now0 c)) with c in V. subst s. rewrite <- V.
  assert (J := run_timers _ _ _ _ _ P (armed_match _ _ _ : timers_match (ts_cfg (tic_start now0 c)) (ts_tm (tic_start now0 c))) R).
  apply frame_step in S. destruct S as (n & tm & S & ->).
  pose proof (frame_reasons _ _ _ _ _ _ _ _ _ _ Pt S) as (SP & ST & SA & SM & SJ & SE & SI).
  apply tic_notifs_spec in S; auto. destruct S as (G & _). rewrite Forall_forall in G.
  split; auto. intros w r I. specialize (G _ I). apply in_sent in I.
  assert (HB : is_threshold w = true -> has_host HHost (ts_cfg st) = true /\ bit 2 HFlags (ts_cfg st) = true).
  { intros T. rewrite sent_threshold, ST in I by auto. destruct (has_host HHost (ts_cfg st)); [|discriminate]. split; auto.
    unfold step_seuils in I. destruct (bit 2 HFlags (ts_cfg st)); auto; discriminate. }
  assert (AN : (sent ADPS o || sent NORM o) = true -> has_host HHost (ts_cfg st) = true /\ bit 0 HFlags (ts_cfg st) = true).
  { intros T. apply (f_equal (fun p => fst p || snd p)) in SA. cbn [fst snd] in SA. rewrite SA in T. destruct (has_host HHost (ts_cfg st)); [|discriminate]. split; auto.
    unfold step_adps in T. destruct (bit 0 HFlags (ts_cfg st)); auto; discriminate. }
  destruct J as (J1 & J2 & J3).
  destruct w; cbn [genuine] in G; cbn [host_of port_of freq_of trigger_of periodic].
  - rewrite SM in I. apply andb_true_iff in I. destruct I as [I X]. apply host_ne in I. apply http_notif_dest in G.
    apply (alive _ _ _ _ _ J1) in X. cbn. tauto.
  - rewrite SP in I. apply andb_true_iff in I. destruct I as [I X]. apply host_ne in I. apply http_notif_dest in G.
    split; [exact I|]. split; [apply G|]. split; [apply G|]. split; [|discriminate].
    unfold step_ptec in X. change (bit 1 HFlags (ts_cfg st) = true). destruct (bit 1 HFlags (ts_cfg st)); auto; discriminate.
  - destruct (HB eq_refl) as [A B]. apply host_ne in A. apply http_notif_dest in G.
    split; [exact A|]. split; [apply G|]. split; [apply G|]. split; [exact B|discriminate].
  - destruct (HB eq_refl) as [A B]. apply host_ne in A. apply http_notif_dest in G.
    split; [exact A|]. split; [apply G|]. split; [apply G|]. split; [exact B|discriminate].
  - destruct AN as [A B]; [rewrite I; reflexivity|]. apply host_ne in A. apply http_notif_dest in G.
    split; [exact A|]. split; [apply G|]. split; [apply G|]. split; [exact B|discriminate].
  - destruct AN as [A B]; [rewrite I; apply orb_true_r|]. apply host_ne in A. apply http_notif_dest in G.
    split; [exact A|]. split; [apply G|]. split; [apply G|]. split; [exact B|discriminate].
  - rewrite SJ in I. apply andb_true_iff in I. destruct I as [I X]. apply host_ne in I. apply jeedom_dest in G.
    apply (alive _ _ _ _ _ J3) in X. cbn. tauto.
  - rewrite SE in I. apply andb_true_iff in I. destruct I as [I X]. apply host_ne in I. apply emoncms_dest in G.
    apply (alive _ _ _ _ _ J2) in X. cbn. tauto.
Qed.
