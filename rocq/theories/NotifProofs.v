(** Proofs about the notifications and the periodic requests of src/tic.cpp. *)
From Coq Require Import ZArith List Bool Lia.
From Verif Require Import Base BaseFacts Teleinfo TeleinfoSpec HistorySpec Publish Config ConfigSpec ConfigMain PageProofs
  TemplateProofs Tic TicSpec.
Import ListNotations.
Open Scope Z_scope.

(** ** One frame *)
Definition olist {A} (w : option A) : list A := match w with Some x => [x] | None => [] end.
Definition f_ptec (v : option (list Z)) (s : nstate) : nstate * option reason :=
  match v with
  | None => (s, None)
  | Some v =>
      if beq (firstn 8 (n_periode s)) (firstn 8 v) then (s, None)
      else (mk_ns (firstn 7 v) false (n_haut s) (n_adps s), if n_init s then None else Some PTEC)
  end.
Definition f_adps (v : option (list Z)) (s : nstate) : nstate * option reason :=
  match v with
  | None => if n_adps s then (mk_ns (n_periode s) (n_init s) (n_haut s) false, Some NORM) else (s, None)
  | Some _ => if n_adps s then (s, None) else (mk_ns (n_periode s) (n_init s) (n_haut s) true, Some ADPS)
  end.
Definition f_seuils (haut bas p : Z) (s : nstate) : nstate * option reason :=
  if p =? 0 then (s, None)
  else if (haut <=? p) && negb (n_haut s) then (mk_ns (n_periode s) (n_init s) true (n_adps s), Some HAUT)
  else if (p <=? bas) && n_haut s then (mk_ns (n_periode s) (n_init s) false (n_adps s), Some BAS)
  else (s, None).

Lemma value_published : forall t gs label, carries t gs -> value_in t label = lookup (str label) gs.
Proof. unfold carries, value_in. intros t gs label ->. reflexivity. Qed.
Lemma ti_value_in : forall t label, published_ti t -> ti_value t (str label) false = Some (value_in t label).
Proof.
  intros t label H. destruct (published_facts t H) as (gs & w & C & _ & _ & _ & V).
  rewrite (value_published _ _ _ C). apply V.
Qed.
Arguments ti_value_in _ _%string_scope _.
Lemma notif_ptec_eq : forall t s, published_ti t -> notif_ptec t s = Some (f_ptec (value_in t "PTEC") s).
Proof.
  intros t s H. unfold notif_ptec. rewrite (ti_value_in t "PTEC" H). destruct (value_in t "PTEC"); [|reflexivity].
  cbn. destruct (beq _ _); [reflexivity|]. destruct (n_init s); reflexivity.
Qed.
Lemma notif_adps_eq : forall t s, published_ti t -> notif_adps t s = Some (f_adps (value_in t "ADPS") s).
Proof.
  intros t s H. unfold notif_adps. rewrite (ti_value_in t "ADPS" H). destruct (value_in t "ADPS"); cbn; destruct (n_adps s); reflexivity.
Qed.
Lemma notif_seuils_eq : forall c t s, published_ti t ->
  notif_seuils c t s = Some (f_seuils (num HSeuilHaut c) (num HSeuilBas c) (papp t) s).
Proof.
  intros c t s H. unfold notif_seuils. rewrite (ti_value_in t "PAPP" H). unfold f_seuils, papp. destruct (value_in t "PAPP"); [|reflexivity].
  cbn. rewrite to_int_written. destruct (_ =? 0); [reflexivity|]. destruct (_ && _); [reflexivity|]. destruct (_ && _); reflexivity.
Qed.

(** What each effect of a frame is. *)
Definition genuine (e : env) (c : cfg) (t : teleinfo) (x : effect) : Prop :=
  match x with
  | Request JEEDOM r => jeedom_notif c t = Some (Some r)
  | Request EMONCMS r => emoncms_notif c t = Some (Some r)
  | Request w r => http_notif e c t w = Some r
  | SseData d => tic_get_json_dict e t = Some d
  end.
Definition http_reason (w : option reason) : Prop := w <> Some JEEDOM /\ w <> Some EMONCMS.
Lemma send_spec : forall e c t w o, send e c t w = Some o -> http_reason w ->
  reasons o = olist w /\ pushed o = false /\ Forall (genuine e c t) o.
Proof.
  intros e c t [w|] o H [N1 N2]; cbn [send] in H.
  - destruct (http_notif e c t w) as [r|] eqn:E; [|discriminate]. inv H. split; [reflexivity|]. split; [reflexivity|].
    constructor; auto. destruct w; cbn [genuine]; congruence.
  - inv H. auto.
Qed.
Lemma reasons_app : forall a b, reasons (a ++ b) = reasons a ++ reasons b.
Proof. intros. unfold reasons. apply flat_map_app. Qed.
Lemma pushed_app : forall a b, pushed (a ++ b) = pushed a || pushed b.
Proof. intros. unfold pushed. apply existsb_app. Qed.
Lemma f_ptec_reason : forall v s, snd (f_ptec v s) = None \/ snd (f_ptec v s) = Some PTEC.
Proof. intros [v|] s; cbn; auto. destruct (beq _ _); cbn; auto. destruct (n_init s); auto. Qed.
Lemma f_adps_reason : forall v s, snd (f_adps v s) = None \/ snd (f_adps v s) = Some ADPS \/ snd (f_adps v s) = Some NORM.
Proof. intros [v|] s; cbn; destruct (n_adps s); cbn; auto. Qed.
Lemma f_seuils_reason : forall h b p s, snd (f_seuils h b p s) = None \/ snd (f_seuils h b p s) = Some HAUT \/ snd (f_seuils h b p s) = Some BAS.
Proof. intros. unfold f_seuils. destruct (p =? 0); auto. destruct (_ && _); auto. destruct (_ && _); auto. Qed.

(** The state and the decisions of the three triggers. *)
Definition step_ptec (c : cfg) (t : teleinfo) (s : nstate) := if bit 1 HFlags c then f_ptec (value_in t "PTEC") s else (s, None).
Definition step_seuils (c : cfg) (t : teleinfo) (s : nstate) :=
  if bit 2 HFlags c then f_seuils (num HSeuilHaut c) (num HSeuilBas c) (papp t) s else (s, None).
Definition step_adps (c : cfg) (t : teleinfo) (s : nstate) := if bit 0 HFlags c then f_adps (value_in t "ADPS") s else (s, None).
Definition has_host (f : fld) (c : cfg) : bool := negb (Nat.eqb (length (text f c)) 0).
Definition opt_if (b : bool) (w : reason) : option reason := if b then Some w else None.

Lemma ptec_http : forall c t s, http_reason (snd (step_ptec c t s)).
Proof. intros. unfold step_ptec. destruct (bit 1 HFlags c); [|split; discriminate]. destruct (f_ptec_reason (value_in t "PTEC") s) as [->| ->]; split; discriminate. Qed.
Lemma seuils_http : forall c t s, http_reason (snd (step_seuils c t s)).
Proof. intros. unfold step_seuils. destruct (bit 2 HFlags c); [|split; discriminate]. destruct (f_seuils_reason (num HSeuilHaut c) (num HSeuilBas c) (papp t) s) as [->|[->| ->]]; split; discriminate. Qed.
Lemma adps_http : forall c t s, http_reason (snd (step_adps c t s)).
Proof. intros. unfold step_adps. destruct (bit 0 HFlags c); [|split; discriminate]. destruct (f_adps_reason (value_in t "ADPS") s) as [->|[->| ->]]; split; discriminate. Qed.
Lemma opt_if_http : forall b, http_reason (opt_if b MAJ).
Proof. destruct b; split; discriminate. Qed.

Lemma notifs_http_spec : forall e c now t s tm o s' tm', published_ti t ->
  notifs_http e c now t s tm = Some (o, s', tm') ->
  pushed o = false /\ Forall (genuine e c t) o /\
  if has_host HHost c then
    let s1 := fst (step_ptec c t s) in let s2 := fst (step_seuils c t s1) in
    s' = fst (step_adps c t s2) /\ tm' = snd (tm_expired now tm) /\
    reasons o = olist (snd (step_ptec c t s)) ++ olist (snd (step_seuils c t s1)) ++ olist (snd (step_adps c t s2)) ++
                olist (opt_if (fst (tm_expired now tm)) MAJ)
  else s' = s /\ tm' = tm /\ o = [].
Proof.
  intros e c now t s tm o s' tm' P H. unfold notifs_http, has_host in *. destruct (text HHost c) as [|h hs].
  { inv H. cbn. auto. }
  cbn [length Nat.eqb negb]. cbv zeta.
  assert (E1 : (if bit 1 HFlags c then notif_ptec t s else Some (s, None)) = Some (step_ptec c t s)).
  { unfold step_ptec. rewrite notif_ptec_eq by auto. destruct (bit 1 HFlags c); reflexivity. }
  rewrite E1 in H. clear E1. pose proof (ptec_http c t s) as K1. destruct (step_ptec c t s) as [s1 w1]. cbn [fst snd] in *.
  assert (E2 : (if bit 2 HFlags c then notif_seuils c t s1 else Some (s1, None)) = Some (step_seuils c t s1)).
  { unfold step_seuils. rewrite notif_seuils_eq by auto. destruct (bit 2 HFlags c); reflexivity. }
  destruct (send e c t w1) as [o1|] eqn:S1; [|discriminate].
  rewrite E2 in H. clear E2. pose proof (seuils_http c t s1) as K2. destruct (step_seuils c t s1) as [s2 w2]. cbn [fst snd] in *.
  assert (E3 : (if bit 0 HFlags c then notif_adps t s2 else Some (s2, None)) = Some (step_adps c t s2)).
  { unfold step_adps. rewrite notif_adps_eq by auto. destruct (bit 0 HFlags c); reflexivity. }
  destruct (send e c t w2) as [o2|] eqn:S2; [|discriminate].
  rewrite E3 in H. clear E3. pose proof (adps_http c t s2) as K3. destruct (step_adps c t s2) as [s3 w3]. cbn [fst snd] in *.
  destruct (send e c t w3) as [o3|] eqn:S3; [|discriminate].
  destruct (tm_expired now tm) as [fired tm1]. cbn [fst snd].
  destruct (send e c t (if fired then Some MAJ else None)) as [o4|] eqn:S4; [|discriminate]. inv H.
  apply send_spec in S1; auto. apply send_spec in S2; auto. apply send_spec in S3; auto. apply send_spec in S4; [|apply opt_if_http].
  destruct S1 as (R1 & P1 & G1), S2 as (R2 & P2 & G2), S3 as (R3 & P3 & G3), S4 as (R4 & P4 & G4).
  split. { rewrite !pushed_app, P1, P2, P3, P4. reflexivity. }
  split. { repeat (apply Forall_app; split; auto). }
  split; auto. split; auto. rewrite !reasons_app, R1, R2, R3, R4. reflexivity.
Qed.

Lemma jeedom_none : forall c t r, jeedom_notif c t = Some r -> (r <> None <-> has_host JHost c = true).
Proof.
  intros c t r H. unfold jeedom_notif, has_host in *. destruct (text JHost c).
  - inv H. cbn. split; congruence.
  - destruct (ti_pairs t); [|discriminate]. inv H. cbn. split; congruence.
Qed.
Lemma emoncms_none : forall c t r, emoncms_notif c t = Some r -> (r <> None <-> has_host EHost c = true).
Proof.
  intros c t r H. unfold emoncms_notif, has_host in *. destruct (text EHost c).
  - inv H. cbn. split; congruence.
  - destruct (tic_emoncms_data t _); [|discriminate]. inv H. cbn. split; congruence.
Qed.
Lemma tic_notifs_spec : forall e c now k t s ts o s' ts', published_ti t ->
  tic_notifs e c now k t s ts = Some (o, s', ts') ->
  Forall (genuine e c t) o /\
  ts' = mk_timers (if has_host HHost c then snd (tm_expired now (t_http ts)) else t_http ts)
          (snd (tm_expired now (t_emoncms ts))) (snd (tm_expired now (t_jeedom ts))) (snd (tm_expired now (t_sse ts))) /\
  pushed o = fst (tm_expired now (t_sse ts)) && negb (Nat.eqb k 0) /\
  exists front,
    reasons o = front ++ olist (opt_if (fst (tm_expired now (t_jeedom ts)) && has_host JHost c) JEEDOM)
                      ++ olist (opt_if (fst (tm_expired now (t_emoncms ts)) && has_host EHost c) EMONCMS) /\
    if has_host HHost c then
      let s1 := fst (step_ptec c t s) in let s2 := fst (step_seuils c t s1) in
      s' = fst (step_adps c t s2) /\
      front = olist (snd (step_ptec c t s)) ++ olist (snd (step_seuils c t s1)) ++ olist (snd (step_adps c t s2)) ++
              olist (opt_if (fst (tm_expired now (t_http ts))) MAJ)
    else s' = s /\ front = [].
Proof.
  intros e c now k t s ts o s' ts' P H. unfold tic_notifs in H.
  destruct (notifs_http e c now t s (t_http ts)) as [[[oh sh] th]|] eqn:EH; [|discriminate].
  destruct (tm_expired now (t_jeedom ts)) as [fj tj] eqn:XJ. cbn [fst snd].
  destruct (tm_expired now (t_emoncms ts)) as [fe te] eqn:XE. cbn [fst snd].
  destruct (tm_expired now (t_sse ts)) as [fs tsse] eqn:XS. cbn [fst snd].
  destruct (if fj then jeedom_notif c t else Some None) as [rj|] eqn:EJ; [|discriminate].
  destruct (if fe then emoncms_notif c t else Some None) as [re|] eqn:EE; [|discriminate].
  destruct (if fs && negb (Nat.eqb k 0) then _ else Some []) as [ds|] eqn:ES; [|discriminate]. inv H.
  apply notifs_http_spec in EH; auto. destruct EH as (PH & GH & RH).
  assert (JJ : Forall (genuine e c t) (as_effect JEEDOM rj) /\ reasons (as_effect JEEDOM rj) = olist (opt_if (fj && has_host JHost c) JEEDOM)
               /\ pushed (as_effect JEEDOM rj) = false).
  { destruct fj.
    - pose proof (jeedom_none _ _ _ EJ) as K. destruct rj as [r|].
      + cbn [as_effect]. rewrite (proj1 K) by discriminate. split; [constructor; auto; exact EJ|]. split; reflexivity.
      + destruct (has_host JHost c); [exfalso; apply (proj2 K); auto|]. cbn. auto.
    - inv EJ. cbn. auto. }
  assert (KK : Forall (genuine e c t) (as_effect EMONCMS re) /\ reasons (as_effect EMONCMS re) = olist (opt_if (fe && has_host EHost c) EMONCMS)
               /\ pushed (as_effect EMONCMS re) = false).
  { destruct fe.
    - pose proof (emoncms_none _ _ _ EE) as K. destruct re as [r|].
      + cbn [as_effect]. rewrite (proj1 K) by discriminate. split; [constructor; auto; exact EE|]. split; reflexivity.
      + destruct (has_host EHost c); [exfalso; apply (proj2 K); auto|]. cbn. auto.
    - inv EE. cbn. auto. }
  assert (SS : Forall (genuine e c t) ds /\ reasons ds = [] /\ pushed ds = fs && negb (Nat.eqb k 0)).
  { destruct (fs && negb (Nat.eqb k 0)); [|inv ES; cbn; auto].
    destruct (tic_get_json_dict e t) as [d|] eqn:ED; [|discriminate]. inv ES. split; [constructor; auto|]. split; reflexivity. }
  destruct JJ as (G1 & R1 & P1), KK as (G2 & R2 & P2), SS as (G3 & R3 & P3).
  split. { repeat (apply Forall_app; split; auto). }
  split. { destruct (has_host HHost c); destruct RH as (_ & -> & _); reflexivity. }
  split. { rewrite !pushed_app, PH, P1, P2, P3. reflexivity. }
  exists (reasons oh). split. { rewrite !reasons_app, R1, R2, R3, app_nil_r. reflexivity. }
  destruct (has_host HHost c).
  - cbv zeta in *. destruct RH as (-> & _ & ->). auto.
  - destruct RH as (-> & _ & ->). auto.
Qed.
