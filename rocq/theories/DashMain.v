(** From the published frame to the tabs of the home page. *)
From Coq Require Import ZArith List Bool Lia ZifyBool.
From Verif Require Import Base BaseFacts Teleinfo TeleinfoSpec Publish HistorySpec Json JsonBuild JsonBuildFacts AccessProofs Tic TicSpec PageProofs
  FormMain Dash DashSpec DashProofs.
Import ListNotations.
Open Scope Z_scope.

Lemma carries_same : forall t gs gs', carries t gs -> carries t gs' -> gs = gs'.
Proof. unfold carries. congruence. Qed.
Lemma rows_of_groups : forall gs : list group,
  rows_of (map (fun g => TicSpec.entry (fst g) (JStr (snd g))) gs) = Some (map (fun g => (fst g, Text (snd g))) gs).
Proof.
  induction gs as [|g gs IH]; [reflexivity|]. cbn [map rows_of]. rewrite IH. unfold TicSpec.entry, row_of.
  change (beq (str "na") (str "na") && beq (str "va") (str "va")) with true. reflexivity.
Qed.
Definition table (e : env) (t : teleinfo) (w : Z) (gs : list group) : list (list Z * cell) :=
  (str "timestamp", Text (iso e (tv_sec (t_ts t)))) :: (str "watt", Number w) :: map (fun g => (fst g, Text (snd g))) gs.
Lemma page_table : forall e t gs body, published_ti t -> t_size t <> 0%nat -> carries t gs ->
  quotable (iso e (tv_sec (t_ts t))) = true -> Forall (fun g => quotable (fst g) = true /\ quotable (snd g) = true) gs ->
  tic_get_json_array e t = Some body ->
  exists w, watt t 60 = Some w /\ table_of body = Some (table e t w gs).
Proof.
  intros e t gs body P N C Q R B. destruct (c12 e t P) as (gs' & w & body' & C' & W & B' & _ & J).
  assert (gs' = gs) by (eapply carries_same; eauto). subst gs'. assert (body' = body) by congruence. subst body'.
  exists w. split; [exact W|]. unfold table_of. rewrite (J N Q R). cbn [rows_of].
  rewrite rows_of_groups. unfold TicSpec.entry, row_of, cell_of.
  change (beq (str "na") (str "na") && beq (str "va") (str "va")) with true. cbv iota.
  rewrite dec_value_dec by (eapply watt_nonneg; eauto). reflexivity.
Qed.
Lemma absent_groups : forall na (gs : list group), ~ In na (map fst gs) -> absent na (map (fun g => (fst g, Text (snd g))) gs).
Proof.
  intros na. unfold absent, values_of. induction gs as [|[n v] gs IH]; intros H; [reflexivity|].
  cbn [map filter fst] in *. destruct (beq n na) eqn:E.
  - apply beq_eq in E. subst. exfalso. apply H. left. reflexivity.
  - apply IH. intros I. apply H. right. exact I.
Qed.
Lemma c81_page : forall e t A B C si ii body w, published_ti t -> t_size t <> 0%nat ->
  let gs := A ++ (str "ISOUSC", si) :: B ++ (str "IINST", ii) :: C in
  carries t gs -> quotable (iso e (tv_sec (t_ts t))) = true -> Forall (fun g => quotable (fst g) = true /\ quotable (snd g) = true) gs ->
  ~ In (str "ISOUSC") (map fst B) -> ~ In (str "IINST") (map fst C) ->
  si <> [] -> forallb isdigit si = true -> ii <> [] -> forallb isdigit ii = true ->
  tic_get_json_array e t = Some body ->
  exists cells w', refresh body w = (Some cells, w') /\
    let i := dec_value ii in let s := dec_value si in let pe := if s =? 0 then 0 else i * 100 / s in
    bar_width w' = pe /\ bar_class w' = str "progress-bar progress-bar-" ++ colour pe /\
    charge w' = dec i ++ str "A / " ++ dec s ++ str "A" /\ (0 < pe -> badge w' = dec pe ++ str "%").
Proof.
  intros e t A B C si ii body w P N gs K Q R HB HC S1 S2 I1 I2 E.
  destruct (page_table e t gs body P N K Q R E) as (w0 & W & T). unfold refresh. rewrite T.
  destruct (draw (table e t w0 gs) w) as [cells w'] eqn:D. exists cells, w'. split; [reflexivity|].
  unfold table, gs in D. rewrite !map_app in D. cbn [map fst snd] in D. rewrite !map_app in D. cbn [map fst snd] in D.
  rewrite !app_comm_cons in D.
  eapply c81 in D; [exact D | | | assumption ..]; apply absent_groups; assumption.
Qed.

(** ** Gauges *)
Lemma property_app : forall x a b, property x (a ++ b) = match property x b with Some r => Some r | None => property x a end.
Proof.
  induction a as [|[k v] a IH]; intros b; cbn [app property]; [destruct (property x b); reflexivity|].
  rewrite IH. destruct (property x b); reflexivity.
Qed.
Lemma property_absent : forall x (gs : list group), ~ In x (map fst gs) -> property x (map (fun g => (fst g, json_value (snd g))) gs) = None.
Proof.
  intros x. induction gs as [|[k v] gs IH]; intros H; [reflexivity|]. cbn [map property fst snd] in *. rewrite IH.
  - destruct (beq k x) eqn:E; [|reflexivity]. apply beq_eq in E. subst. exfalso. apply H. left. reflexivity.
  - intros I. apply H. right. exact I.
Qed.
Lemma property_group : forall x v (gs : list group), NoDup (map fst gs) -> In (x, v) gs ->
  property x (map (fun g => (fst g, json_value (snd g))) gs) = Some (json_value v).
Proof.
  intros x v. induction gs as [|[k u] gs IH]; intros N I; [destruct I|]. cbn [map property fst snd] in *. inversion N as [|? ? N1 N2]; subst.
  destruct I as [I | I].
  - injection I as -> ->. rewrite property_absent by exact N1. rewrite beq_refl. reflexivity.
  - rewrite (IH N2 I). reflexivity.
Qed.
Lemma c83 : forall e t gs d g, published_ti t -> t_size t <> 0%nat -> carries t gs -> quotable (iso e (tv_sec (t_ts t))) = true -> Forall json_ready gs ->
  NoDup (map fst gs) -> tic_get_json_dict e t = Some d ->
  (forall v, In (str "PAPP", v) gs -> forallb isdigit v = true -> g_papp (on_message d g) = Some (dec_value v)) /\
  (forall v, In (str "IINST", v) gs -> forallb isdigit v = true -> g_iinst (on_message d g) = Some (dec_value v)) /\
  (forall v, In (str "HCHP", v) gs -> forallb isdigit v = true ->
     g_hchp (on_message d g) = dec (dec_value v / 1000) ++ str "." ++ pad0 3 (dec (dec_value v mod 1000))) /\
  (forall v, In (str "HCHC", v) gs -> forallb isdigit v = true ->
     g_hchc (on_message d g) = dec (dec_value v / 1000) ++ str "." ++ pad0 3 (dec (dec_value v mod 1000))) /\
  (forall v, In (str "PTEC", v) gs -> g_mark (on_message d g) = OffPeak <-> v = str "HC").
Proof.
  intros e t gs d g P Z0 C Q R U D.
  destruct (c11 e t None P) as (gs' & body & C' & B & _ & J).
  assert (gs' = gs) by (eapply carries_same; eauto). subst gs'.
  assert (body = d) by (unfold tic_get_json_dict in D; congruence). subst body.
  specialize (J Z0 Q Logic.I R). cbn [app] in J. unfold on_message. rewrite J. cbn [g_papp g_iinst g_hchp g_hchc g_mark].
  set (ms := map (fun g => (fst g, json_value (snd g))) gs) in *.
  assert (L : forall x v, In (x, v) gs ->
    property x ((str "timestamp", JStr (iso e (tv_sec (t_ts t)))) :: (str "seconds", JStr (seconds_text (t_ts t))) :: ms) = Some (json_value v)).
  { intros x v I. cbn [property]. subst ms. rewrite (property_group x v gs U I). reflexivity. }
  assert (V : forall v, forallb isdigit v = true -> json_value v = JNum (no_leading_zeros v)) by (intros v H; unfold json_value, all_digit; rewrite H; reflexivity).
  split; [|split; [|split; [|split]]].
  - intros v I H. rewrite (L _ _ I), (V v H). cbn. rewrite nlz_value. reflexivity.
  - intros v I H. rewrite (L _ _ I), (V v H). cbn. rewrite nlz_value. reflexivity.
  - intros v I H. rewrite (L _ _ I), (V v H). unfold kwh. rewrite nlz_value. reflexivity.
  - intros v I H. rewrite (L _ _ I), (V v H). unfold kwh. rewrite nlz_value. reflexivity.
  - intros v I. rewrite (L _ _ I). unfold json_value. destruct (all_digit v) eqn:E.
    + split; [discriminate|]. intros ->. discriminate.
    + destruct (beq v (str "HC")) eqn:Q'; [apply beq_eq in Q'; subst; tauto|]. split; [discriminate|]. intros ->. discriminate.
Qed.
