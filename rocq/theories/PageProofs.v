(** Proofs about the JSON texts of src/tic.cpp. *)
From Coq Require Import ZArith List Bool Lia.
From Verif Require Import Base BaseFacts Teleinfo TeleinfoSpec HistorySpec Publish AccessProofs TeleinfoMain WattProofs
  Json JsonFacts JsonBuild JsonBuildFacts Tic TicSpec.
Import ListNotations.
Open Scope Z_scope.

(** ** What the module publishes *)
Lemma div_nonneg : forall a b, 0 <= a -> 0 <= b -> 0 <= a / b.
Proof. intros a b A B. assert (D : b = 0 \/ 0 < b) by lia. destruct D as [->|D]; [now rewrite Zdiv_0_r|apply Z.div_pos; lia]. Qed.
Lemma watt_nonneg : forall t p w, watt t p = Some w -> 0 <= w.
Proof.
  intros t p w H. unfold watt in H.
  destruct (nth_error (t_consos t) _) as [ca|]; [|discriminate].
  destruct (watt_loop _ _ _ _ _ _) as [pr|]; [|discriminate].
  destruct (nth_error (t_consos t) pr) as [cp|]; [|discriminate].
  destruct (date_ms ca =? date_ms cp); [inv H; lia|].
  destruct (_ =? 0); [discriminate|]. inv H. unfold u32.
  apply div_nonneg; apply Z.mod_pos_bound; reflexivity.
Qed.

Lemma published_facts : forall t, published_ti t ->
  exists gs w, carries t gs /\ ti_pairs t = Some gs /\ watt t 60 = Some w /\ 0 <= w /\
    forall label, ti_value t label false = Some (lookup label gs) /\
                  ti_value t label true = Some (option_map trim_number (lookup label gs)).
Proof.
  intros t (sgn & g1 & g2 & es & p & Hg1 & Hg2 & Hb & E & ->).
  destruct (c05 sgn g1 g2 es p Hg1 Hg2 Hb E) as (gs & Hp & Hv).
  destruct (c10_safe sgn g1 g2 es 60 Hg1 Hg2 Hb) as (p' & w & E' & Hw); [lia|]. rewrite E in E'. inv E'.
  exists gs, w. do 3 (split; [assumption|]). split; [eapply watt_nonneg; eauto|exact Hv].
Qed.
Lemma carries_unique : forall t a b, carries t a -> carries t b -> a = b.
Proof. unfold carries. intros t a b Ha Hb. congruence. Qed.

(** ** Values *)
Lemma skip_zeros_eq : forall v, skip_zeros_s v = no_leading_zeros v.
Proof. reflexivity. Qed.
Lemma get_integer_eq : forall v, get_integer_s v = (all_digit v, trim_number v).
Proof. intros. unfold get_integer_s, trim_number. rewrite all_digits_eq, skip_zeros_eq. destruct (all_digit v); reflexivity. Qed.
Lemma no_zeros_plain : forall v, all_digit v = true -> v <> [] -> plain_number (no_leading_zeros v) = true.
Proof.
  intros v D N. destruct (nlz_shape v N) as [H1 H2]. pose proof (nlz_digits v D) as H3.
  destruct (no_leading_zeros v) as [|c r]; [congruence|]. apply digit_number; auto.
  destruct r as [|d r]; auto. left. eapply H2; eauto. discriminate.
Qed.
Lemma json_value_printable : forall v, quotable v = true -> v <> [] -> printable (json_value v) = true.
Proof. intros v Q N. unfold json_value. destruct (all_digit v) eqn:E; cbn [printable]; auto. apply no_zeros_plain; auto. Qed.
Lemma dict_group_text : forall ms g, dict_group (jb_text ms) g = jb_text (ms ++ [(fst g, json_value (snd g))]).
Proof.
  intros. unfold dict_group, json_value. rewrite get_integer_eq. unfold trim_number.
  destruct (all_digit (snd g)); [apply jb_raw_text|apply jb_str_text].
Qed.
Lemma dict_groups_text : forall gs ms, fold_left dict_group gs (jb_text ms) =
  jb_text (ms ++ map (fun g => (fst g, json_value (snd g))) gs).
Proof.
  induction gs as [|g gs IH]; intros; cbn [fold_left map]; [now rewrite app_nil_r|].
  rewrite dict_group_text, IH, <- app_assoc. reflexivity.
Qed.
Lemma array_groups_text : forall (gs : list group) rows, fold_left (fun s g => jt_str (fst g) (snd g) s) gs (jt_text rows) =
  jt_text (rows ++ map (fun g => row (fst g) (JStr (snd g))) gs).
Proof.
  induction gs as [|g gs IH]; intros; cbn [fold_left map]; [now rewrite app_nil_r|].
  rewrite jt_str_text, IH, <- app_assoc. reflexivity.
Qed.

Lemma pad0_digits : forall k s, forallb isdigit s = true -> forallb isdigit (pad0 k s) = true.
Proof. intros. unfold pad0. rewrite forallb_app, H, andb_true_r. induction (k - length s)%nat; cbn; auto. Qed.
Lemma seconds_quotable : forall ts, quotable (seconds_text ts) = true.
Proof.
  intros. apply ascii_quotable. unfold seconds_text.
  assert (D : forall s, forallb isdigit s = true -> Forall (fun c => 32 <= c <= 126 /\ c <> 34 /\ c <> 92) s).
  { intros s H. eapply Forall_impl; [|apply digits_printable; exact H]. cbv beta. lia. }
  assert (P := D _ (dec_digits (tv_usec ts / 1000))). apply Forall_app. split; [|apply Forall_app; split].
  - unfold decs. destruct (tv_sec ts <? 0); [constructor; [lia|]|]; apply D, dec_digits.
  - constructor; [lia|constructor].
  - apply D, pad0_digits, dec_digits.
Qed.

(** ** C11 *)
Definition dict_members (e : env) (t : teleinfo) (notif : option (list Z)) (gs : list group) : list (list Z * json) :=
  (str "timestamp", JStr (iso e (tv_sec (t_ts t)))) :: (str "seconds", JStr (seconds_text (t_ts t))) ::
  match notif with Some n => [(str "notif", JStr n)] | None => [] end ++ map (fun g => (fst g, json_value (snd g))) gs.
Lemma dict_text : forall e t notif gs, ti_pairs t = Some gs -> is_empty t = false ->
  tic_get_json_dict_notif e t notif = Some (print (JObj (dict_members e t notif gs))).
Proof.
  intros e t notif gs P E. unfold tic_get_json_dict_notif. rewrite E, P. cbv zeta. rewrite jb_new_text, jb_str_text. cbn [app].
  rewrite jb_str_text. cbn [app]. destruct notif as [n|]; [rewrite jb_str_text; cbn [app]|];
  rewrite dict_groups_text, jb_finalize_text; reflexivity.
Qed.
Lemma ready_printable : forall gs, Forall json_ready gs ->
  forallb (fun m => quotable (fst m) && printable (snd m)) (map (fun g => (fst g, json_value (snd g))) gs) = true.
Proof.
  induction 1 as [|g gs (A & B & C) H IH]; [reflexivity|]. cbn [map forallb fst snd]. rewrite A, json_value_printable, IH by auto. reflexivity.
Qed.
Lemma c11 : forall e t notif, published_ti t ->
  exists gs body, carries t gs /\ tic_get_json_dict_notif e t notif = Some body /\
    (t_size t = 0%nat -> json_of body = Some (JObj [])) /\
    (t_size t <> 0%nat -> quotable (iso e (tv_sec (t_ts t))) = true ->
     match notif with Some n => quotable n = true | None => True end -> Forall json_ready gs ->
     json_of body = Some (JObj (
       (str "timestamp", JStr (iso e (tv_sec (t_ts t)))) :: (str "seconds", JStr (seconds_text (t_ts t))) ::
       match notif with Some n => [(str "notif", JStr n)] | None => [] end ++
       map (fun g => (fst g, json_value (snd g))) gs))).
Proof.
  intros e t notif H. destruct (published_facts t H) as (gs & w & C & P & _). exists gs.
  destruct (is_empty t) eqn:E.
  - exists (str "{}"). split; auto. split. { unfold tic_get_json_dict_notif. now rewrite E. } split; [reflexivity|].
    intros N. apply Nat.eqb_eq in E. congruence.
  - eexists. split; auto. split; [apply dict_text; eauto|]. split.
    { intros Z. unfold is_empty in E. rewrite Z in E. discriminate. }
    intros _ I Q R. apply json_print. cbn [printable dict_members]. unfold dict_members. cbn [forallb fst snd printable].
    rewrite I, seconds_quotable, forallb_app, ready_printable by auto.
    destruct notif as [n|]; [cbn [forallb fst snd printable]; rewrite Q|]; reflexivity.
Qed.

(** ** C12 *)
Lemma rows_printable : forall gs : list group, Forall (fun g => quotable (fst g) = true /\ quotable (snd g) = true) gs ->
  forallb printable (map (fun g => row (fst g) (JStr (snd g))) gs) = true.
Proof. induction 1 as [|g gs [A B] H IH]; [reflexivity|]. cbn [map forallb printable row fst snd]. rewrite A, B, IH. reflexivity. Qed.
Lemma c12 : forall e t, published_ti t ->
  exists gs w body, carries t gs /\ watt t 60 = Some w /\ tic_get_json_array e t = Some body /\
    (t_size t = 0%nat -> json_of body = Some (JArr [])) /\
    (t_size t <> 0%nat -> quotable (iso e (tv_sec (t_ts t))) = true ->
     Forall (fun g => quotable (fst g) = true /\ quotable (snd g) = true) gs ->
     json_of body = Some (JArr (
       entry (str "timestamp") (JStr (iso e (tv_sec (t_ts t)))) :: entry (str "watt") (JNum (dec w)) ::
       map (fun g => entry (fst g) (JStr (snd g))) gs))).
Proof.
  intros e t H. destruct (published_facts t H) as (gs & w & C & P & W & W0 & _). exists gs, w.
  unfold tic_get_json_array. destruct (is_empty t) eqn:E.
  - exists (str "[]"). do 3 (split; auto). split; [reflexivity|]. intros N. apply Nat.eqb_eq in E. congruence.
  - rewrite W, P. cbv zeta. rewrite jt_new_text, jt_str_text. cbn [app]. rewrite jt_num_text. cbn [app].
    rewrite array_groups_text, jt_finalize_text. eexists. do 3 (split; [reflexivity || assumption|]). split.
    { intros Z. unfold is_empty in E. rewrite Z in E. discriminate. }
    intros _ I R. apply (json_print (JArr (row (str "timestamp") (JStr (iso e (tv_sec (t_ts t)))) ::
      row (str "watt") (JNum (dec w)) :: map (fun g => row (fst g) (JStr (snd g))) gs))).
    cbn [printable forallb fst snd row]. rewrite I, dec_plain by auto. apply rows_printable; auto.
Qed.
