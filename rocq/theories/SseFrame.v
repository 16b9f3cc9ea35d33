(** The data of an event is one line (C38). *)
From Coq Require Import ZArith List Bool Lia ZifyBool.
From Verif Require Import Base BaseFacts Teleinfo TeleinfoSpec HistorySpec Publish DecoderProofs GroupProofs AccessProofs PublishProofs
  Json JsonFacts JsonBuild JsonBuildFacts Tic TicSpec PageProofs Sse SseSpec SseProofs.
Import ListNotations.
Open Scope Z_scope.

Definition no_eol (c : Z) : Prop := c <> 10 /\ c <> 13.
Lemma cut_eol : forall l s, Forall no_eol l -> Forall no_eol (cut s l).
Proof.
  induction l as [|a l IH]; intros s H; cbn [cut]; auto. inv H. destruct (a =? s).
  - constructor; [split; lia|]. apply Forall_map. eapply Forall_impl; [|exact H3]. intros x X. cbn. destruct (x =? 255); auto. split; lia.
  - constructor; auto.
Qed.
Lemma content_eol : forall bs, Forall good_body bs -> Forall no_eol (content bs).
Proof.
  induction 1 as [|b bs (P & _) H IH]; [constructor|]. unfold content in *. cbn [map concat]. apply Forall_app. split; auto.
  unfold kept. apply Forall_app. split; [|repeat constructor; lia]. apply rstrip_Forall, cut_eol, payload_Forall.
  eapply Forall_impl; [|exact P]. intros a [_ A]. unfold is_ctrl in A. split; lia.
Qed.
Lemma published_chars : forall t gs, published_ti t -> carries t gs -> Forall (fun g => Forall no_eol (fst g) /\ Forall no_eol (snd g)) gs.
Proof.
  intros t gs (sgn & g1 & g2 & es & p & Hg1 & Hg2 & Hb & E & ->) C. unfold carries in C.
  destruct (pub_run_inv sgn g1 es [] (pub_init g1 g2) Hg1 Hb (pub_init_inv sgn g1 g2 Hg1 Hg2)) as (p' & E' & _ & (_ & _ & H350) & r & Hl & Hs).
  rewrite E in E'. inv E'. destruct r as [[t0 bodies]|]; cbn [shows] in Hs.
  - destruct Hs as (_ & Hsz & R & Hfr). cbn [app] in Hl. destruct Hl as (h1 & h2 & _ & _ & (_ & G & _) & _).
    rewrite Hsz, Hfr in C. rewrite all_pairs_spec in C by (try apply content_stops; rewrite <- Hfr; auto). inv C.
    apply pairs_of_Forall, content_eol; auto.
  - rewrite Hs in C. change 0%nat with (length (@nil Z)) in C. rewrite <- (app_nil_l (t_frame (p_ti p'))) in C.
    rewrite all_pairs_spec in C.
    + inv C. constructor.
    + apply (content_stops []).
    + auto.
Qed.
Lemma print_eol : forall ms, Forall (fun m => Forall no_eol (fst m) /\ Forall no_eol (print (snd m))) ms -> Forall no_eol (print (JObj ms)).
Proof.
  intros ms H. cbn [print]. constructor; [split; lia|]. apply Forall_app. split; [|repeat constructor; lia].
  induction H as [|m ms [A B] H IH]; [constructor|]. cbn [map].
  assert (M : Forall no_eol (quoted (fst m) ++ 58 :: print (snd m))).
  { unfold quoted. cbn [app]. constructor; [split; lia|]. rewrite <- app_assoc. apply Forall_app. split; auto.
    constructor; [split; lia|]. constructor; [split; lia|]. auto. }
  destruct ms as [|m' ms]; [exact M|]. cbn [map] in *. rewrite JsonFacts.sep_by_cons. apply Forall_app. split; auto.
  constructor; [split; lia|]. exact IH.
Qed.
Lemma quoted_eol : forall s, Forall no_eol s -> Forall no_eol (print (JStr s)).
Proof. intros s H. cbn [print]. unfold quoted. constructor; [split; lia|]. apply Forall_app. split; auto. repeat constructor; lia. Qed.
Lemma nlz_eol : forall v, Forall no_eol v -> Forall no_eol (no_leading_zeros v).
Proof.
  induction v as [|c v IH]; intros H; auto. inv H. destruct v as [|d v]; [repeat constructor; apply H2|].
  change (no_leading_zeros (c :: d :: v)) with (if c =? 48 then no_leading_zeros (d :: v) else c :: d :: v). destruct (c =? 48); auto.
Qed.
Lemma seconds_eol : forall ts, Forall no_eol (seconds_text ts).
Proof.
  intros ts. unfold seconds_text, decs.
  assert (D : forall s, forallb isdigit s = true -> Forall no_eol s).
  { intros s H. eapply Forall_impl; [|apply digits_printable; exact H]. intros a A. cbn in A. split; lia. }
  apply Forall_app. split.
  - destruct (tv_sec ts <? 0); [constructor; [split; lia|]|]; apply D, dec_digits.
  - constructor; [split; lia|]. cbn [app]. apply D, pad0_digits, dec_digits.
Qed.
Lemma c38 : forall e t d, published_ti t -> one_line (iso e (tv_sec (t_ts t))) -> tic_get_json_dict e t = Some d -> one_line d.
Proof.
  intros e t d P I H. destruct (published_facts t P) as (gs & w & C & G & _).
  unfold tic_get_json_dict in H. destruct (is_empty t) eqn:E.
  - unfold tic_get_json_dict_notif in H. rewrite E in H. inv H. repeat constructor; discriminate.
  - rewrite (dict_text e t None gs G E) in H. assert (D : d = print (JObj (dict_members e t None gs))) by congruence.
    subst d. clear H. apply print_eol. unfold dict_members. cbn [app].
    constructor. { cbn [fst snd]. split; [repeat constructor; discriminate|]. apply quoted_eol. exact I. }
    constructor. { cbn [fst snd]. split; [repeat constructor; discriminate|]. apply quoted_eol, seconds_eol. }
    apply Forall_map. eapply Forall_impl; [|exact (published_chars t gs P C)]. intros g [A B]. cbn [fst snd]. split; auto.
    unfold json_value. destruct (all_digit (snd g)); [|apply quoted_eol; auto]. cbn [print]. apply nlz_eol. auto.
Qed.
