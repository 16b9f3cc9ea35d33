(** Proofs about the tabs of the home page. *)
From Coq Require Import ZArith List Bool Lia ZifyBool.
From Verif Require Import Base BaseFacts Json JsonBuildFacts AccessProofs Dash DashSpec.
Import ListNotations.
Open Scope Z_scope.

(** ** Comparisons *)
Lemma dec_value_cons : forall c s, dec_value (c :: s) = (c - 48) * 10 ^ Z.of_nat (length s) + dec_value s.
Proof. intros. unfold dec_value. cbn [fold_left]. rewrite dec_value_acc. fold (dec_value s). lia. Qed.
Lemma dec_value_range : forall s, forallb isdigit s = true -> 0 <= dec_value s < 10 ^ Z.of_nat (length s).
Proof.
  induction s as [|c s IH]; intros H; [split; reflexivity || (vm_compute; congruence)|].
  cbn [forallb] in H. apply andb_prop in H as [D H]. specialize (IH H). rewrite dec_value_cons. unfold isdigit in D.
  cbn [length]. replace (Z.of_nat (S (length s))) with (Z.of_nat (length s) + 1) by lia. rewrite Z.pow_add_r by lia.
  change (10 ^ 1) with 10. set (p := 10 ^ Z.of_nat (length s)) in *. nia.
Qed.
Lemma less_digits : forall a b, length a = length b -> forallb isdigit a = true -> forallb isdigit b = true ->
  less a b = (dec_value a <? dec_value b) /\ beq a b = (dec_value a =? dec_value b).
Proof.
  induction a as [|x a IH]; intros [|y b] L A B; try discriminate; [split; reflexivity|].
  cbn [forallb] in A, B. apply andb_prop in A as [A1 A2]. apply andb_prop in B as [B1 B2]. injection L as L.
  destruct (IH b L A2 B2) as [I1 I2]. cbn [less beq]. rewrite !dec_value_cons, L.
  pose proof (dec_value_range a A2) as R. pose proof (dec_value_range b B2) as R'. rewrite L in R.
  unfold isdigit in A1, B1. set (p := 10 ^ Z.of_nat (length b)) in *.
  destruct (Z.eqb_spec x y) as [->|N].
  - rewrite I1, I2. cbn [andb]. split; lia.
  - split.
    + destruct (Z.ltb_spec x y); symmetry; [apply Z.ltb_lt | apply Z.ltb_ge]; nia.
    + cbn [andb]. symmetry. apply Z.eqb_neq. nia.
Qed.
Lemma kind_number : forall k c, of_kind k c -> cell_number c = Some (value c).
Proof.
  intros k [s|n] H; [|reflexivity]. destruct k; [|destruct H]. destruct H as (_ & N & D). cbn. unfold number.
  destruct s; [congruence|]. rewrite D. reflexivity.
Qed.
Lemma kind_compare : forall k a b, of_kind k a -> of_kind k b ->
  js_eq a b = (value a =? value b) /\ js_lt a b = (value a <? value b).
Proof.
  intros k [s|n] [t|m] A B; destruct k; try (destruct A; fail); try (destruct B; fail); [|split; reflexivity].
  destruct A as (A1 & _ & A3), B as (B1 & _ & B3). destruct (less_digits s t) as [L E]; try congruence. cbn. auto.
Qed.
Lemma arrow_nan : forall s, cell_number (Text (s ++ up_arrow)) = None /\ cell_number (Text (s ++ down_arrow)) = None.
Proof.
  intros s. cbn [cell_number]. unfold number.
  assert (N : forall a, forallb isdigit a = false -> match s ++ a with [] => Some 0 | _ => if forallb isdigit (s ++ a) then Some (dec_value (s ++ a)) else None end = None).
  { intros a A. rewrite forallb_app, A, andb_false_r. destruct (s ++ a) eqn:E; [|reflexivity].
    apply app_eq_nil in E as [_ ->]. discriminate. }
  split; apply N; reflexivity.
Qed.

(** ** Arrows *)
Definition tracks (k : option nat) (na : list Z) (w : screen) (last : option Z) : Prop :=
  match last with
  | None => match counter na (counters w) with None => True | Some c => cell_number c = None end
  | Some p => exists c, counter na (counters w) = Some c /\ of_kind k c /\ value c = p
  end.
Lemma load_counters : forall na v w, counters (show_load na v w) = counters w.
Proof. intros. unfold show_load. destruct (beq na (str "ISOUSC")); [reflexivity|]. destruct (beq na (str "IINST")); reflexivity. Qed.
Lemma formatter_other : forall na v w na', beq na na' = false ->
  counter na' (counters (snd (value_formatter na v w))) = counter na' (counters w).
Proof.
  intros na v w na' N. unfold value_formatter, mark. destruct (cell_number v); [|cbn [snd]; rewrite load_counters; reflexivity].
  cbn [snd counters counter]. rewrite N, load_counters. reflexivity.
Qed.
Lemma formatter_step : forall k na v w last, of_kind k v -> tracks k na w last ->
  exists a, arrows last [value v] = [a] /\ fst (value_formatter na v w) = with_arrow v a /\
    tracks k na (snd (value_formatter na v w)) (match a with NoArrow => Some (value v) | _ => None end).
Proof.
  intros k na v w last K T. unfold value_formatter, mark. rewrite (kind_number _ _ K), load_counters.
  assert (R : beq na na = true) by (apply beq_refl).
  destruct (arrow_nan (cell_text v)) as [AU AD].
  unfold tracks in *. cbn [arrows]. destruct last as [p|].
  - destruct T as (c & E & Kc & <-). rewrite E, (kind_number _ _ Kc).
    destruct (kind_compare k c v Kc K) as [Q L]. destruct (kind_compare k v c K Kc) as [_ L']. rewrite Q, L, L'.
    destruct (Z.eqb_spec (value c) (value v)) as [S|N].
    + exists NoArrow. split; [reflexivity|]. cbn [fst snd with_arrow counters counter]. rewrite R. split; [reflexivity|]. exists v. auto.
    + destruct (Z.ltb_spec (value c) (value v)).
      * exists Up. split; [reflexivity|]. cbn [fst snd with_arrow counters counter]. rewrite R. split; [reflexivity | exact AU].
      * replace (value v <? value c) with true by lia. exists Down. split; [reflexivity|].
        cbn [fst snd with_arrow counters counter]. rewrite R. split; [reflexivity | exact AD].
  - exists NoArrow. split; [reflexivity|].
    destruct (counter na (counters w)) as [c|]; [rewrite T|]; cbn [fst snd with_arrow counters counter]; rewrite R;
      (split; [reflexivity|]); exists v; auto.
Qed.
Lemma arrows_cons : forall last v t, exists a, arrows last [v] = [a] /\
  arrows last (v :: t) = a :: arrows (match a with NoArrow => Some v | _ => None end) t.
Proof.
  intros last v t. cbn [arrows]. destruct last as [p|]; [|exists NoArrow; auto].
  destruct (p =? v); [exists NoArrow; auto|]. destruct (p <? v); [exists Up | exists Down]; auto.
Qed.
Lemma draw_arrows : forall k na rows w last cs w', draw rows w = (cs, w') -> tracks k na w last -> Forall (of_kind k) (values_of na rows) ->
  cells_of na rows cs = map (fun x => with_arrow (fst x) (snd x)) (combine (values_of na rows) (arrows last (map value (values_of na rows)))).
Proof.
  intros k na. induction rows as [|[n v] rows IH]; intros w last cs w' E T F.
  - injection E as <- <-. reflexivity.
  - cbn [draw] in E. destruct (value_formatter n v w) as [c w1] eqn:V. destruct (draw rows w1) as [cs' w2] eqn:D. injection E as <- <-.
    unfold cells_of, values_of in *. cbn [combine filter map fst] in *.
    destruct (beq n na) eqn:Q.
    + apply beq_eq in Q. subst n. cbn [map snd] in *. inversion F as [|? ? K F']; subst.
      destruct (formatter_step k na v w last K T) as (a & A1 & A2 & A3). rewrite V in A2, A3. cbn [fst snd] in A2, A3.
      destruct (arrows_cons last (value v) (map value (map snd (filter (fun r => beq (fst r) na) rows)))) as (a' & B1 & B2).
      assert (a' = a) by congruence. subst a'. rewrite B2. cbn [combine map fst snd]. rewrite A2. f_equal.
      eapply IH; eauto.
    + eapply IH; [exact D| |exact F]. unfold tracks in *. pose proof (formatter_other n v w na Q) as O. rewrite V in O. cbn [snd] in O.
      rewrite O. exact T.
Qed.
Lemma c82 : forall k na rows cs w, draw rows screen_init = (cs, w) -> Forall (of_kind k) (values_of na rows) ->
  cells_of na rows cs = map (fun x => with_arrow (fst x) (snd x)) (combine (values_of na rows) (arrows None (map value (values_of na rows)))).
Proof. intros k na rows cs w E F. eapply draw_arrows; [exact E | exact Logic.I | exact F]. Qed.

(** an arrow says the truth *)
Lemma arrows_length : forall vs last, length (arrows last vs) = length vs.
Proof.
  induction vs as [|v t IH]; intros; [reflexivity|]. destruct (arrows_cons last v t) as (a & _ & ->). cbn. rewrite IH. reflexivity.
Qed.
Lemma arrows_truth_from : forall vs last i a, nth_error (arrows last vs) i = Some a -> a <> NoArrow ->
  exists p v, nth_error vs i = Some v /\ (a = Up -> p < v) /\ (a = Down -> v < p) /\
    match i with O => last = Some p | S j => nth_error vs j = Some p end.
Proof.
  induction vs as [|v t IH]; intros last i a H N; [destruct i; discriminate|].
  destruct (arrows_cons last v t) as (b & B1 & B2). rewrite B2 in H. destruct i as [|i].
  - injection H as ->. destruct last as [p|]; cbn [arrows] in B1; [|injection B1 as <-; congruence].
    exists p, v. destruct (Z.eqb_spec p v); [injection B1 as <-; congruence|].
    destruct (Z.ltb_spec p v); injection B1 as <-; repeat split; intros; try discriminate; lia.
  - cbn [nth_error] in H. destruct (IH _ i a H N) as (p & v' & P1 & P2 & P3 & P4). exists p, v'.
    split; [exact P1|]. split; [exact P2|]. split; [exact P3|]. destruct i as [|i]; [|exact P4].
    destruct b; [injection P4 as <-; reflexivity | discriminate | discriminate].
Qed.
Lemma c82_truth : forall vs i a, nth_error (arrows None vs) i = Some a -> a <> NoArrow ->
  exists j p v, i = S j /\ nth_error vs j = Some p /\ nth_error vs i = Some v /\ (a = Up -> p < v) /\ (a = Down -> v < p).
Proof.
  intros vs i a H N. destruct (arrows_truth_from vs None i a H N) as (p & v & P1 & P2 & P3 & P4).
  destruct i as [|j]; [discriminate|]. exists j, p, v. auto.
Qed.
(** no arrow is missing twice in a row *)
Lemma arrows_missing : forall vs last i p v, nth_error vs i = Some p -> nth_error vs (S i) = Some v -> p <> v ->
  nth_error (arrows last vs) i = Some NoArrow -> exists a, nth_error (arrows last vs) (S i) = Some a /\ a <> NoArrow.
Proof.
  induction vs as [|x t IH]; intros last i p v H1 H2 N H3; [destruct i; discriminate|].
  destruct (arrows_cons last x t) as (b & B1 & B2). rewrite B2 in *. destruct i as [|i]; [|cbn [nth_error] in *; eauto].
  injection H3 as ->. injection H1 as ->. cbn [nth_error] in *. destruct t as [|y t]; [discriminate|]. injection H2 as ->.
  cbn [arrows]. replace (p =? v) with false by lia. destruct (p <? v); eexists; split; try reflexivity; discriminate.
Qed.

(** ** Load *)
Lemma draw_app : forall a b w, draw (a ++ b) w = let '(c1, w1) := draw a w in let '(c2, w2) := draw b w1 in (c1 ++ c2, w2).
Proof.
  induction a as [|[n v] a IH]; intros b w; cbn [app draw].
  - destruct (draw b w). reflexivity.
  - destruct (value_formatter n v w) as [c w1]. rewrite IH. destruct (draw a w1) as [c1 w2]. destruct (draw b w2). reflexivity.
Qed.
Lemma mark_load : forall na v w, let w' := snd (mark na v w) in
  isousc w' = isousc w /\ badge w' = badge w /\ charge w' = charge w /\ bar_class w' = bar_class w /\ bar_width w' = bar_width w.
Proof. intros na v w. unfold mark. destruct (cell_number v); cbn; auto. Qed.
Lemma formatter_load : forall na v w, let w' := snd (value_formatter na v w) in let x := show_load na v w in
  isousc w' = isousc x /\ badge w' = badge x /\ charge w' = charge x /\ bar_class w' = bar_class x /\ bar_width w' = bar_width x.
Proof. intros. apply mark_load. Qed.
Definition absent (na : list Z) (rows : list (list Z * cell)) : Prop := values_of na rows = [].
Lemma absent_cons : forall na n v rows, absent na ((n, v) :: rows) -> beq n na = false /\ absent na rows.
Proof. intros na n v rows H. unfold absent, values_of in *. cbn [filter fst] in H. destruct (beq n na); [discriminate | auto]. Qed.
Lemma draw_isousc : forall rows w cs w', draw rows w = (cs, w') -> absent (str "ISOUSC") rows -> isousc w' = isousc w.
Proof.
  induction rows as [|[n v] rows IH]; intros w cs w' E A; [injection E as <- <-; reflexivity|].
  apply absent_cons in A as [N A]. cbn [draw] in E. destruct (value_formatter n v w) as [c w1] eqn:V.
  destruct (draw rows w1) as [cs' w2] eqn:D. injection E as <- <-. rewrite (IH _ _ _ D A).
  pose proof (formatter_load n v w) as (L & _). rewrite V in L. cbn [snd] in L. rewrite L. unfold show_load. rewrite N.
  destruct (beq n (str "IINST")); reflexivity.
Qed.
Lemma draw_bar : forall rows w cs w', draw rows w = (cs, w') -> absent (str "IINST") rows ->
  badge w' = badge w /\ charge w' = charge w /\ bar_class w' = bar_class w /\ bar_width w' = bar_width w.
Proof.
  induction rows as [|[n v] rows IH]; intros w cs w' E A; [injection E as <- <-; auto|].
  apply absent_cons in A as [N A]. cbn [draw] in E. destruct (value_formatter n v w) as [c w1] eqn:V.
  destruct (draw rows w1) as [cs' w2] eqn:D. injection E as <- <-. destruct (IH _ _ _ D A) as (-> & -> & -> & ->).
  pose proof (formatter_load n v w) as (_ & L). rewrite V in L. cbn [snd] in L. destruct L as (-> & -> & -> & ->).
  unfold show_load. destruct (beq n (str "ISOUSC")); [auto|]. rewrite N. auto.
Qed.
Lemma digits_leading : forall s, forallb isdigit s = true -> leading_digits s = s.
Proof. induction s as [|c s IH]; intros H; [reflexivity|]. cbn in *. apply andb_prop in H as [-> H]. rewrite IH by exact H. reflexivity. Qed.
Lemma parse_int_digits : forall s, s <> [] -> forallb isdigit s = true -> parse_int (Text s) = Some (dec_value s).
Proof. intros s N D. cbn. rewrite digits_leading by exact D. destruct s; [congruence | reflexivity]. Qed.
Lemma kind_colour : forall pe, bar_kind pe = colour pe.
Proof.
  intros pe. unfold bar_kind, colour. destruct (Z.ltb_spec 90 pe), (Z.ltb_spec 80 pe), (Z.ltb_spec 70 pe), (Z.leb_spec pe 70), (Z.leb_spec pe 80), (Z.leb_spec pe 90); try reflexivity; lia.
Qed.
Lemma c81 : forall A B C si ii w cs w',
  draw (A ++ (str "ISOUSC", Text si) :: B ++ (str "IINST", Text ii) :: C) w = (cs, w') ->
  absent (str "ISOUSC") B -> absent (str "IINST") C -> si <> [] -> forallb isdigit si = true -> ii <> [] -> forallb isdigit ii = true ->
  let i := dec_value ii in let s := dec_value si in let pe := if s =? 0 then 0 else i * 100 / s in
  bar_width w' = pe /\ bar_class w' = str "progress-bar progress-bar-" ++ colour pe /\
  charge w' = dec i ++ str "A / " ++ dec s ++ str "A" /\ (0 < pe -> badge w' = dec pe ++ str "%").
Proof.
  intros A B C si ii w cs w' E HB HC S1 S2 I1 I2 i s pe.
  rewrite draw_app in E. destruct (draw A w) as [c1 w1]. cbn [draw] in E.
  destruct (value_formatter (str "ISOUSC") (Text si) w1) as [c2 w2] eqn:V2.
  rewrite draw_app in E. destruct (draw B w2) as [c3 w3] eqn:D3. cbn [draw] in E.
  destruct (value_formatter (str "IINST") (Text ii) w3) as [c4 w4] eqn:V4.
  destruct (draw C w4) as [c5 w5] eqn:D5. assert (w' = w5) by congruence. subst w5. clear E.
  assert (K : isousc w3 = Some (Some s)).
  { rewrite (draw_isousc _ _ _ _ D3 HB). pose proof (formatter_load (str "ISOUSC") (Text si) w1) as (L & _). rewrite V2 in L.
    cbn [snd] in L. rewrite L. unfold show_load. change (beq (str "ISOUSC") (str "ISOUSC")) with true. cbv iota. cbn [isousc].
    rewrite parse_int_digits by assumption. reflexivity. }
  destruct (draw_bar _ _ _ _ D5 HC) as (-> & -> & -> & ->).
  pose proof (formatter_load (str "IINST") (Text ii) w3) as (_ & L). rewrite V4 in L. cbn [snd] in L. destruct L as (-> & -> & -> & ->).
  unfold show_load. change (beq (str "IINST") (str "ISOUSC")) with false. change (beq (str "IINST") (str "IINST")) with true. cbv iota zeta.
  cbn [badge charge bar_class bar_width]. rewrite parse_int_digits by assumption. rewrite K. fold i.
  change (percentage (Some i) (Some (Some s))) with pe. cbn [int_text].
  split; [reflexivity|]. split; [rewrite kind_colour; reflexivity|]. split; [reflexivity|]. intros P. replace (0 <? pe) with true by lia. reflexivity.
Qed.
