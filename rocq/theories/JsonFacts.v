(** Every text printed compactly, with strings that need no escape, is read back by the parser of Json.v. *)
From Coq Require Import ZArith List Bool Lia.
From Verif Require Import Base BaseFacts Json.
From Verif Require EepromTool.
Import ListNotations.
Open Scope Z_scope.

(** ** Compact printing *)
Fixpoint sep_by (sep : list Z) (l : list (list Z)) : list Z :=
  match l with
  | [] => []
  | [x] => x
  | x :: r => x ++ sep ++ sep_by sep r
  end.
Definition quoted (s : list Z) : list Z := 34 :: s ++ [34].
Fixpoint print (j : json) : list Z :=
  match j with
  | JNull => str "null"
  | JBool b => if b then str "true" else str "false"
  | JNum n => n
  | JStr s => quoted s
  | JArr vs => 91 :: sep_by [44] (map print vs) ++ [93]
  | JObj ms => 123 :: sep_by [44] (map (fun m => quoted (fst m) ++ 58 :: print (snd m)) ms) ++ [125]
  end.

(** Plain numbers: digits without leading zeros, possibly with a sign, or digits with a fractional part. *)
Definition plain_number (n : list Z) : bool :=
  match number n with Some (m, r) => beq m n && Nat.eqb (length r) 0 | None => false end.
Fixpoint printable (j : json) : bool :=
  match j with
  | JNull | JBool _ => true
  | JNum n => plain_number n
  | JStr s => quotable s
  | JArr vs => forallb printable vs
  | JObj ms => forallb (fun m => quotable (fst m) && printable (snd m)) ms
  end.
Fixpoint jsize (j : json) : nat :=
  match j with
  | JArr vs => S (list_sum (map (fun v => S (jsize v)) vs))
  | JObj ms => S (list_sum (map (fun m => S (jsize (snd m))) ms))
  | _ => 1
  end%nat.

(** Induction over nested values. *)
Lemma json_ind' : forall P : json -> Prop,
  P JNull -> (forall b, P (JBool b)) -> (forall n, P (JNum n)) -> (forall s, P (JStr s)) ->
  (forall vs, Forall P vs -> P (JArr vs)) -> (forall ms, Forall (fun m => P (snd m)) ms -> P (JObj ms)) ->
  forall j, P j.
Proof.
  intros P H1 H2 H3 H4 H5 H6. fix IH 1. intros [ | b | n | s | vs | ms ].
  - apply H1.
  - apply H2.
  - apply H3.
  - apply H4.
  - apply H5. induction vs; constructor; auto.
  - apply H6. induction ms as [|[k v] ms I]; constructor; [apply IH|exact I].
Qed.

(** ** UTF-8 *)
Lemma utf8_more : forall f b, EepromTool.utf8 f b = true -> forall g, (f <= g)%nat -> EepromTool.utf8 g b = true.
Proof.
  induction f as [|f IH]; intros b H g L; [discriminate|]. destruct g as [|g]; [lia|].
  assert (I : forall x, EepromTool.utf8 f x = true -> EepromTool.utf8 g x = true) by (intros; apply IH; auto; lia).
  cbn [EepromTool.utf8] in *. destruct b as [|c t]; auto.
  destruct ((0 <=? c) && (c <=? 127)); auto.
  destruct t as [|c1 t1]; auto. destruct ((194 <=? c) && (c <=? 223)).
  { apply andb_true_iff in H. destruct H. apply andb_true_iff. auto. }
  destruct t1 as [|c2 t2]; auto. destruct ((224 <=? c) && (c <=? 239)).
  { apply andb_true_iff in H. destruct H. apply andb_true_iff. auto. }
  destruct t2 as [|c3 t3]; auto. apply andb_true_iff in H. destruct H. apply andb_true_iff. auto.
Qed.
Lemma utf8_any : forall f b, EepromTool.utf8 f b = true -> EepromTool.is_utf8 b = true.
Proof.
  unfold EepromTool.is_utf8. induction f as [f IHf] using (well_founded_induction Wf_nat.lt_wf).
  intros b H. destruct f as [|f]; [discriminate|].
  assert (I : forall x n, EepromTool.utf8 f x = true -> (length x < n)%nat -> EepromTool.utf8 n x = true).
  { intros x n Hx Hn. eapply utf8_more; [apply (IHf f); [lia|exact Hx]|lia]. }
  cbn [EepromTool.utf8] in *. destruct b as [|c t]; auto.
  destruct ((0 <=? c) && (c <=? 127)); [apply I; cbn [length] in *; auto; lia|].
  destruct t as [|c1 t1]; auto. cbn [length]. destruct ((194 <=? c) && (c <=? 223)).
  { apply andb_true_iff in H. destruct H. apply andb_true_iff. split; [assumption|apply I; [assumption|cbn [length]; lia]]. }
  destruct t1 as [|c2 t2]; auto. cbn [length]. destruct ((224 <=? c) && (c <=? 239)).
  { apply andb_true_iff in H. destruct H. apply andb_true_iff. split; [assumption|apply I; [assumption|cbn [length]; lia]]. }
  destruct t2 as [|c3 t3]; auto. cbn [length]. apply andb_true_iff in H. destruct H. apply andb_true_iff. split; [assumption|apply I; [assumption|cbn [length]; lia]].
Qed.
Lemma utf8_app_fuel : forall f a b, EepromTool.utf8 f a = true -> EepromTool.is_utf8 b = true ->
  EepromTool.utf8 (f + S (length b)) (a ++ b) = true.
Proof.
  induction f as [|f IH]; intros a b Ha Hb; [discriminate|]. cbn [Nat.add].
  cbn [EepromTool.utf8] in *. destruct a as [|c t]; cbn [app].
  { eapply utf8_more with (g := S (f + S (length b))) in Hb; [|lia]. exact Hb. }
  destruct ((0 <=? c) && (c <=? 127)); auto.
  destruct t as [|c1 t1]; [discriminate|]. cbn [app]. destruct ((194 <=? c) && (c <=? 223)).
  { apply andb_true_iff in Ha. destruct Ha. apply andb_true_iff. auto. }
  destruct t1 as [|c2 t2]; [discriminate|]. cbn [app]. destruct ((224 <=? c) && (c <=? 239)).
  { apply andb_true_iff in Ha. destruct Ha. apply andb_true_iff. auto. }
  destruct t2 as [|c3 t3]; [discriminate|]. cbn [app]. apply andb_true_iff in Ha. destruct Ha. apply andb_true_iff. auto.
Qed.
Lemma utf8_app : forall a b, EepromTool.is_utf8 a = true -> EepromTool.is_utf8 b = true ->
  EepromTool.is_utf8 (a ++ b) = true.
Proof. intros a b Ha Hb. eapply utf8_any, utf8_app_fuel; eauto. Qed.
Lemma utf8_ascii : forall a, Forall (fun c => 0 <= c <= 127) a -> EepromTool.is_utf8 a = true.
Proof.
  unfold EepromTool.is_utf8. induction a as [|c t IH]; intros H; auto. inv H. cbn [length].
  remember (S (length t)) as n. cbn [EepromTool.utf8].
  replace ((0 <=? c) && (c <=? 127)) with true; [auto|]. symmetry. apply andb_true_iff. split; apply Z.leb_le; lia.
Qed.
Lemma utf8_cons : forall c a, 0 <= c <= 127 -> EepromTool.is_utf8 a = true -> EepromTool.is_utf8 (c :: a) = true.
Proof. intros c a H Ha. apply (utf8_app [c] a); auto. apply utf8_ascii. repeat constructor; lia. Qed.

(** ** Pieces *)
Lemma quotable_app : forall a b, quotable a = true -> quotable b = true -> quotable (a ++ b) = true.
Proof.
  unfold quotable. intros a b Ha Hb. apply andb_true_iff in Ha, Hb. destruct Ha, Hb.
  apply andb_true_iff. split; [rewrite forallb_app; apply andb_true_iff; auto|apply utf8_app; auto].
Qed.
Lemma string_rest_plain : forall s r, forallb (fun c => (32 <=? c) && negb (c =? 34) && negb (c =? 92)) s = true ->
  string_rest (s ++ 34 :: r) = Some (s, r).
Proof.
  induction s as [|c t IH]; intros r H; [reflexivity|]. cbn [forallb app] in *.
  apply andb_true_iff in H. destruct H as [H Ht]. apply andb_true_iff in H. destruct H as [H H92].
  apply andb_true_iff in H. destruct H as [H32 H34]. apply Z.leb_le in H32. apply negb_true_iff in H34, H92.
  cbn [string_rest]. rewrite H34, H92. replace (c <? 32) with false by (symmetry; apply Z.ltb_ge; lia).
  rewrite IH; auto.
Qed.
Lemma string_quoted : forall s r, quotable s = true -> string_rest (s ++ 34 :: r) = Some (s, r).
Proof. intros s r H. unfold quotable in H. apply andb_true_iff in H. apply string_rest_plain, H. Qed.

(** What may follow a number without being taken as part of it. *)
Definition stops_number (r : list Z) : Prop :=
  match r with
  | [] => True
  | c :: _ => isdigit c = false /\ c <> 46 /\ c <> 101 /\ c <> 69
  end.
Lemma digits_app : forall s d r x, digits s = (d, r) -> (r <> [] \/ match x with [] => True | c :: _ => isdigit c = false end) ->
  digits (s ++ x) = (d, r ++ x).
Proof.
  induction s as [|c t IH]; intros d r x H K; cbn [app].
  - cbn [digits] in H. inv H. destruct K as [K|K]; [congruence|]. destruct x as [|c x]; auto. cbn [digits app]. now rewrite K.
  - cbn [digits] in *. destruct (isdigit c) eqn:Ec.
    + destruct (digits t) as [d' r'] eqn:E. inv H. rewrite (IH d' r x); auto.
    + inv H. auto.
Qed.
Lemma stops_digit : forall x, stops_number x -> match x with [] => True | c :: _ => isdigit c = false end.
Proof. intros [|c x] H; auto. apply H. Qed.
Lemma int_app : forall s i r x, int_part s = Some (i, r) -> stops_number x -> int_part (s ++ x) = Some (i, r ++ x).
Proof.
  unfold int_part. intros s i r x H K. destruct (digits s) as [d r'] eqn:E.
  rewrite (digits_app _ _ _ x E); [|right; apply stops_digit; auto].
  destruct d as [|c d]; [discriminate|]. destruct ((c =? 48) && negb (Nat.eqb (length d) 0)); [discriminate|]. inv H. auto.
Qed.
Lemma frac_app : forall s i r x, frac_part s = Some (i, r) -> stops_number x -> frac_part (s ++ x) = Some (i, r ++ x).
Proof.
  unfold frac_part. intros s i r x H K. destruct s as [|c t].
  - inv H. destruct x as [|c x]; auto. cbn [app]. destruct K as (_ & K & _).
    destruct c as [|p|p]; auto. do 6 (destruct p as [p|p|]; auto). congruence.
  - cbn [app]. assert (D : c = 46 \/ c <> 46) by lia. destruct D as [->|D].
    + destruct (digits t) as [d r'] eqn:E. rewrite (digits_app _ _ _ x E); [|right; apply stops_digit; auto].
      destruct d; [discriminate|]. inv H. auto.
    + destruct c as [|p|p]; try (inv H; reflexivity).
      do 6 (destruct p as [p|p|]; try (inv H; reflexivity)). congruence.
Qed.
Lemma exp_app : forall s i r x, exp_part s = Some (i, r) -> stops_number x -> exp_part (s ++ x) = Some (i, r ++ x).
Proof.
  unfold exp_part. intros s i r x H K. destruct s as [|c t].
  - inv H. cbn [app]. destruct x as [|c x]; auto. destruct K as (_ & _ & K1 & K2).
    replace (c =? 101) with false by (symmetry; apply Z.eqb_neq; auto).
    replace (c =? 69) with false by (symmetry; apply Z.eqb_neq; auto). auto.
  - cbn [app]. destruct ((c =? 101) || (c =? 69)); [|inv H; reflexivity].
    destruct t as [|y t]; cbn [app].
    + cbn [digits] in H. discriminate.
    + destruct ((y =? 43) || (y =? 45)).
      * destruct (digits t) as [d r'] eqn:E. rewrite (digits_app _ _ _ x E); [|right; apply stops_digit; auto].
        destruct d; [discriminate|]. inv H. auto.
      * destruct (digits (y :: t)) as [d r'] eqn:E.
        rewrite app_comm_cons, (digits_app _ _ _ x E); [|right; apply stops_digit; auto].
        destruct d; [discriminate|]. inv H. auto.
Qed.
Lemma number_app : forall s n r x, number s = Some (n, r) -> stops_number x -> number (s ++ x) = Some (n, r ++ x).
Proof.
  unfold number. intros s n r x H K.
  assert (G : forall sg s1, ('(i, s2) <- int_part s1 ;; '(f, s3) <- frac_part s2 ;; '(e, s4) <- exp_part s3 ;; Some (sg ++ i ++ f ++ e, s4)) = Some (n, r) ->
    ('(i, s2) <- int_part (s1 ++ x) ;; '(f, s3) <- frac_part s2 ;; '(e, s4) <- exp_part s3 ;; Some (sg ++ i ++ f ++ e, s4)) = Some (n, r ++ x)).
  { intros sg s1 G. destruct (int_part s1) as [[i s2]|] eqn:E1; [|discriminate]. rewrite (int_app _ _ _ x E1 K).
    destruct (frac_part s2) as [[f s3]|] eqn:E2; [|discriminate]. rewrite (frac_app _ _ _ x E2 K).
    destruct (exp_part s3) as [[e s4]|] eqn:E3; [|discriminate]. rewrite (exp_app _ _ _ x E3 K). inv G. auto. }
  destruct s as [|c t].
  - discriminate.
  - cbn [app]. assert (D : c = 45 \/ c <> 45) by lia. destruct D as [->|D].
    + apply (G [45]); auto.
    + assert (E : forall z : list Z, match c :: z with 45 :: t0 => ([45], t0) | _ => ([], c :: z) end = ([], c :: z)).
      { intros z. destruct c as [|p|p]; auto. do 6 (destruct p as [p|p|]; auto). congruence. }
      rewrite E in H |- *. rewrite app_comm_cons. apply (G []); auto.
Qed.
Lemma plain_number_spec : forall n, plain_number n = true -> number n = Some (n, []).
Proof.
  unfold plain_number. intros n H. destruct (number n) as [[m r]|]; [|discriminate].
  apply andb_true_iff in H. destruct H as [H1 H2]. apply beq_eq in H1. apply Nat.eqb_eq in H2.
  destruct r; [|discriminate]. congruence.
Qed.
(** A number starts with a digit or a minus sign. *)
Lemma number_head : forall n r m, number n = Some (m, r) -> exists c t, n = c :: t /\ (isdigit c = true \/ c = 45).
Proof.
  intros n r m H. destruct n as [|c t]; [discriminate|]. exists c, t. split; auto.
  assert (D : c = 45 \/ c <> 45) by lia. destruct D as [D|D]; auto. left.
  destruct (isdigit c) eqn:E; auto. unfold number in H.
  assert (F : match c :: t with 45 :: t0 => ([45], t0) | _ => ([], c :: t) end = ([], c :: t)).
  { destruct c as [|p|p]; auto. do 6 (destruct p as [p|p|]; auto). congruence. }
  rewrite F in H. unfold int_part in H. cbn [digits] in H. rewrite E in H. discriminate.
Qed.

Lemma ws_cons : forall c t, is_ws c = false -> ws (c :: t) = c :: t.
Proof. intros c t H. cbn [ws]. now rewrite H. Qed.

(** First character of a printed value: never white space, never a closing bracket. *)
Lemma print_head : forall j, printable j = true -> exists c t, print j = c :: t /\ is_ws c = false /\ c <> 125 /\ c <> 93.
Proof.
  intros [ | b | n | s | vs | ms ] H; cbn [print printable] in *.
  - exists 110, (str "ull"). repeat split; auto; lia.
  - destruct b; [exists 116, (str "rue")|exists 102, (str "alse")]; repeat split; auto; lia.
  - apply plain_number_spec in H. apply number_head in H. destruct H as (c & t & -> & H). exists c, t. split; auto.
    destruct H as [H| ->]; [|repeat split; auto; lia]. unfold isdigit in H. apply andb_true_iff in H. destruct H as [H1 H2].
    apply Z.leb_le in H1, H2. split; [|lia]. unfold is_ws. repeat (rewrite (proj2 (Z.eqb_neq _ _)) by lia). auto.
  - exists 34. eexists. repeat split; try lia; auto.
  - exists 91. eexists. repeat split; try lia; auto.
  - exists 123. eexists. repeat split; try lia; auto.
Qed.

Definition parses (j : json) : Prop := printable j = true ->
  forall fuel r, (jsize j <= fuel)%nat -> stops_number r -> value fuel (print j ++ r) = Some (j, r).

Lemma comma_stops : forall t, stops_number (44 :: t).
Proof. intros. repeat split; lia. Qed.
Lemma brace_stops : forall t, stops_number (125 :: t).
Proof. intros. repeat split; lia. Qed.
Lemma bracket_stops : forall t, stops_number (93 :: t).
Proof. intros. repeat split; lia. Qed.

Lemma sep_by_cons : forall sep x y l, sep_by sep (x :: y :: l) = x ++ sep ++ sep_by sep (y :: l).
Proof. reflexivity. Qed.

Lemma members_parse : forall ms, ms <> [] -> Forall (fun m => parses (snd m)) ms ->
  forallb (fun m => quotable (fst m) && printable (snd m)) ms = true ->
  forall fuel r, (list_sum (map (fun m => S (jsize (snd m))) ms) <= fuel)%nat ->
  members fuel (sep_by [44] (map (fun m => quoted (fst m) ++ 58 :: print (snd m)) ms) ++ 125 :: r) = Some (ms, r).
Proof.
  induction ms as [|[k v] ms IH]; intros N P H fuel r F; [congruence|].
  pose proof (Forall_inv P) as P1. pose proof (Forall_inv_tail P) as P2. cbn [snd] in P1. cbn [forallb fst snd] in *. apply andb_true_iff in H. destruct H as [H Hms]. apply andb_true_iff in H. destruct H as [Hk Hv].
  cbn [map list_sum fold_right fst snd] in F. destruct fuel as [|f]; [lia|].
  destruct ms as [|m ms].
  - cbn [map sep_by fst snd]. unfold quoted. rewrite <- !app_assoc. cbn [app members]. rewrite ws_cons by reflexivity.
    rewrite <- !app_assoc. cbn [app]. rewrite string_quoted by auto. rewrite ws_cons by reflexivity.
    rewrite (P1 Hv f (125 :: r)); [|cbn [map list_sum fold_right] in F; lia|apply brace_stops]. now rewrite ws_cons by reflexivity.
  - change (map (fun m0 : list Z * json => quoted (fst m0) ++ 58 :: print (snd m0)) ((k, v) :: m :: ms)) with
      ((quoted k ++ 58 :: print v) :: (quoted (fst m) ++ 58 :: print (snd m)) ::
       map (fun m0 : list Z * json => quoted (fst m0) ++ 58 :: print (snd m0)) ms).
    rewrite sep_by_cons. unfold quoted at 1. rewrite <- !app_assoc. cbn [app members]. rewrite ws_cons by reflexivity.
    rewrite <- !app_assoc. cbn [app]. rewrite string_quoted by auto. rewrite ws_cons by reflexivity.
    rewrite (P1 Hv f); [|cbn [map list_sum fold_right] in F; lia|apply comma_stops]. rewrite ws_cons by reflexivity.
    specialize (IH ltac:(discriminate) P2 Hms f r). cbn [map app] in IH.
    cbn [app] in IH |- *. rewrite IH; [reflexivity|]. cbn [map list_sum fold_right] in *. lia.
Qed.

Lemma items_parse : forall vs, vs <> [] -> Forall parses vs -> forallb printable vs = true ->
  forall fuel r, (list_sum (map (fun v => S (jsize v)) vs) <= fuel)%nat ->
  items fuel (sep_by [44] (map print vs) ++ 93 :: r) = Some (vs, r).
Proof.
  induction vs as [|v vs IH]; intros N P H fuel r F; [congruence|].
  pose proof (Forall_inv P) as P1. pose proof (Forall_inv_tail P) as P2. cbn [snd] in P1. cbn [forallb] in *. apply andb_true_iff in H. destruct H as [Hv Hvs].
  cbn [map list_sum fold_right] in F. destruct fuel as [|f]; [lia|].
  destruct vs as [|w vs].
  - cbn [map sep_by items]. rewrite (P1 Hv f (93 :: r)); [|cbn [map list_sum fold_right] in F; lia|apply bracket_stops].
    now rewrite ws_cons by reflexivity.
  - change (map print (v :: w :: vs)) with (print v :: print w :: map print vs). rewrite sep_by_cons, <- !app_assoc.
    cbn [app items]. rewrite (P1 Hv f); [|cbn [map list_sum fold_right] in F; lia|apply comma_stops]. rewrite ws_cons by reflexivity.
    specialize (IH ltac:(discriminate) P2 Hvs f r). cbn [map] in IH. rewrite IH; [reflexivity|].
    cbn [map list_sum fold_right] in *. lia.
Qed.

Lemma value_str : forall f t, value (S f) (34 :: t) = ('(x, r) <- string_rest t ;; Some (JStr x, r)).
Proof. reflexivity. Qed.
Lemma value_arr : forall f t, value (S f) (91 :: t) =
  match ws t with 93 :: r => Some (JArr [], r) | _ => '(vs, r) <- items f t ;; Some (JArr vs, r) end.
Proof. reflexivity. Qed.
Lemma value_obj : forall f t, value (S f) (123 :: t) =
  match ws t with 125 :: r => Some (JObj [], r) | _ => '(ms, r) <- members f t ;; Some (JObj ms, r) end.
Proof. reflexivity. Qed.

Lemma value_print : forall j, parses j.
Proof.
  apply json_ind'; unfold parses.
  - intros _ fuel r F _. destruct fuel as [|f]; [cbn [jsize] in F; lia|]. reflexivity.
  - intros b _ fuel r F _. destruct fuel as [|f]; [cbn [jsize] in F; lia|]. destruct b; reflexivity.
  - intros n H fuel r F S. destruct fuel as [|f]; [cbn [jsize] in F; lia|]. cbn [print printable] in *.
    apply plain_number_spec in H. pose proof (number_app _ _ _ _ H S) as E. cbn [app] in E.
    destruct (number_head _ _ _ H) as (c & t & -> & D). cbn [app] in *. cbn [value].
    assert (W : is_ws c = false /\ c <> 123 /\ c <> 91 /\ c <> 34 /\ c <> 116 /\ c <> 102 /\ c <> 110).
    { destruct D as [D|D]; [|subst c; repeat split; lia]. unfold isdigit in D. apply andb_true_iff in D. destruct D as [D1 D2].
      apply Z.leb_le in D1, D2. split; [|lia]. unfold is_ws. repeat (rewrite (proj2 (Z.eqb_neq _ _)) by lia). auto. }
    destruct W as (W & W1 & W2 & W3 & W4 & W5 & W6). rewrite ws_cons by auto.
    repeat (rewrite (proj2 (Z.eqb_neq _ _)) by assumption). now rewrite E.
  - intros s H fuel r F S. destruct fuel as [|f]; [cbn [jsize] in F; lia|]. cbn [print printable quoted] in *.
    unfold quoted. cbn [app]. rewrite value_str. rewrite <- app_assoc. cbn [app].
    now rewrite string_quoted.
  - intros vs P H fuel r F S. destruct fuel as [|f]; [cbn [jsize] in F; lia|]. cbn [print printable jsize] in *.
    rewrite <- app_comm_cons, value_arr. rewrite <- app_assoc. cbn [app].
    destruct vs as [|v vs]; [reflexivity|].
    assert (E : exists c t, sep_by [44] (map print (v :: vs)) ++ 93 :: r = c :: t /\ is_ws c = false /\ c <> 93).
    { cbn [forallb] in H. apply andb_true_iff in H. destruct (print_head v (proj1 H)) as (c & t & E & W & _ & N).
      exists c. cbn [map sep_by]. rewrite E. destruct (map print vs); eexists; repeat split; eauto. }
    destruct E as (c & t & E & W & N).
    assert (I := items_parse (v :: vs) ltac:(discriminate) P H f r ltac:(lia)).
    rewrite E in I |- *. rewrite ws_cons by auto.
    assert (X : match c :: t with 93 :: r0 => Some (JArr [], r0) | _ => '(vs0, r0) <- items f (c :: t) ;; Some (JArr vs0, r0) end
      = ('(vs0, r0) <- items f (c :: t) ;; Some (JArr vs0, r0))).
    { destruct c as [|p|p]; auto. do 7 (destruct p as [p|p|]; auto). congruence. }
    rewrite X, I. reflexivity.
  - intros ms P H fuel r F S. destruct fuel as [|f]; [cbn [jsize] in F; lia|]. cbn [print printable jsize] in *.
    rewrite <- app_comm_cons, value_obj. rewrite <- app_assoc. cbn [app].
    destruct ms as [|m ms]; [reflexivity|].
    assert (E : exists t, sep_by [44] (map (fun m => quoted (fst m) ++ 58 :: print (snd m)) (m :: ms)) ++ 125 :: r = 34 :: t).
    { cbn [map sep_by quoted]. destruct (map _ ms); eexists; cbn [app]; reflexivity. }
    destruct E as (t & E).
    assert (I := members_parse (m :: ms) ltac:(discriminate) P H f r ltac:(lia)).
    rewrite E in I |- *. rewrite ws_cons by reflexivity. now rewrite I.
Qed.

Lemma is_utf8_sep : forall l, forallb EepromTool.is_utf8 l = true -> EepromTool.is_utf8 (sep_by [44] l) = true.
Proof.
  induction l as [|x l IH]; intros H; auto. cbn [forallb] in H. apply andb_true_iff in H. destruct H.
  destruct l; auto. rewrite sep_by_cons. apply utf8_app; [assumption|]. cbn [app]. apply utf8_cons; [lia|auto].
Qed.
Lemma digits_ascii : forall s d r, digits s = (d, r) -> Forall (fun c => 0 <= c <= 127) d.
Proof.
  induction s as [|c t IH]; intros d r H; cbn [digits] in H; [inv H; constructor|].
  destruct (isdigit c) eqn:E; [|inv H; constructor]. destruct (digits t) eqn:E'. inv H. constructor; eauto.
  unfold isdigit in E. apply andb_true_iff in E. destruct E as [E1 E2]. apply Z.leb_le in E1, E2. lia.
Qed.
Lemma number_ascii : forall s n r, number s = Some (n, r) -> Forall (fun c => 0 <= c <= 127) n.
Proof.
  intros s n r H. unfold number in H.
  assert (G : forall sg s1, Forall (fun c => 0 <= c <= 127) sg ->
    ('(i, s2) <- int_part s1 ;; '(f, s3) <- frac_part s2 ;; '(e, s4) <- exp_part s3 ;; Some (sg ++ i ++ f ++ e, s4)) = Some (n, r) ->
    Forall (fun c => 0 <= c <= 127) n).
  { intros sg s1 Hsg G. unfold int_part in G. destruct (digits s1) as [d1 r1] eqn:E1. apply digits_ascii in E1.
    destruct d1 as [|c d1]; [discriminate|]. destruct ((c =? 48) && negb (Nat.eqb (length d1) 0)); [discriminate|].
    assert (F : forall f s3, frac_part r1 = Some (f, s3) -> Forall (fun c => 0 <= c <= 127) f).
    { unfold frac_part. intros f s3 F. destruct r1 as [|x r1]; [inv F; constructor|].
      assert (D : x = 46 \/ x <> 46) by lia. destruct D as [->|D].
      - destruct (digits r1) eqn:E2. apply digits_ascii in E2. destruct l; [discriminate|]. inv F. constructor; auto; lia.
      - destruct x as [|p|p]; try (inv F; constructor). do 6 (destruct p as [p|p|]; try (inv F; constructor)). congruence. }
    destruct (frac_part r1) as [[f s3]|] eqn:E2; [|discriminate]. specialize (F _ _ eq_refl).
    assert (K : forall e s4, exp_part s3 = Some (e, s4) -> Forall (fun c => 0 <= c <= 127) e).
    { unfold exp_part. intros e s4 K. destruct s3 as [|x s3]; [inv K; constructor|].
      destruct ((x =? 101) || (x =? 69)) eqn:D; [|inv K; constructor]. apply orb_true_iff in D. rewrite !Z.eqb_eq in D.
      assert (Hx : 0 <= x <= 127) by lia.
      destruct s3 as [|y s3]; [discriminate|]. destruct ((y =? 43) || (y =? 45)) eqn:D'.
      - apply orb_true_iff in D'. rewrite !Z.eqb_eq in D'. destruct (digits s3) eqn:E3. apply digits_ascii in E3.
        destruct l; [discriminate|]. inv K. constructor; auto. constructor; auto; lia.
      - destruct (digits (y :: s3)) eqn:E3. apply digits_ascii in E3. destruct l; [discriminate|]. inv K. constructor; auto. }
    destruct (exp_part s3) as [[e s4]|] eqn:E3; [|discriminate]. specialize (K _ _ eq_refl). inv G.
    apply Forall_app; split; [assumption|]. apply (Forall_app _ (c :: d1)). split; [assumption|]. apply Forall_app; split; assumption. }
  destruct s as [|c t]; [discriminate|]. assert (D : c = 45 \/ c <> 45) by lia. destruct D as [->|D].
  - eapply (G [45]); eauto. repeat constructor; lia.
  - assert (F : match c :: t with 45 :: t0 => ([45], t0) | _ => ([], c :: t) end = ([], c :: t)).
    { destruct c as [|p|p]; auto. do 6 (destruct p as [p|p|]; auto). congruence. }
    rewrite F in H. eapply (G []); eauto.
Qed.
Lemma quoted_utf8 : forall s, quotable s = true -> EepromTool.is_utf8 (quoted s) = true.
Proof.
  intros s H. unfold quotable in H. apply andb_true_iff in H. unfold quoted. apply utf8_cons; [lia|].
  apply utf8_app; [apply H|reflexivity].
Qed.
Lemma print_utf8 : forall j, printable j = true -> EepromTool.is_utf8 (print j) = true.
Proof.
  apply (json_ind' (fun j => printable j = true -> EepromTool.is_utf8 (print j) = true)); cbn [print printable]; intros.
  - reflexivity.
  - destruct b; reflexivity.
  - apply plain_number_spec, number_ascii in H. apply utf8_ascii; auto.
  - apply quoted_utf8; auto.
  - apply utf8_cons; [lia|]. apply utf8_app; [|reflexivity]. apply is_utf8_sep. rewrite forallb_forall in *.
    intros x I. apply in_map_iff in I. destruct I as (v & <- & I). rewrite Forall_forall in H. auto.
  - apply utf8_cons; [lia|]. apply utf8_app; [|reflexivity]. apply is_utf8_sep. rewrite forallb_forall in *.
    intros x I. apply in_map_iff in I. destruct I as (v & <- & I). rewrite Forall_forall in H.
    specialize (H0 _ I). apply andb_true_iff in H0. destruct H0.
    apply utf8_app; [apply quoted_utf8; auto|]. cbn [app]. apply utf8_cons; [lia|]. auto.
Qed.

Definition commas : list (list Z) -> list Z := sep_by [44].
Lemma commas_cons : forall x y l, commas (x :: y :: l) = x ++ [44] ++ commas (y :: l).
Proof. reflexivity. Qed.
Lemma jsize_print : forall j, printable j = true -> (jsize j <= length (print j))%nat.
Proof.
  apply (json_ind' (fun j => printable j = true -> (jsize j <= length (print j))%nat)); cbn [print printable jsize]; fold commas; intros.
  - cbn. lia.
  - destruct b; cbn; lia.
  - apply plain_number_spec, number_head in H. destruct H as (c & t & -> & _). cbn [length]. lia.
  - unfold quoted. cbn [length]. lia.
  - change (sep_by [44]) with commas. cbn [length]. rewrite app_length. cbn [length].
    enough (list_sum (map (fun v => S (jsize v)) vs) <= S (length (commas (map print vs))))%nat by lia.
    induction vs as [|v vs IH]; [cbn; lia|]. inv H. cbn [forallb] in H0. apply andb_true_iff in H0. destruct H0 as [Hv Hvs].
    specialize (IH H4 Hvs). specialize (H3 Hv). destruct vs as [|w vs].
    + cbn [map list_sum fold_right]. unfold commas. cbn [sep_by]. lia.
    + change (map print (v :: w :: vs)) with (print v :: print w :: map print vs). rewrite commas_cons, !app_length.
      change (print w :: map print vs) with (map print (w :: vs)).
      change (map (fun v0 => S (jsize v0)) (v :: w :: vs)) with (S (jsize v) :: map (fun v0 => S (jsize v0)) (w :: vs)).
      change (list_sum (S (jsize v) :: map (fun v0 => S (jsize v0)) (w :: vs)))
        with (S (jsize v) + list_sum (map (fun v0 => S (jsize v0)) (w :: vs)))%nat. cbn [length]. lia.
  - change (sep_by [44]) with commas. cbn [length]. rewrite app_length. cbn [length].
    enough (list_sum (map (fun m => S (jsize (snd m))) ms) <= S (length (commas (map (fun m => quoted (fst m) ++ (58 :: print (snd m))%Z) ms))))%nat by lia.
    induction ms as [|v vs IH]; [cbn; lia|]. inv H. cbn [forallb] in H0. apply andb_true_iff in H0. destruct H0 as [Hv Hvs].
    apply andb_true_iff in Hv. destruct Hv as [_ Hv].
    specialize (IH H4 Hvs). specialize (H3 Hv). destruct vs as [|w vs].
    + cbn [map list_sum fold_right]. unfold commas. cbn [sep_by]. rewrite !app_length. cbn [length]. lia.
    + change (map (fun m => quoted (fst m) ++ 58 :: print (snd m)) (v :: w :: vs)) with
        ((quoted (fst v) ++ 58 :: print (snd v)) :: (quoted (fst w) ++ 58 :: print (snd w)) :: map (fun m => quoted (fst m) ++ 58 :: print (snd m)) vs).
      rewrite commas_cons, !app_length.
      change ((quoted (fst w) ++ 58 :: print (snd w)) :: map (fun m => quoted (fst m) ++ 58 :: print (snd m)) vs) with
        (map (fun m => quoted (fst m) ++ 58 :: print (snd m)) (w :: vs)).
      change (list_sum (map (fun m => S (jsize (snd m))) (v :: w :: vs)))
        with (S (jsize (snd v)) + list_sum (map (fun m => S (jsize (snd m))) (w :: vs)))%nat. cbn [length]. lia.
Qed.

(** The main fact. *)
Theorem json_print : forall j, printable j = true -> json_of (print j) = Some j.
Proof.
  intros j H. unfold json_of. rewrite print_utf8 by auto.
  rewrite <- (app_nil_r (print j)) at 2. rewrite (value_print j H); [reflexivity| |exact I].
  pose proof (jsize_print j H). lia.
Qed.
