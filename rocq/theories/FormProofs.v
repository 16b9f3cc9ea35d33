(** Proofs about the settings page: encoding of the request, filling of the form. *)
From Coq Require Import ZArith List Bool Lia ZifyBool ZifyNat.
From Verif Require Import Base BaseFacts Config ConfigSpec Json JsonFacts JsonBuildFacts PagesSpec ToolSpec ConfigProofs ConfigMain ConfigHist
  ToolProofs Pages PagesProofs PagesSamples Form FormSpec.
Import ListNotations.
Open Scope Z_scope.

(** ** The request *)
Lemma hexd_val : forall d, 0 <= d < 16 -> hexval (hexd d) = Some d.
Proof.
  intros d H. unfold hexval, Json.hex, hexd, isdigit. destruct (d <? 10) eqn:E.
  - replace ((48 <=? 48 + d) && (48 + d <=? 57)) with true by lia. f_equal. lia.
  - replace ((48 <=? 55 + d) && (55 + d <=? 57)) with false by lia.
    replace ((65 <=? 55 + d) && (55 + d <=? 70)) with true by lia. f_equal. lia.
Qed.
Lemma hexd_not : forall d, 0 <= d < 16 -> hexd d <> 37 /\ hexd d <> 38 /\ hexd d <> 59 /\ hexd d <> 61.
Proof. intros d H. unfold hexd. destruct (d <? 10) eqn:E; lia. Qed.
Lemma unreserved_not : forall c, unreserved c = true -> c <> 37 /\ c <> 38 /\ c <> 43 /\ c <> 59 /\ c <> 61 /\ c <> 32.
Proof.
  intros c H. repeat split; intro; subst c; vm_compute in H; discriminate.
Qed.

(** A text as it is found in the request. *)
Fixpoint coded (s : list Z) : list Z :=
  match s with
  | [] => []
  | c :: t => (if unreserved c then [c] else if c =? 32 then [43] else [37; hexd (c / 16); hexd (c mod 16)]) ++ coded t
  end.
Lemma plus_other : forall c t, c <> 37 -> plus_for_space (c :: t) = c :: plus_for_space t.
Proof. intros c t H. cbn [plus_for_space]. replace (c =? 37) with false by lia. reflexivity. Qed.
Lemma plus_code : forall a b t, a <> 37 -> b <> 37 ->
  plus_for_space (37 :: a :: b :: t) = (if (a =? 50) && (b =? 48) then [43] else [37; a; b]) ++ plus_for_space t.
Proof.
  intros a b t A B. assert (E : plus_for_space (37 :: a :: b :: t) =
    if (a =? 50) && (b =? 48) then 43 :: plus_for_space t else 37 :: plus_for_space (a :: b :: t)) by reflexivity.
  rewrite E. destruct ((a =? 50) && (b =? 48)); [reflexivity|]. rewrite !plus_other by auto. reflexivity.
Qed.
Lemma plus_encode : forall s R, bytes s -> plus_for_space (encode s ++ R) = coded s ++ plus_for_space R.
Proof.
  induction s as [|c t IH]; intros R B; [reflexivity|]. inv B. cbn [encode coded].
  destruct (unreserved c) eqn:U.
  - cbn [app]. rewrite plus_other by (apply unreserved_not in U; tauto). rewrite IH by auto. reflexivity.
  - cbn [app]. unfold is_byte in H1.
    assert (D1 : 0 <= c / 16 < 16) by (split; [apply Z.div_pos; lia|apply Z.div_lt_upper_bound; lia]).
    assert (D2 : 0 <= c mod 16 < 16) by (apply Z.mod_pos_bound; lia).
    rewrite plus_code by (apply hexd_not; auto). rewrite IH by auto. rewrite app_assoc. f_equal.
    replace ((hexd (c / 16) =? 50) && (hexd (c mod 16) =? 48)) with (c =? 32).
    { destruct (c =? 32) eqn:E; reflexivity. }
    assert (Q := Z.div_mod c 16). unfold hexd. destruct (c / 16 <? 10) eqn:A1, (c mod 16 <? 10) eqn:A2; lia.
Qed.
Lemma decode_coded : forall s, bytes s -> url_decode (coded s) = s.
Proof.
  induction s as [|c t IH]; intros B; [reflexivity|]. inv B. cbn [coded]. destruct (unreserved c) eqn:U.
  - apply unreserved_not in U. cbn [app url_decode]. replace (c =? 37) with false by lia. replace (c =? 43) with false by lia.
    f_equal. auto.
  - destruct (c =? 32) eqn:E.
    + cbn [app url_decode]. change (43 =? 37) with false. change (43 =? 43) with true. cbn iota. replace 32 with c by lia. f_equal. auto.
    + unfold is_byte in H1.
      assert (D1 : 0 <= c / 16 < 16) by (split; [apply Z.div_pos; lia|apply Z.div_lt_upper_bound; lia]).
      assert (D2 : 0 <= c mod 16 < 16) by (apply Z.mod_pos_bound; lia).
      assert (X : url_decode ([37; hexd (c / 16); hexd (c mod 16)] ++ coded t) =
                  strtol16 (hexd (c / 16)) (hexd (c mod 16)) :: url_decode (coded t)) by reflexivity.
      rewrite X, IH by auto. f_equal. unfold strtol16. rewrite !hexd_val by auto. assert (Q := Z.div_mod c 16). lia.
Qed.
Definition clean (c : Z) : Prop := c <> 38 /\ c <> 59 /\ c <> 61.
Lemma coded_clean : forall s, bytes s -> Forall clean (coded s).
Proof.
  induction s as [|c t IH]; intros B; [constructor|]. inv B. cbn [coded]. apply Forall_app. split; [|auto].
  unfold is_byte in H1.
  assert (D1 : 0 <= c / 16 < 16) by (split; [apply Z.div_pos; lia|apply Z.div_lt_upper_bound; lia]).
  assert (D2 : 0 <= c mod 16 < 16) by (apply Z.mod_pos_bound; lia).
  apply hexd_not in D1. apply hexd_not in D2.
  destruct (unreserved c) eqn:U; [apply unreserved_not in U; constructor; [unfold clean; tauto|constructor]|].
  destruct (c =? 32); [constructor; [unfold clean; lia|constructor]|].
  constructor; [unfold clean; lia|]. constructor; [unfold clean; tauto|]. constructor; [unfold clean; tauto|constructor].
Qed.
Lemma coded_nil : forall s, s <> [] -> coded s <> [].
Proof.
  intros [|c t] H; [congruence|]. cbn [coded]. destruct (unreserved c); [discriminate|]. destruct (c =? 32); discriminate.
Qed.
Lemma until_stop : forall sep a c r, Forall (fun x => sep x = false) a -> sep c = true -> until sep (a ++ c :: r) = (a, Some r).
Proof.
  induction a as [|x a IH]; intros c r F C; cbn [app until]; [rewrite C; reflexivity|]. inv F. rewrite H1, IH by auto. reflexivity.
Qed.
Lemma until_none : forall sep a, Forall (fun x => sep x = false) a -> until sep a = (a, None).
Proof. induction a as [|x a IH]; intros F; [reflexivity|]. inv F. cbn [until]. rewrite H1, IH by auto. reflexivity. Qed.

Definition pair_text (p : list Z * list Z) : list Z := coded (fst p) ++ [61] ++ coded (snd p).
Lemma param_text : forall f, form_bytes f -> param f = joined (map pair_text f).
Proof.
  unfold param. induction f as [|[n v] f IH]; intros B; [reflexivity|]. inv B. cbn [fst snd] in *. destruct H1 as (Bn & Bv).
  specialize (IH H2). destruct f as [|q f].
  - cbn [map joined fst snd]. rewrite plus_encode by auto. unfold pair_text. cbn [fst snd app]. f_equal.
    rewrite plus_other by lia. f_equal. rewrite <- (app_nil_r (encode v)), plus_encode by auto. cbn. apply app_nil_r.
  - set (g := fun p : list Z * list Z => encode (fst p) ++ [61] ++ encode (snd p)) in *.
    cbn [map] in *. change (joined (g (n, v) :: g q :: map g f)) with (g (n, v) ++ [38] ++ joined (g q :: map g f)).
    change (joined (pair_text (n, v) :: pair_text q :: map pair_text f)) with
      (pair_text (n, v) ++ [38] ++ joined (pair_text q :: map pair_text f)).
    rewrite <- IH. unfold g at 1, pair_text at 1. cbn [fst snd]. rewrite <- !app_assoc. rewrite plus_encode by auto. f_equal.
    cbn [app]. rewrite plus_other by lia. f_equal. rewrite plus_encode by auto. reflexivity.
Qed.
Lemma one_pair : forall n v, bytes n -> bytes v -> n <> [] -> one_argument (pair_text (n, v)) = [(n, v)].
Proof.
  intros n v Bn Bv N. unfold one_argument, pair_text. cbn [fst snd app].
  rewrite until_stop by (try reflexivity; apply Forall_impl with (2 := coded_clean n Bn); intros a (_ & _ & A); lia).
  assert (X := coded_nil n N). destruct (coded n) as [|c t] eqn:E; [congruence|]. rewrite <- E, !decode_coded by auto. reflexivity.
Qed.
Lemma pair_sep : forall n v, bytes n -> bytes v -> Forall (fun c => (c =? 38) || (c =? 59) = false) (pair_text (n, v)).
Proof.
  intros n v Bn Bv. unfold pair_text. cbn [fst snd]. apply Forall_app. split; [|constructor; [reflexivity|]].
  - apply Forall_impl with (2 := coded_clean n Bn). intros a (A & B & _). lia.
  - apply Forall_impl with (2 := coded_clean v Bv). intros a (A & B & _). lia.
Qed.
Definition names_ok (f : form) : Prop := Forall (fun p => fst p <> []) f.
Lemma arguments_joined : forall f fuel, f <> [] -> form_bytes f -> names_ok f -> (List.length (joined (map pair_text f)) < fuel)%nat ->
  arguments fuel (joined (map pair_text f)) = Some f.
Proof.
  induction f as [|[n v] f IH]; intros fuel NE B N L; [congruence|]. inv B. inv N. cbn [fst snd] in *. destruct H1 as (Bn & Bv).
  destruct fuel as [|fuel]; [lia|]. destruct f as [|q f].
  - cbn [map joined arguments]. rewrite until_none by (apply pair_sep; auto). rewrite one_pair by auto. reflexivity.
  - cbn [map] in *. change (joined (pair_text (n, v) :: pair_text q :: map pair_text f)) with
      (pair_text (n, v) ++ 38 :: joined (pair_text q :: map pair_text f)) in *.
    cbn [arguments]. rewrite until_stop by (try reflexivity; apply pair_sep; auto). rewrite IH; auto; try discriminate.
    + rewrite one_pair by auto. reflexivity.
    + rewrite app_length in L. cbn [List.length] in L. lia.
Qed.
Lemma request_read : forall f, f <> [] -> form_bytes f -> names_ok f -> parse_arguments (param f) = Some f.
Proof. intros f NE B N. unfold parse_arguments. rewrite param_text by auto. apply arguments_joined; auto. Qed.
Lemma enough_fuel : forall s fuel, (List.length s < fuel)%nat -> exists f, arguments fuel s = Some f.
Proof.
  assert (U : forall sep s, match snd (until sep s) with Some t => (List.length t < List.length s)%nat | None => True end).
  { induction s as [|c t IH]; cbn [until]; [exact I|]. destruct (sep c); cbn; [lia|]. destruct (until sep t) as [a r]. cbn in *.
    destruct r; [lia|exact I]. }
  intros s fuel. revert s. induction fuel as [|fuel IH]; intros s L; [lia|]. cbn [arguments].
  assert (X := U (fun c => (c =? 38) || (c =? 59)) s). destruct (until _ s) as [a [t|]]; cbn [snd] in X; [|eauto].
  destruct (IH t) as (f & E); [lia|]. rewrite E. eauto.
Qed.
Lemma always_read : forall s, exists f, parse_arguments s = Some f.
Proof. intros s. apply enough_fuel. lia. Qed.

(** ** What the module reads *)
Fixpoint look (n : list Z) (p : page) : option (list Z) :=
  match p with
  | [] => None
  | k :: p' => if beq (k_name k) n then match sent_value k with Some v => Some v | None => look n p' end else look n p'
  end.
Lemma posted_look : forall p name, posted (sent_pairs p) name = match look (str name) p with Some v => v | None => [] end.
Proof.
  intros p name. unfold posted. induction p as [|k p IH]; [reflexivity|]. cbn [sent_pairs look].
  destruct (sent_value k) as [v|]; cbn [find fst]; destruct (beq (k_name k) (str name)); auto.
Qed.
Lemma ticked_look : forall p name, ticked (sent_pairs p) name = match look (str name) p with Some v => true | None => false end.
Proof.
  intros p name. unfold ticked. induction p as [|k p IH]; [reflexivity|]. cbn [sent_pairs look].
  destruct (sent_value k) as [v|]; cbn [existsb fst]; destruct (beq (k_name k) (str name)); auto.
Qed.
