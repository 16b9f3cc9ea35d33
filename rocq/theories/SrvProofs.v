(** The texts written by json.dumps are read back. *)
From Coq Require Import ZArith List Bool Lia ZifyBool.
From Verif Require Import Base BaseFacts Json JsonFacts JsonBuildFacts Simu Srv.
Import ListNotations.
Open Scope Z_scope.

(** ** Strings *)
Definition ascii (s : list Z) : Prop := Forall (fun c => 0 <= c < 128) s.
Lemma hex_low_read : forall d, 0 <= d < 16 -> hex (hex_low d) = Some d.
Proof.
  intros d H. unfold hex_low, hex, isdigit. destruct (d <? 10) eqn:E.
  - replace ((48 <=? 48 + d) && (48 + d <=? 57)) with true by lia. f_equal. lia.
  - replace ((48 <=? 87 + d) && (87 + d <=? 57)) with false by lia. replace ((65 <=? 87 + d) && (87 + d <=? 70)) with false by lia.
    replace ((97 <=? 87 + d) && (87 + d <=? 102)) with true by lia. f_equal. lia.
Qed.
Lemma escaped_read : forall c r, 0 <= c < 128 ->
  string_rest (escaped c ++ r) = ('(v, r') <- string_rest r ;; Some (c :: v, r')).
Proof.
  intros c r H. unfold escaped.
  destruct (c =? 34) eqn:E1; [apply Z.eqb_eq in E1; subst; reflexivity|].
  destruct (c =? 92) eqn:E2; [apply Z.eqb_eq in E2; subst; reflexivity|]. cbn [orb].
  destruct (c =? 8) eqn:E3; [apply Z.eqb_eq in E3; subst; reflexivity|].
  destruct (c =? 9) eqn:E4; [apply Z.eqb_eq in E4; subst; reflexivity|].
  destruct (c =? 10) eqn:E5; [apply Z.eqb_eq in E5; subst; reflexivity|].
  destruct (c =? 12) eqn:E6; [apply Z.eqb_eq in E6; subst; reflexivity|].
  destruct (c =? 13) eqn:E7; [apply Z.eqb_eq in E7; subst; reflexivity|].
  destruct ((32 <=? c) && (c <=? 126)) eqn:E8.
  - cbn [app string_rest]. rewrite E1, E2. replace (c <? 32) with false by lia. reflexivity.
  - cbn [app string_rest]. change (92 =? 34) with false. change (92 <? 32) with false. change (92 =? 92) with true. cbv iota.
    assert (B : forall k, 0 < k -> 0 <= c / k mod 16 < 16) by (intros k K; apply Z.mod_pos_bound; lia).
    rewrite (hex_low_read (c / 4096 mod 16)), (hex_low_read (c / 256 mod 16)), (hex_low_read (c / 16 mod 16)) by (apply B; lia).
    rewrite (hex_low_read (c mod 16)) by (apply Z.mod_pos_bound; lia).
    replace (c / 4096) with 0 by (symmetry; apply Z.div_small; lia). replace (c / 256) with 0 by (symmetry; apply Z.div_small; lia).
    change (0 mod 16) with 0. rewrite (Z.mod_small (c / 16)) by (split; [apply Z.div_pos; lia|apply Z.div_lt_upper_bound; lia]).
    replace (0 * 4096 + 0 * 256 + c / 16 * 16 + c mod 16) with c by (pose proof (Z.div_mod c 16); lia).
    unfold utf8_of. replace (c <? 128) with true by lia. reflexivity.
Qed.
Lemma string_read : forall s r, ascii s -> string_rest (flat_map escaped s ++ 34 :: r) = Some (s, r).
Proof.
  intros s r H. induction H as [|c s C _ IH]; [reflexivity|]. cbn [flat_map]. rewrite <- app_assoc, escaped_read by exact C. rewrite IH. reflexivity.
Qed.

(** ** Values, whatever white space is around *)
Definition blank_text (w : list Z) : Prop := forallb is_ws w = true.
Lemma ws_skip : forall w s, blank_text w -> ws (w ++ s) = ws s.
Proof.
  unfold blank_text. induction w as [|c w IH]; intros s H; [reflexivity|]. cbn [forallb] in H. apply andb_true_iff in H. destruct H as (C & H).
  cbn [app ws]. rewrite C. auto.
Qed.
Lemma value_ws : forall f w s, blank_text w -> value f (w ++ s) = value f s.
Proof. intros [|f] w s H; [reflexivity|]. cbn [value]. rewrite ws_skip by exact H. reflexivity. Qed.
Lemma members_ws : forall f w s, blank_text w -> members f (w ++ s) = members f s.
Proof. intros [|f] w s H; [reflexivity|]. cbn [members]. rewrite ws_skip by exact H. reflexivity. Qed.
Lemma items_ws : forall f w s, blank_text w -> items f (w ++ s) = items f s.
Proof. intros [|f] w s H; [reflexivity|]. cbn [items]. rewrite value_ws by exact H. reflexivity. Qed.
(** [t] is a text of [v], which needs [n] nested calls. *)
Definition reads (n : nat) (t : list Z) (v : json) : Prop := forall f r, (n <= f)%nat -> stops_number r -> value f (t ++ r) = Some (v, r).
Lemma reads_string : forall s, ascii s -> reads 1 (py_string s) (JStr s).
Proof.
  intros s H [|f] r F _; [lia|]. unfold py_string. rewrite <- !app_assoc. cbn [app]. rewrite value_str, string_read by exact H. reflexivity.
Qed.
Lemma reads_number : forall n, 0 <= n -> reads 1 (dec n) (JNum (dec n)).
Proof.
  intros n H f r F S. apply (value_print (JNum (dec n))); [|exact F|exact S]. apply dec_plain. exact H.
Qed.

(** ** Lists of members and of items *)
Definition member_text (p m : list Z) (x : list Z * list Z) : list Z := p ++ py_string (fst x) ++ [58] ++ m ++ snd x.
Lemma members_read : forall p m q n xs vs r, blank_text p -> blank_text m -> blank_text q -> xs <> [] ->
  Forall2 (fun x v => ascii (fst x) /\ reads n (snd x) v) xs vs -> forall f, (length xs + n <= f)%nat ->
  members f (joined [44] (map (member_text p m) xs) ++ q ++ 125 :: r) = Some (combine (map fst xs) vs, r).
Proof.
  intros p m q n xs vs r P M Q N H. induction H as [|x v xs vs (A & R) H IH]; [congruence|]. intros f F. cbn [length] in F.
  destruct f as [|f]; [lia|].
  assert (ST : forall y, blank_text q -> stops_number (q ++ 125 :: y)).
  { intros y B. destruct q as [|c q]; [exact (brace_stops y)|]. unfold blank_text in B. cbn [forallb] in B. apply andb_true_iff in B. destruct B as (B & _).
    cbn [app stops_number]. unfold is_ws in B. unfold isdigit. lia. }
  destruct xs as [|y xs].
  - inversion H; subst vs. cbn [map joined combine]. unfold member_text. rewrite <- !app_assoc, members_ws by exact P.
    unfold py_string. rewrite <- !app_assoc. cbn [app members]. change (ws (34 :: ?z)) with (34 :: z). cbv iota.
    rewrite string_read by exact A. cbn [ws]. change (is_ws 58) with false. cbv iota. rewrite value_ws by exact M.
    rewrite (R f (q ++ 125 :: r)) by (auto; lia). rewrite ws_skip by exact Q. cbn [ws]. change (is_ws 125) with false. cbv iota. reflexivity.
  - cbn [map joined combine] in *. unfold member_text at 1. rewrite <- !app_assoc, members_ws by exact P.
    unfold py_string at 1. rewrite <- !app_assoc. cbn [app members]. change (ws (34 :: ?z)) with (34 :: z). cbv iota.
    rewrite string_read by exact A. cbn [ws]. change (is_ws 58) with false. cbv iota. rewrite value_ws by exact M.
    match goal with |- context [snd x ++ 44 :: ?z] => rewrite (R f (44 :: z)) by (first [lia | apply comma_stops]) end.
    cbn [ws]. change (is_ws 44) with false. cbv iota. rewrite IH by (try discriminate; cbn [length] in *; lia). reflexivity.
Qed.
Lemma object_read : forall p m q n xs vs, blank_text p -> blank_text m -> blank_text q -> xs <> [] ->
  Forall2 (fun x v => ascii (fst x) /\ reads n (snd x) v) xs vs ->
  reads (S (length xs + n)) (123 :: joined [44] (map (member_text p m) xs) ++ q ++ [125]) (JObj (combine (map fst xs) vs)).
Proof.
  intros p m q n xs vs P M Q N H [|f] r F _; [lia|].
  rewrite <- app_comm_cons, value_obj. rewrite <- !app_assoc. cbn [app].
  pose proof (members_read p m q n xs vs r P M Q N H f ltac:(lia)) as R.
  assert (E : exists t, ws (joined [44] (map (member_text p m) xs) ++ q ++ 125 :: r) = 34 :: t).
  { destruct xs as [|x xs]; [congruence|]. cbn [map joined]. generalize (map (member_text p m) xs). intros l.
    destruct l; unfold member_text; rewrite <- !app_assoc, ws_skip by exact P; unfold py_string; rewrite <- !app_assoc; eexists; reflexivity. }
  destruct E as (t & E). rewrite E, R. reflexivity.
Qed.
Lemma items_read : forall p q n ts vs r, blank_text p -> blank_text q -> ts <> [] ->
  Forall2 (fun t v => reads n t v) ts vs -> forall f, (length ts + n <= f)%nat ->
  items f (joined (44 :: p) ts ++ q ++ 93 :: r) = Some (vs, r).
Proof.
  intros p q n ts vs r P Q N H. induction H as [|t v ts vs R H IH]; [congruence|]. intros f F. cbn [length] in F.
  destruct f as [|f]; [lia|]. destruct ts as [|t' ts].
  - inversion H; subst vs. cbn [joined items].
    rewrite R; [|lia|]; cycle 1.
    { destruct q as [|c q]; [exact (bracket_stops r)|]. unfold blank_text in Q. cbn [forallb] in Q. apply andb_true_iff in Q. destruct Q as (Q & _).
      cbn [app stops_number]. unfold is_ws in Q. unfold isdigit. lia. }
    rewrite ws_skip by exact Q. cbn [ws]. change (is_ws 93) with false. cbv iota. reflexivity.
  - cbn [joined] in *. rewrite <- !app_assoc. cbn [app items]. rewrite R by (first [lia | apply comma_stops]).
    cbn [ws]. change (is_ws 44) with false. cbv iota. rewrite items_ws by exact P. rewrite IH by (try discriminate; cbn [length] in *; lia). reflexivity.
Qed.
