(** The texts made by the builders of src/jsonbuilder.h are compact JSON texts. *)
From Coq Require Import ZArith List Bool Lia.
From Verif Require Import Base BaseFacts Json JsonFacts JsonBuild.
Import ListNotations.
Open Scope Z_scope.

Lemma rev_inj : forall A (a b : list A), rev a = rev b -> a = b.
Proof. intros A a b H. rewrite <- (rev_involutive a), H. apply rev_involutive. Qed.

(** ** JSONBuilder *)
Definition jmember (m : list Z * json) : list Z := quoted (fst m) ++ 58 :: print (snd m).
(** The text held by a builder to which the members [ms] were appended. *)
Definition jb_text (ms : list (list Z * json)) : list Z := 123 :: concat (map (fun m => jmember m ++ [44]) ms) ++ [34].

Lemma jb_new_text : jb_new = jb_text [].
Proof. reflexivity. Qed.
Lemma jb_text_snoc : forall ms m, jb_text (ms ++ [m]) = 123 :: concat (map (fun m => jmember m ++ [44]) ms) ++ jmember m ++ [44; 34].
Proof.
  intros. unfold jb_text. rewrite map_app, concat_app. cbn [map concat]. rewrite app_nil_r, <- !app_assoc. reflexivity.
Qed.
Lemma jb_str_text : forall k v ms, jb_str k v false (jb_text ms) = jb_text (ms ++ [(k, JStr v)]).
Proof.
  intros. rewrite jb_text_snoc. unfold jb_str, jb_text, jmember, quoted. cbn [fst snd print]. unfold quoted.
  cbn [app]. repeat (rewrite <- !app_assoc; cbn [app]). reflexivity.
Qed.
Lemma jb_raw_text : forall k v ms, jb_raw k v false (jb_text ms) = jb_text (ms ++ [(k, JNum v)]).
Proof.
  intros. rewrite jb_text_snoc. unfold jb_raw, jb_text, jmember, quoted. cbn [fst snd print].
  cbn [app]. repeat (rewrite <- !app_assoc; cbn [app]). reflexivity.
Qed.
Lemma concat_commas : forall A (f : A -> list Z) l, l <> [] ->
  concat (map (fun m => f m ++ [44]) l) = sep_by [44] (map f l) ++ [44].
Proof.
  induction l as [|x l IH]; intros N; [congruence|]. destruct l as [|y l]; [cbn; rewrite app_nil_r; auto|].
  cbn [map]. rewrite sep_by_cons. rewrite <- !app_assoc. cbn [map concat] in *. rewrite IH by discriminate.
  rewrite <- !app_assoc. reflexivity.
Qed.
Lemma jb_finalize_text : forall ms, jb_finalize (jb_text ms) = Some (print (JObj ms)).
Proof.
  intros [|m ms]; [reflexivity|]. unfold jb_text. rewrite concat_commas by discriminate.
  unfold jb_finalize. rewrite app_comm_cons, !rev_app_distr. cbn [rev app]. rewrite rev_app_distr. cbn [rev app Z.eqb Pos.eqb].
  rewrite rev_app_distr, rev_involutive. cbn [rev app]. reflexivity.
Qed.

Lemma sep_snoc : forall A (f : A -> list Z) l m,
  sep_by [44] (map f (l ++ [m])) = concat (map (fun m => f m ++ [44]) l) ++ f m.
Proof.
  induction l as [|x l IH]; intros m; [reflexivity|]. specialize (IH m). cbn [app map].
  destruct (l ++ [m]) as [|y r] eqn:E; [now apply app_eq_nil in E|].
  cbn [map] in *. rewrite sep_by_cons, IH. cbn [concat]. rewrite <- !app_assoc. reflexivity.
Qed.
(** The last member written with its closing brace instead of finalize(). *)
Lemma jb_str_last : forall k v ms, jb_str k v true (jb_text ms) = print (JObj (ms ++ [(k, JStr v)])).
Proof.
  intros. cbn [print]. rewrite (sep_snoc _ jmember). unfold jb_str, jb_text, jmember, quoted. cbn [fst snd print]. unfold quoted.
  cbn [app]. repeat (rewrite <- !app_assoc; cbn [app]). reflexivity.
Qed.
Lemma jb_raw_last : forall k v ms, jb_raw k v true (jb_text ms) = print (JObj (ms ++ [(k, JNum v)])).
Proof.
  intros. cbn [print]. rewrite (sep_snoc _ jmember). unfold jb_raw, jb_text, jmember, quoted. cbn [fst snd print].
  cbn [app]. repeat (rewrite <- !app_assoc; cbn [app]). reflexivity.
Qed.

(** ** JSONTableBuilder *)
Definition row (k : list Z) (v : json) : json := JObj [(str "na", JStr k); (str "va", v)].
Definition jt_text (rows : list json) : list Z := 91 :: concat (map (fun v => print v ++ [44]) rows).
Lemma jt_new_text : jt_new = jt_text [].
Proof. reflexivity. Qed.
Lemma jt_text_snoc : forall rows v, jt_text (rows ++ [v]) = jt_text rows ++ print v ++ [44].
Proof. intros. unfold jt_text. rewrite map_app, concat_app. cbn [map concat]. rewrite app_nil_r. reflexivity. Qed.
Lemma jt_str_text : forall k v rows, jt_str k v (jt_text rows) = jt_text (rows ++ [row k (JStr v)]).
Proof.
  intros. rewrite jt_text_snoc. unfold jt_str. f_equal. unfold row. cbn [print map sep_by fst snd]. unfold quoted.
  cbn [str app Ascii.N_of_ascii Ascii.N_of_digits Z.of_N]. cbn [app]; repeat (rewrite <- !app_assoc; cbn [app]). reflexivity.
Qed.
Lemma jt_num_text : forall k n rows, jt_num k n (jt_text rows) = jt_text (rows ++ [row k (JNum (dec n))]).
Proof.
  intros. rewrite jt_text_snoc. unfold jt_num. f_equal. unfold row. cbn [print map sep_by fst snd]. unfold quoted.
  cbn [str app Ascii.N_of_ascii Ascii.N_of_digits Z.of_N]. cbn [app]; repeat (rewrite <- !app_assoc; cbn [app]). reflexivity.
Qed.
Lemma jt_finalize_text : forall rows, jt_finalize (jt_text rows) = Some (print (JArr rows)).
Proof.
  intros [|m ms]; [reflexivity|]. unfold jt_text. rewrite concat_commas by discriminate.
  unfold jt_finalize. rewrite app_comm_cons, rev_app_distr. cbn [rev app Z.eqb Pos.eqb].
  rewrite rev_app_distr, rev_involutive. cbn [rev app]. reflexivity.
Qed.

(** ** Decimal numbers *)
Lemma dec_aux_acc : forall f n acc, dec_aux f n acc = dec_aux f n [] ++ acc.
Proof.
  induction f as [|f IH]; intros; [reflexivity|]. cbn [dec_aux]. destruct (n <? 10); [reflexivity|].
  rewrite (IH _ (_ :: acc)), (IH _ [_]), <- app_assoc. reflexivity.
Qed.
Lemma dec_aux_digits : forall f n, forallb isdigit (dec_aux f n []) = true.
Proof.
  induction f as [|f IH]; intros; [reflexivity|]. cbn [dec_aux].
  assert (D : isdigit (48 + n mod 10) = true).
  { unfold isdigit. pose proof (Z.mod_pos_bound n 10 ltac:(lia)). apply andb_true_iff. split; apply Z.leb_le; lia. }
  destruct (n <? 10); [cbn [forallb]; now rewrite D|]. rewrite dec_aux_acc, forallb_app, IH. cbn [forallb]. now rewrite D.
Qed.
Lemma dec_digits : forall n, forallb isdigit (dec n) = true.
Proof. intros. apply dec_aux_digits. Qed.
Lemma dec_aux_head : forall f n, 0 < n < 2 ^ Z.of_nat f -> exists c t, dec_aux f n [] = c :: t /\ c <> 48.
Proof.
  induction f as [|f IH]; intros n H; [change (2 ^ Z.of_nat 0) with 1 in H; lia|].
  cbn [dec_aux]. destruct (n <? 10) eqn:E.
  - apply Z.ltb_lt in E. exists (48 + n mod 10), []. split; auto. rewrite Z.mod_small by lia. lia.
  - apply Z.ltb_ge in E. rewrite dec_aux_acc. destruct (IH (n / 10)) as (c & t & -> & N).
    { split; [apply Z.div_str_pos; lia|]. rewrite Nat2Z.inj_succ, Z.pow_succ_r in H by lia.
      apply Z.div_lt_upper_bound; lia. }
    cbn [app]. eauto.
Qed.
Lemma dec_head : forall n, 0 < n -> exists c t, dec n = c :: t /\ c <> 48.
Proof.
  intros n H. unfold dec. apply dec_aux_head. pose proof (Z.log2_spec n H). pose proof (Z.log2_nonneg n).
  rewrite Z2Nat.id by lia. split; [lia|]. replace (Z.log2 n + 2) with (Z.succ (Z.succ (Z.log2 n))) by lia.
  rewrite Z.pow_succ_r by lia. lia.
Qed.
Lemma dec_zero : dec 0 = [48].
Proof. reflexivity. Qed.

Lemma digits_all : forall s, forallb isdigit s = true -> digits s = (s, []).
Proof.
  induction s as [|c t IH]; intros H; [reflexivity|]. cbn [forallb digits] in *. apply andb_true_iff in H. destruct H as [-> H].
  now rewrite IH.
Qed.
Lemma digit_number : forall c t, forallb isdigit (c :: t) = true -> (c <> 48 \/ t = []) -> plain_number (c :: t) = true.
Proof.
  intros c t H K. unfold plain_number.
  assert (N : number (c :: t) = Some (c :: t, [])).
  { unfold number. assert (F : match c :: t with 45 :: t0 => ([45], t0) | _ => ([], c :: t) end = ([], c :: t)).
    { cbn [forallb] in H. apply andb_true_iff in H. destruct H as [H _]. unfold isdigit in H. apply andb_true_iff in H.
      destruct H as [H _]. apply Z.leb_le in H. destruct c as [|p|p]; auto. do 6 (destruct p as [p|p|]; auto). lia. }
    rewrite F. unfold int_part. rewrite digits_all by auto.
    replace ((c =? 48) && negb (Nat.eqb (length t) 0)) with false; [cbn; rewrite app_nil_r; auto|].
    symmetry. apply andb_false_iff. destruct K as [K| ->]; [left; apply Z.eqb_neq; auto|right; reflexivity]. }
  rewrite N. rewrite beq_refl. reflexivity.
Qed.
Lemma dec_plain : forall n, 0 <= n -> plain_number (dec n) = true.
Proof.
  intros n H. assert (D : n = 0 \/ 0 < n) by lia. destruct D as [->|D]; [reflexivity|].
  destruct (dec_head n D) as (c & t & E & N). pose proof (dec_digits n) as G. rewrite E in *. apply digit_number; auto.
Qed.
Lemma ascii_quotable : forall s, Forall (fun c => 32 <= c <= 126 /\ c <> 34 /\ c <> 92) s -> quotable s = true.
Proof.
  intros s H. unfold quotable. apply andb_true_iff. split.
  - apply forallb_forall. rewrite Forall_forall in H. intros c I. specialize (H _ I).
    apply andb_true_iff. split; [apply andb_true_iff; split|]; [apply Z.leb_le; lia| |];
      apply negb_true_iff, Z.eqb_neq; lia.
  - apply utf8_ascii. eapply Forall_impl; [|exact H]. cbv beta. lia.
Qed.
Lemma digits_printable : forall s, forallb isdigit s = true -> Forall (fun c => 48 <= c <= 57) s.
Proof.
  intros s H. rewrite forallb_forall in H. apply Forall_forall. intros c I. specialize (H _ I). unfold isdigit in H.
  apply andb_true_iff in H. rewrite !Z.leb_le in H. lia.
Qed.
