(** Proofs about the accessors of Teleinfo. *)
From Coq Require Import ZArith List Bool Lia ZifyBool ZifyNat.
From Verif Require Import Base BaseFacts Teleinfo TeleinfoSpec DecoderProofs.
Import ListNotations.
Open Scope Z_scope.

Definition nz (s : list Z) : Prop := Forall (fun c => c <> 0) s.
Definition join0 (l : list (list Z)) : list Z := concat (map (fun s => s ++ [0]) l).

Lemma join0_cons : forall s l, join0 (s :: l) = s ++ 0 :: join0 l.
Proof. intros. unfold join0. simpl. rewrite <- app_assoc. auto. Qed.
Lemma join0_app : forall a b, join0 (a ++ b) = join0 a ++ join0 b.
Proof. intros. unfold join0. rewrite map_app, concat_app. auto. Qed.

Lemma pieces_acc : forall s acc rest, nz s -> pieces acc (s ++ 0 :: rest) = (rev acc ++ s) :: pieces [] rest.
Proof.
  induction s; simpl; intros.
  - rewrite app_nil_r. auto.
  - inv H. destruct (Z.eqb_spec a 0); [contradiction|]. rewrite IHs by auto. simpl. rewrite <- app_assoc. auto.
Qed.
Lemma pieces_join0 : forall l, Forall nz l -> pieces [] (join0 l) = l.
Proof.
  induction l; intros; auto. inv H. rewrite join0_cons, pieces_acc by auto. simpl. rewrite IHl; auto.
Qed.

Lemma stops_join0 : forall text, stops text -> exists l, text = join0 l /\ Forall nz l.
Proof.
  assert (forall n text, (length text <= n)%nat -> stops text -> exists l, text = join0 l /\ Forall nz l).
  { induction n; intros text Hn Hs.
    - destruct text; [|simpl in Hn; lia]. exists []. auto.
    - destruct Hs as [->|[A ->]]. { exists []. auto. }
      assert (exists s rest, A ++ [0] = s ++ 0 :: rest /\ nz s /\ stops rest) as (s & rest & E & Hz & Hst).
      { clear. induction A.
        - exists [], []. repeat split; auto. constructor. left; auto.
        - destruct (Z.eq_dec a 0).
          + subst. exists [], (A ++ [0]). repeat split; auto. constructor. right. eauto.
          + destruct IHA as (s & rest & E & Hz & Hst). exists (a :: s), rest. simpl. rewrite E. repeat split; auto.
            constructor; auto. }
      rewrite E. destruct (IHn rest) as (l & -> & Hl); auto.
      { assert (length (A ++ [0]) = length (s ++ 0 :: rest)) by congruence. rewrite !app_length in H. simpl in H.
        rewrite app_length in Hn. simpl in Hn. lia. }
      exists (s :: l). split; [rewrite join0_cons; auto|constructor; auto]. }
  intros. eapply H; eauto.
Qed.

Lemma scan0_spec : forall s fuel A B e, nz s -> (length s < fuel)%nat -> (length A + length s < e)%nat ->
  scan0 fuel (A ++ s ++ 0 :: B) (length A) e = Some (Some (length A + length s)%nat).
Proof.
  induction s; intros; destruct fuel; simpl in H0; try lia.
  - simpl. rewrite rd_app. simpl. rewrite Nat.add_0_r. auto.
  - cbn [scan0 app]. rewrite rd_app. inv H. destruct (Z.eqb_spec a 0); [contradiction|].
    destruct (Nat.leb_spec e (length A)); [simpl in H1; lia|].
    replace (A ++ a :: s ++ 0 :: B) with ((A ++ [a]) ++ s ++ 0 :: B) by (rewrite <- app_assoc; auto).
    replace (S (length A)) with (length (A ++ [a])) by (rewrite app_length; simpl; lia).
    rewrite IHs; auto; try lia.
    + rewrite app_length. simpl. do 2 f_equal. lia.
    + rewrite app_length. simpl in *. lia.
Qed.

Ltac len := repeat (rewrite app_length in * || (progress cbn [length] in *)); try lia.

Lemma step_pair_spec : forall A a b B e, nz a -> nz b ->
  (length A + length a + length b + 2 <= e)%nat -> (e <= 350)%nat ->
  step_pair (A ++ a ++ 0 :: b ++ 0 :: B) (length A) e =
  Some (Some (length A, length A + length a + 1, length A + length a + length b + 2)%nat).
Proof.
  intros. unfold step_pair. rewrite scan0_spec by (auto; unfold MAX_FRAME_SIZE; lia).
  destruct (Nat.leb_spec e (S (length A + length a))); [lia|].
  replace (A ++ a ++ 0 :: b ++ 0 :: B) with ((A ++ a ++ [0]) ++ b ++ 0 :: B) by (rewrite <- !app_assoc; auto).
  replace (S (length A + length a)) with (length (A ++ a ++ [0])) by len.
  rewrite scan0_spec by (auto; unfold MAX_FRAME_SIZE; len).
  repeat f_equal; len.
Qed.
Lemma step_pair_last : forall A a B e, nz a -> (length A + length a + 1 = e)%nat -> (e <= 350)%nat ->
  step_pair (A ++ a ++ 0 :: B) (length A) e = Some None.
Proof.
  intros. unfold step_pair. rewrite scan0_spec by (auto; unfold MAX_FRAME_SIZE; lia).
  destruct (Nat.leb_spec e (S (length A + length a))); [auto|lia].
Qed.

Lemma skip_zeros_spec : forall v fuel A B, nz v -> (length v < fuel)%nat ->
  exists k, skip_zeros fuel (A ++ v ++ 0 :: B) (length A) = Some (length A + k)%nat /\
   (k <= length v)%nat /\ skipn k v = no_leading_zeros v.
Proof.
  induction v; intros; destruct fuel; simpl in H0; try lia.
  - exists 0%nat. simpl. rewrite rd_app. simpl. rewrite Nat.add_0_r. auto.
  - cbn [skip_zeros app]. rewrite rd_app. inv H. destruct (Z.eqb_spec a 48).
    + subst. destruct v as [|b v].
      * cbn [app Z.eqb Pos.eqb]. replace (A ++ 48 :: 0 :: B) with ((A ++ [48]) ++ 0 :: B) by (rewrite <- app_assoc; auto).
        replace (S (length A)) with (length (A ++ [48])) by len. rewrite rd_app. simpl.
        exists 0%nat. rewrite Nat.add_0_r. simpl. auto.
      * replace (A ++ 48 :: (b :: v) ++ 0 :: B) with ((A ++ [48]) ++ (b :: v) ++ 0 :: B) by (rewrite <- app_assoc; auto).
        replace (S (length A)) with (length (A ++ [48])) by len. cbn [app]. rewrite rd_app. inv H4.
        destruct (Z.eqb_spec b 0); [contradiction|].
        destruct (IHv fuel (A ++ [48]) B) as (k & E1 & E2 & E3); auto. { constructor; auto. } { lia. }
        exists (S k). cbn [app] in E1. rewrite E1. split; [f_equal; len|]. split; [simpl in *; lia|].
        cbn [skipn]. rewrite E3. reflexivity.
    + exists 0%nat. rewrite Nat.add_0_r. split; auto. split; [lia|].
      destruct v; auto. cbn [no_leading_zeros]. destruct (Z.eqb_spec a 48); [contradiction|reflexivity].
Qed.

Lemma all_digits_eq : forall s, all_digits s = all_digit s.
Proof. induction s; cbn [all_digits]; [reflexivity|]. rewrite IHs. reflexivity. Qed.

Lemma skipn_nz : forall k s, nz s -> nz (skipn k s).
Proof. induction k; intros; auto. destruct s; auto. inv H. simpl. apply IHk. auto. Qed.

Lemma get_integer_spec : forall A v B, nz v -> (length v <= 350)%nat ->
  exists p, get_integer (A ++ v ++ 0 :: B) (length A) = Some (all_digit v, p) /\
   cstr_at (A ++ v ++ 0 :: B) p = Some (trim_number v).
Proof.
  intros. unfold get_integer. rewrite cstr_at_app by auto. rewrite all_digits_eq. unfold trim_number.
  destruct (all_digit v) eqn:E.
  - destruct (skip_zeros_spec v (S MAX_FRAME_SIZE) A B) as (k & E1 & E2 & E3); auto. { unfold MAX_FRAME_SIZE. lia. }
    rewrite E1. exists (length A + k)%nat. split; auto. rewrite <- E3.
    rewrite <- (firstn_skipn k v) at 1.
    replace (A ++ (firstn k v ++ skipn k v) ++ 0 :: B) with ((A ++ firstn k v) ++ skipn k v ++ 0 :: B)
      by (rewrite <- !app_assoc; auto).
    replace (length A + k)%nat with (length (A ++ firstn k v)) by (rewrite app_length, firstn_length; lia).
    apply cstr_at_app. apply skipn_nz. auto.
  - exists (length A). split; auto. apply cstr_at_app. auto.
Qed.

Lemma get_value_loop_spec : forall n l fuel done R label rz, (length l <= n)%nat -> Forall nz l -> (n < fuel)%nat ->
  (length (join0 done) + length (join0 l) <= 350)%nat ->
  exists r, get_value_loop fuel (join0 done ++ join0 l ++ R) (length (join0 done)) (length (join0 done) + length (join0 l)) label rz = Some r /\
  match lookup label (pair_up l) with
  | None => r = None
  | Some v => exists p, r = Some p /\ cstr_at (join0 done ++ join0 l ++ R) p = Some (if rz then trim_number v else v)
  end.
Proof.
  induction n; intros l fuel done R label rz Hn Hnz Hfu Hlen; destruct fuel as [|fuel]; try lia.
  - destruct l; [|simpl in Hn; lia]. simpl. rewrite Nat.add_0_r. rewrite Nat.ltb_irrefl. eauto.
  - destruct l as [|a [|b l]].
    + simpl. rewrite Nat.add_0_r. rewrite Nat.ltb_irrefl. eauto.
    + cbn [get_value_loop]. inv Hnz. rewrite join0_cons in *. change (join0 []) with (@nil Z) in *.
      rewrite <- app_assoc. cbn [app]. rewrite !app_length in *; simpl in *.
      destruct (Nat.ltb_spec (length (join0 done)) (length (join0 done) + (length a + 1))); [|lia].
      rewrite step_pair_last by (auto; lia). eauto.
    + cbn [get_value_loop]. inv Hnz. inv H2. rewrite !join0_cons in *.
      set (D := join0 done) in *.
      replace (D ++ (a ++ 0 :: b ++ 0 :: join0 l) ++ R) with (D ++ a ++ 0 :: b ++ 0 :: (join0 l ++ R))
        by (rewrite <- !app_assoc; simpl; rewrite <- !app_assoc; auto).
      assert (HE : (length (a ++ 0%Z :: b ++ 0%Z :: join0 l) = length a + length b + 2 + length (join0 l))%nat) by len.
      rewrite HE in *.
      destruct (Nat.ltb_spec (length D) (length D + (length a + length b + 2 + length (join0 l)))); [|lia].
      rewrite step_pair_spec by (auto; lia).
      rewrite cstr_at_app by auto. cbn [pair_up lookup].
      destruct (beq a label).
      * destruct rz.
        -- replace (D ++ a ++ 0 :: b ++ 0 :: (join0 l ++ R)) with ((D ++ a ++ [0]) ++ b ++ 0 :: (join0 l ++ R))
             by (rewrite <- !app_assoc; auto).
           replace (length D + length a + 1)%nat with (length (D ++ a ++ [0])) by len.
           destruct (get_integer_spec (D ++ a ++ [0]) b (join0 l ++ R)) as (p & E1 & E2); auto. { lia. }
           rewrite E1. eauto.
        -- eexists; split; [reflexivity|]. eexists; split; [reflexivity|].
           replace (D ++ a ++ 0 :: b ++ 0 :: (join0 l ++ R)) with ((D ++ a ++ [0]) ++ b ++ 0 :: (join0 l ++ R))
             by (rewrite <- !app_assoc; auto).
           replace (length D + length a + 1)%nat with (length (D ++ a ++ [0])) by len.
           apply cstr_at_app. auto.
      * destruct (IHn l fuel (done ++ [a; b]) R label rz) as (r & E1 & E2); auto; try lia.
        { simpl in Hn. lia. }
        { rewrite join0_app, !join0_cons. change (join0 []) with (@nil Z). fold D. len. }
        rewrite join0_app, !join0_cons in E1, E2. change (join0 []) with (@nil Z) in *. fold D in E1, E2.
        replace ((D ++ a ++ 0 :: b ++ [0]) ++ join0 l ++ R) with (D ++ a ++ 0 :: b ++ 0 :: join0 l ++ R) in *
          by (rewrite <- !app_assoc; simpl; rewrite <- !app_assoc; auto).
        exists r. split; [|exact E2]. rewrite <- E1. f_equal; len.
Qed.

Definition view (rz : bool) (v : list Z) : list Z := if rz then trim_number v else v.

Lemma join0_count : forall l, (length l <= length (join0 l))%nat.
Proof. induction l. auto. rewrite join0_cons. len. Qed.

Lemma get_value_spec : forall text R label rz, stops text -> (length text <= 350)%nat ->
  get_value (text ++ R) (length text) label rz = Some (option_map (view rz) (lookup label (pairs_of text))).
Proof.
  intros. destruct (stops_join0 text H) as (l & -> & Hl).
  unfold get_value, get_value_ptr, pairs_of. rewrite pieces_join0 by auto.
  destruct (get_value_loop_spec (length l) l (S MAX_FRAME_SIZE) [] R label rz) as (r & E1 & E2); auto.
  { pose proof (join0_count l). unfold MAX_FRAME_SIZE. lia. }
  simpl in E1, E2. simpl. rewrite E1.
  destruct (lookup label (pair_up l)).
  - destruct E2 as (p & -> & E2). rewrite E2. auto.
  - subst. auto.
Qed.

Lemma get_value_next_spec : forall l done R, Forall nz l -> (length (join0 done) + length (join0 l) <= 350)%nat ->
  forall st, (st = Some (length (join0 done)) \/ (st = None /\ done = [] /\ (length (join0 l ++ R) = 350)%nat)) ->
  get_value_next (join0 done ++ join0 l ++ R) (length (join0 done) + length (join0 l)) st =
  Some match l with
       | a :: b :: _ => Some (a, b, length (join0 done) + length a + length b + 2)%nat
       | _ => None
       end.
Proof.
  intros l done R Hnz Hlen st Hst. unfold get_value_next.
  assert (Hgo : l <> [] -> (r <- step_pair (join0 done ++ join0 l ++ R) (length (join0 done)) (length (join0 done) + length (join0 l)) ;;
    match r with
    | None => Some None
    | Some (l0, v, p') =>
        lab <- cstr_at (join0 done ++ join0 l ++ R) l0 ;;
        val <- cstr_at (join0 done ++ join0 l ++ R) v ;;
        Some (Some (lab, val, p'))
    end) = Some match l with
       | a :: b :: _ => Some (a, b, length (join0 done) + length a + length b + 2)%nat
       | _ => None
       end).
  { intros Hne. destruct l as [|a [|b l]]; [congruence| |].
    - inv Hnz. rewrite join0_cons in *. change (join0 []) with (@nil Z) in *. rewrite <- app_assoc. cbn [app].
      rewrite step_pair_last; auto; len.
    - inv Hnz. inv H2. rewrite !join0_cons in *. set (D := join0 done) in *.
      replace (D ++ (a ++ 0 :: b ++ 0 :: join0 l) ++ R) with (D ++ a ++ 0 :: b ++ 0 :: (join0 l ++ R))
        by (rewrite <- !app_assoc; simpl; rewrite <- !app_assoc; auto).
      rewrite step_pair_spec; auto; try (len; fail).
      rewrite cstr_at_app by auto.
      replace (D ++ a ++ 0 :: b ++ 0 :: (join0 l ++ R)) with ((D ++ a ++ [0]) ++ b ++ 0 :: (join0 l ++ R))
             by (rewrite <- !app_assoc; auto).
      replace (length D + length a + 1)%nat with (length (D ++ a ++ [0])) by len.
      rewrite cstr_at_app by auto. auto. }
  destruct Hst as [->|(-> & -> & HR)].
  - destruct l.
    + change (join0 []) with (@nil Z). simpl. destruct (Nat.leb_spec (length (join0 done) + 0) (length (join0 done))); [auto|lia].
    + destruct (Nat.leb_spec (length (join0 done) + length (join0 (l :: l0))) (length (join0 done))).
      { rewrite join0_cons in H. len. }
      apply Hgo. congruence.
  - destruct l.
    + change (join0 []) with (@nil Z) in *. cbn [length app Nat.add] in *. unfold step_pair.
      cbn [scan0]. destruct R as [|r R]; [simpl in HR; lia|]. simpl. destruct (r =? 0); auto.
    + apply Hgo. congruence.
Qed.

Lemma iterate_spec : forall n l fuel done R st, (length l <= n)%nat -> (n < fuel)%nat -> Forall nz l ->
  (length (join0 done) + length (join0 l) <= 350)%nat ->
  (st = Some (length (join0 done)) \/ (st = None /\ done = [] /\ (length (join0 l ++ R) = 350)%nat)) ->
  iterate fuel (join0 done ++ join0 l ++ R) (length (join0 done) + length (join0 l)) st = Some (pair_up l).
Proof.
  induction n; intros l fuel done R st Hn Hfu Hnz Hlen Hst; destruct fuel as [|fuel]; try lia;
    cbn [iterate]; rewrite get_value_next_spec by auto.
  - destruct l; [|simpl in Hn; lia]. auto.
  - destruct l as [|a [|b l]]; auto.
    inv Hnz. inv H2. cbn [pair_up].
    assert (HE : (length (join0 (a :: b :: l)) = length a + length b + 2 + length (join0 l))%nat)
      by (rewrite !join0_cons; len).
    assert (HD : join0 (done ++ [a; b]) = join0 done ++ a ++ 0 :: b ++ [0])
      by (rewrite join0_app, !join0_cons; auto).
    rewrite HE in *. rewrite !join0_cons.
    replace (join0 done ++ (a ++ 0 :: b ++ 0 :: join0 l) ++ R) with (join0 (done ++ [a; b]) ++ join0 l ++ R)
      by (rewrite HD, <- !app_assoc; simpl; rewrite <- !app_assoc; auto).
    replace (length (join0 done) + length a + length b + 2)%nat with (length (join0 (done ++ [a; b])))
      by (rewrite HD; len).
    replace (length (join0 done) + (length a + length b + 2 + length (join0 l)))%nat
      with (length (join0 (done ++ [a; b])) + length (join0 l))%nat by (rewrite HD; len).
    rewrite IHn; auto; try lia.
    + simpl in Hn. lia.
    + rewrite HD. len.
Qed.

Lemma all_pairs_spec : forall text R, stops text -> length (text ++ R) = 350%nat ->
  all_pairs (text ++ R) (length text) = Some (pairs_of text).
Proof.
  intros. destruct (stops_join0 text H) as (l & -> & Hl).
  unfold all_pairs, pairs_of. rewrite pieces_join0 by auto.
  change (join0 l ++ R) with (join0 [] ++ join0 l ++ R).
  change (length (join0 l)) with (length (join0 []) + length (join0 l))%nat.
  apply (iterate_spec (length l)); auto.
  - pose proof (join0_count l). rewrite app_length in H0. unfold MAX_FRAME_SIZE. lia.
  - rewrite app_length in H0. cbn. lia.
Qed.

(** get_value_int *)
Lemma i8_digit : forall c, is_byte c -> ((9 <? i8 (c - 48)) || (i8 (c - 48) <? 0)) = negb (isdigit c).
Proof.
  unfold is_byte, i8, isdigit. intros.
  destruct (Z.leb_spec 48 c); destruct (Z.leb_spec c 57); simpl.
  - rewrite Z.mod_small by lia. lia.
  - destruct (Z_lt_ge_dec c 176).
    + rewrite Z.mod_small by lia. lia.
    + replace (c - 48 + 128) with ((c - 176) + 1 * 256) by lia. rewrite Z_mod_plus_full, Z.mod_small by lia. lia.
  - rewrite Z.mod_small by lia. lia.
  - lia.
Qed.
Lemma i8_digit_val : forall c, isdigit c = true -> i8 (c - 48) = c - 48.
Proof. unfold isdigit, i8. intros. rewrite Z.mod_small; lia. Qed.

Lemma dec_value_acc : forall s a, fold_left (fun acc c => acc * 10 + (c - 48)) s a =
  a * 10 ^ Z.of_nat (length s) + dec_value s.
Proof.
  unfold dec_value. induction s using rev_ind; intros.
  - simpl. lia.
  - rewrite !fold_left_app. simpl. rewrite IHs, app_length. simpl.
    replace (Z.of_nat (length s + 1)) with (Z.of_nat (length s) + 1) by lia.
    rewrite Z.pow_add_r by lia. lia.
Qed.

Lemma parse_u32_spec : forall s u d, bytes s ->
  parse_u32 s u d = if all_digit s
    then match s with [] => u | _ => u32 (fold_left (fun acc c => acc * 10 + (c - 48)) s u) end
    else d.
Proof.
  assert (forall s u d, bytes s -> 0 <= u < 4294967296 ->
     parse_u32 s u d = if all_digit s then u32 (fold_left (fun acc c => acc * 10 + (c - 48)) s u) else d).
  { induction s; simpl; intros.
    - unfold u32. rewrite Z.mod_small; lia.
    - inv H. rewrite i8_digit by auto. destruct (isdigit a) eqn:E; simpl; auto.
      rewrite i8_digit_val by auto. rewrite IHs; auto.
      + unfold all_digit. destruct (forallb isdigit s); auto. rewrite !dec_value_acc. unfold u32.
        rewrite Zplus_mod_idemp_r. 
        rewrite (Zplus_mod ((_ mod _) * _)), Zmult_mod_idemp_l, <- Zplus_mod. f_equal. lia.
      + unfold u32. apply Z.mod_pos_bound. lia. }
  intros. destruct s; auto. inv H0. simpl. rewrite i8_digit by auto. destruct (isdigit z) eqn:E; simpl; auto.
  rewrite i8_digit_val by auto. rewrite H; auto.
  - unfold all_digit. destruct (forallb isdigit s); auto. rewrite !dec_value_acc. unfold u32.
    rewrite Zplus_mod_idemp_r.
    rewrite (Zplus_mod ((_ mod _) * _)), Zmult_mod_idemp_l, <- Zplus_mod. f_equal. lia.
  - unfold u32. apply Z.mod_pos_bound. lia.
Qed.

Lemma parse_u32_dec : forall s d, bytes s -> parse_u32 s 0 d = if all_digit s then u32 (dec_value s) else d.
Proof. intros. rewrite parse_u32_spec by auto. destruct s; auto. Qed.

Lemma nlz_digits : forall v, all_digit v = true -> all_digit (no_leading_zeros v) = true.
Proof.
  induction v; intros; auto. simpl in H. apply andb_true_iff in H. destruct H.
  destruct v; [simpl; rewrite H; auto|]. 
  change (no_leading_zeros (a :: z :: v)) with (if a =? 48 then no_leading_zeros (z :: v) else a :: z :: v).
  destruct (a =? 48); auto. cbn [all_digit forallb]. rewrite H. auto.
Qed.
Lemma nlz_value : forall v, dec_value (no_leading_zeros v) = dec_value v.
Proof.
  induction v; auto. destruct v; auto.
  change (no_leading_zeros (a :: z :: v)) with (if a =? 48 then no_leading_zeros (z :: v) else a :: z :: v).
  destruct (Z.eqb_spec a 48); auto. rewrite IHv. subst. reflexivity.
Qed.
Lemma nlz_bytes : forall v, bytes v -> bytes (no_leading_zeros v).
Proof.
  induction v; intros; auto. destruct v; auto.
  change (no_leading_zeros (a :: z :: v)) with (if a =? 48 then no_leading_zeros (z :: v) else a :: z :: v).
  destruct (Z.eqb_spec a 48); auto. apply IHv. inv H. auto.
Qed.
Lemma trim_digits : forall v, all_digit (trim_number v) = all_digit v.
Proof. intros. unfold trim_number. destruct (all_digit v) eqn:E; auto. apply nlz_digits; auto. Qed.


Lemma get_value_int_spec : forall text R label d, stops text -> (length text <= 350)%nat ->
  (forall v, lookup label (pairs_of text) = Some v -> bytes v) ->
  get_value_int (text ++ R) (length text) label d = Some (int_of d (lookup label (pairs_of text))).
Proof.
  intros. unfold get_value_int. rewrite get_value_spec by auto. unfold option_map.
  destruct (lookup label (pairs_of text)) eqn:E; auto. unfold view, int_of.
  rewrite parse_u32_dec.
  - rewrite trim_digits. unfold trim_number. destruct (all_digit l) eqn:E2; auto. rewrite nlz_value. auto.
  - specialize (H1 _ eq_refl). unfold trim_number. destruct (all_digit l); auto. apply nlz_bytes; auto.
Qed.
