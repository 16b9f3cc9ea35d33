(** get_frame_ascii, signedness independence, and safety of accessors from any iteration state. *)
From Coq Require Import ZArith List Bool Lia ZifyBool ZifyNat.
From Verif Require Import Base BaseFacts Teleinfo TeleinfoSpec DecoderProofs AccessProofs.
Import ListNotations.
Open Scope Z_scope.

(** ** get_value_next from any index *)
Lemma stops_skipn : forall text p, stops text -> (p < length text)%nat -> exists s rest, skipn p text = s ++ 0 :: rest /\ nz s /\ stops rest.
Proof.
  intros. assert (stops (skipn p text) /\ skipn p text <> []).
  { split.
    - destruct H as [->|[A ->]]; [simpl in H0; lia|]. rewrite app_length in H0. simpl in H0.
      rewrite skipn_app. replace (p - length A)%nat with 0%nat by lia. simpl. right. eauto.
    - intro. apply (f_equal (@length Z)) in H1. rewrite skipn_length in H1. simpl in H1. lia. }
  destruct H1. destruct (stops_join0 _ H1) as (l & E & Hl). destruct l as [|s l].
  - rewrite E in H2. contradiction.
  - rewrite join0_cons in E. inv Hl. exists s, (join0 l). repeat split; auto.
    destruct l using rev_ind; [left; auto|]. right. rewrite join0_app. unfold join0 at 2. simpl. rewrite app_nil_r.
    exists (join0 l ++ x). rewrite app_assoc. auto.
Qed.

Lemma scan0_any : forall text R p, stops text -> (p < length text)%nat -> (length text <= 350)%nat ->
  exists z s, scan0 (S MAX_FRAME_SIZE) (text ++ R) p (length text) = Some (Some z) /\ (p <= z < length text)%nat /\ cstr_at (text ++ R) p = Some s.
Proof.
  intros text R p Hs Hp Hl. destruct (stops_skipn text p Hs Hp) as (s & rest & E & Hz & _).
  assert (HT : text ++ R = firstn p text ++ s ++ 0 :: (rest ++ R)).
  { rewrite <- (firstn_skipn p text) at 1. rewrite E. rewrite <- !app_assoc. auto. }
  assert (Hpl : length (firstn p text) = p) by (rewrite firstn_length; lia).
  assert (HL : (length text = p + length s + 1 + length rest)%nat).
  { rewrite <- (firstn_skipn p text). rewrite E, !app_length. simpl. lia. }
  exists (p + length s)%nat, s. rewrite HT. split; [|split].
  - pose proof (scan0_spec s (S MAX_FRAME_SIZE) (firstn p text) (rest ++ R) (length text) Hz) as X.
    rewrite Hpl in X. apply X; unfold MAX_FRAME_SIZE; lia.
  - lia.
  - pose proof (cstr_at_app (firstn p text) s (rest ++ R) Hz) as X. rewrite Hpl in X. auto.
Qed.

Lemma get_value_next_safe : forall text R st, stops text -> length (text ++ R) = 350%nat ->
  get_value_next (text ++ R) (length text) st <> None.
Proof.
  intros text R st Hs Hl.
  assert (Hl2 : (length text <= 350)%nat) by (rewrite app_length in Hl; lia).
  assert (Hgo : forall p, (p < length text)%nat ->
   (r <- step_pair (text ++ R) p (length text) ;;
    match r with
    | None => Some None
    | Some (l, v, p') =>
        lab <- cstr_at (text ++ R) l ;;
        val <- cstr_at (text ++ R) v ;;
        Some (Some (lab, val, p'))
    end) <> None).
  { intros p Hp. unfold step_pair. destruct (scan0_any text R p) as (z & s & E1 & E2 & E3); auto. rewrite E1.
    destruct (Nat.leb_spec (length text) (S z)); [congruence|].
    destruct (scan0_any text R (S z)) as (z2 & s2 & F1 & F2 & F3); auto. rewrite F1, E3, F3. congruence. }
  unfold get_value_next. destruct st as [p|].
  - destruct (Nat.leb_spec (length text) p); [congruence|]. apply Hgo. auto.
  - destruct text as [|b text].
    + cbn [length app] in *. unfold step_pair. cbn [scan0]. destruct R; [simpl in Hl; lia|]. simpl. destruct (z =? 0); congruence.
    + apply Hgo. simpl. lia.
Qed.

(** ** get_frame_ascii *)

(** characters shown for a kept text *)
Fixpoint dumpc (lab : bool) (t : list Z) : list Z :=
  match t with
  | [] => []
  | c :: r => if c =? 0 then (if lab then 32 else LF) :: dumpc (negb lab) r else c :: dumpc lab r
  end.

Lemma dumpc_length : forall t lab, length (dumpc lab t) = length t.
Proof. induction t; simpl; intros; auto. destruct (a =? 0); simpl; rewrite IHt; auto. Qed.

Lemma ascii_loop_spec : forall t A R D dst lab dsize,
  length D = length A -> dsize = length (D ++ dst) -> (2 <= dsize)%nat -> (length A < dsize - 2 \/ length A = 0)%nat ->
  exists n, (n <= length t)%nat /\ (length A + n <= Nat.max 1 (dsize - 2))%nat /\
    (n = length t \/ (dsize - 2 <= length A + n)%nat) /\
    exists dst2, length dst = (n + length dst2)%nat /\
    ascii_loop (length t) (length A) (A ++ t ++ R) (D ++ dst) dsize (length A) lab = Some (D ++ firstn n (dumpc lab t) ++ dst2, (length A + n)%nat).
Proof.
  induction t; intros A R D dst lab dsize HD Hds H2 HA.
  - exists 0%nat. cbn [length]. split; [lia|]. split; [lia|]. split; [lia|]. exists dst. split; auto. cbn. f_equal. f_equal. lia.
  - cbn [length ascii_loop]. cbn [app]. rewrite rd_app.
    destruct dst as [|x dst]. { exfalso. rewrite app_length in Hds. simpl in Hds. lia. }
    set (out := if a =? 0 then if lab then 32 else LF else a).
    set (lab' := if a =? 0 then negb lab else lab).
    assert (Hout : dumpc lab (a :: t) = out :: dumpc lab' t) by (unfold out, lab'; simpl; destruct (a =? 0); auto).
    assert (Hu : upd (D ++ x :: dst) (length A) out = Some (D ++ out :: dst)) by (rewrite <- HD; apply upd_app).
    rewrite Hu. unfold dump_limit_reached.
    destruct (Nat.ltb_spec dsize 2); [lia|].
    destruct (Nat.leb_spec (dsize - 2) (S (length A))).
    + exists 1%nat. split; [lia|]. split; [lia|]. split; [lia|]. exists dst. rewrite Hout. cbn [firstn app length].
      split; [lia|]. f_equal. f_equal. lia.
    + replace (A ++ a :: t ++ R) with ((A ++ [a]) ++ t ++ R) by (rewrite <- app_assoc; auto).
      replace (D ++ out :: dst) with ((D ++ [out]) ++ dst) by (rewrite <- app_assoc; auto).
      replace (S (length A)) with (length (A ++ [a])) by (rewrite app_length; simpl; lia).
      destruct (IHt (A ++ [a]) R (D ++ [out]) dst lab' dsize) as (n & E1 & E2 & E3 & dst2 & E4 & E5).
      { rewrite !app_length. simpl. lia. }
      { rewrite Hds, !app_length. simpl. lia. }
      { auto. } { left. rewrite app_length. simpl. lia. }
      rewrite E5. exists (S n). rewrite app_length in *. cbn [length] in *. split; [lia|]. split; [lia|]. split; [lia|].
      exists dst2. split; [lia|]. rewrite Hout. cbn [firstn]. rewrite <- !app_assoc. cbn [app]. f_equal. f_equal. lia.
Qed.

Lemma dumpc_app_nz : forall s lab rest, nz s -> dumpc lab (s ++ rest) = s ++ dumpc lab rest.
Proof. induction s; simpl; intros; auto. inv H. destruct (Z.eqb_spec a 0); [contradiction|]. rewrite IHs; auto. Qed.
Lemma dumpc_pair : forall a b rest, nz a -> nz b ->
  dumpc true (a ++ 0 :: b ++ 0 :: rest) = line (a, b) ++ dumpc true rest.
Proof.
  intros. rewrite dumpc_app_nz by auto. cbn [dumpc]. cbn [Z.eqb negb]. rewrite dumpc_app_nz by auto. cbn [dumpc Z.eqb negb].
  unfold line. cbn [fst snd]. repeat (progress (cbn [app]; rewrite <- ?app_assoc)). auto.
Qed.

Definition nolf (s : list Z) : Prop := Forall (fun c => c <> 10) s.

Lemma nolf_notin : forall s, nolf s -> ~ In 10 s.
Proof. unfold nolf. intros s H Hin. rewrite Forall_forall in H. apply (H _ Hin). auto. Qed.

Lemma last_in : forall (l : list Z) x, l <> [] -> last l x = 10 -> In 10 l.
Proof.
  intros. destruct l as [|y l] using rev_ind; [congruence|]. rewrite last_last in H0. subst. apply in_or_app. right. left. auto.
Qed.

Lemma last_app_r : forall (L D : list Z) x, D <> [] -> last (L ++ D) x = last D x.
Proof.
  induction L; intros; auto. cbn [app]. rewrite <- (IHL D x H). destruct (L ++ D) eqn:E; auto.
  destruct L; [contradiction|discriminate].
Qed.

(** a prefix of the dump that ends in LF is a whole number of lines *)
Lemma prefix_lines : forall m l n, (length l <= m)%nat -> Forall nz l -> Forall nolf l ->
  firstn n (dumpc true (join0 l)) <> [] -> last (firstn n (dumpc true (join0 l))) 0 = 10 ->
  exists k, firstn n (dumpc true (join0 l)) = concat (firstn k (map line (pair_up l))) /\
    ((length (join0 l) <= n)%nat -> k = length (pair_up l) /\ Nat.even (length l) = true).
Proof.
  induction m; intros l n Hm Hz Hlf Hne Hlast.
  - destruct l; [|simpl in Hm; lia]. change (join0 []) with (@nil Z) in *. simpl in *. rewrite firstn_nil in *. congruence.
  - destruct l as [|a [|b l]].
    + change (join0 []) with (@nil Z) in *. simpl in *. rewrite firstn_nil in *. congruence.
    + exfalso. inv Hz. inv Hlf. rewrite join0_cons in *. change (join0 []) with (@nil Z) in *.
      rewrite dumpc_app_nz in * by auto. cbn in *.
      apply last_in in Hlast; auto.
      assert (In 10 (a ++ [32])) by (rewrite <- (firstn_skipn n (a ++ [32])); apply in_or_app; auto).
      apply in_app_or in H. destruct H as [H|[H|H]]; try lia; try contradiction.
      match goal with Hn : nolf a |- _ => apply (nolf_notin _ Hn H) end.
    + inversion Hz as [|? ? Hza Hz1]; subst. inversion Hz1 as [|? ? Hzb Hzl]; subst.
      inversion Hlf as [|? ? Hla Hl1]; subst. inversion Hl1 as [|? ? Hlb Hll0]; subst. clear Hz Hz1 Hlf Hl1.
      rewrite !join0_cons in *. rewrite dumpc_pair in * by auto.
      destruct (Nat.leb_spec n (length a + length b + 1)).
      * (* stops inside the first line *)
        exfalso. assert (Hpre : firstn n (line (a, b) ++ dumpc true (join0 l)) = firstn n (a ++ [32] ++ b)).
        { unfold line. cbn [fst snd].
          replace ((a ++ [32] ++ b ++ [10]) ++ dumpc true (join0 l)) with ((a ++ [32] ++ b) ++ [10] ++ dumpc true (join0 l))
            by (rewrite <- !app_assoc; auto).
          rewrite firstn_app. replace (n - length (a ++ [32%Z] ++ b))%nat with 0%nat by (rewrite !app_length; simpl; lia).
          simpl. rewrite app_nil_r. auto. }
        rewrite Hpre in *. apply last_in in Hlast; auto.
        assert (In 10 (a ++ [32] ++ b)) by (rewrite <- (firstn_skipn n (a ++ [32] ++ b)); apply in_or_app; auto).
        apply in_app_or in H0. destruct H0 as [H0|[H0|H0]]; try lia;
        match goal with Hn : nolf a, Hn2 : nolf b |- _ => solve [apply (nolf_notin _ Hn H0) | apply (nolf_notin _ Hn2 H0)] end.
      * assert (Hll : length (line (a, b)) = (length a + length b + 2)%nat) by (unfold line; rewrite !app_length; simpl; lia).
        rewrite firstn_app in *. rewrite (firstn_all2 (line (a, b))) in * by lia.
        destruct (firstn (n - length (line (a, b))) (dumpc true (join0 l))) eqn:Ef.
        -- exists 1%nat. cbn [pair_up map firstn concat]. split; [auto|].
           intros HL. rewrite !app_length in HL. cbn [length] in HL. rewrite !app_length in HL. cbn [length] in HL.
           destruct l as [|s l]; [auto|]. exfalso. rewrite join0_cons in *.
           assert (0 < n - length (line (a, b)))%nat by (rewrite app_length in HL; simpl in HL; lia).
           apply (f_equal (@length Z)) in Ef. rewrite firstn_length, dumpc_length, app_length in Ef. simpl in Ef. lia.
        -- rewrite <- Ef in *.
           destruct (IHm l (n - length (line (a, b)))%nat) as (k & E1 & E2); auto.
           { simpl in Hm. lia. } { rewrite Ef. congruence. }
           { rewrite <- Hlast. rewrite Ef. symmetry. apply last_app_r. congruence. }
           exists (S k). cbn [pair_up map firstn concat]. rewrite E1. split; auto.
           intros HL. destruct E2 as [-> E3]. { rewrite !app_length in HL. cbn [length] in HL. rewrite !app_length in HL. cbn [length] in HL. lia. }
           split; auto.
Qed.

Lemma nolf_text : forall l, Forall (fun c => c <> 10) (join0 l) -> Forall nolf l.
Proof.
  induction l; intros; constructor.
  - rewrite join0_cons in H. apply Forall_app in H. apply H.
  - apply IHl. rewrite join0_cons in H. apply Forall_app in H. destruct H as [_ H]. inv H. auto.
Qed.

Lemma dumpc_last_even : forall l, Forall nz l -> l <> [] -> Nat.even (length l) = true -> last (dumpc true (join0 l)) 0 = 10.
Proof.
  assert (forall m l, (length l <= m)%nat -> Forall nz l -> l <> [] -> Nat.even (length l) = true -> last (dumpc true (join0 l)) 0 = 10).
  { induction m; intros l Hm Hz Hne Hev.
    - destruct l; [congruence|simpl in Hm; lia].
    - destruct l as [|a [|b l]]; [congruence|discriminate|]. inv Hz. inv H2.
      rewrite !join0_cons, dumpc_pair by auto.
      destruct l as [|c l].
      + change (join0 []) with (@nil Z). simpl (dumpc true []). rewrite app_nil_r. unfold line. cbn [fst snd].
        replace (a ++ [32] ++ b ++ [10]) with ((a ++ [32] ++ b) ++ [10]) by (rewrite <- !app_assoc; auto). apply last_last.
      + assert (E : last (dumpc true (join0 (c :: l))) 0 = 10) by (apply IHm; auto; [simpl in Hm; simpl; lia|congruence]).
        assert (Hn : dumpc true (join0 (c :: l)) <> []).
        { intro X. rewrite X in E. discriminate. }
        rewrite last_app_r; auto. }
  intros. eapply H; eauto.
Qed.

Lemma get_frame_ascii_spec : forall text R dst, stops text -> Forall (fun c => c <> 10) text -> (2 <= length dst)%nat ->
  exists dst' j k, get_frame_ascii (text ++ R) (length text) dst = Some (dst', j) /\
    length dst' = length dst /\ (j < length dst)%nat /\
    firstn j dst' = concat (firstn k (map line (pairs_of text))) /\ nth j dst' 1 = 0 /\
    ((length text <= length dst - 2)%nat -> Nat.even (length (pieces [] text)) = true ->
      firstn j dst' = concat (map line (pairs_of text))).
Proof.
  intros text R dst Hs Hlf H2. unfold get_frame_ascii.
  destruct (ascii_loop_spec text [] R [] dst true (length dst)) as (n & E1 & E2 & E3 & dst2 & E4 & E5); auto.
  cbn [length app Nat.add] in *. rewrite E5.
  destruct (stops_join0 text Hs) as (l & Htl & Hl).
  assert (Hp : pieces [] text = l) by (rewrite Htl; apply pieces_join0; auto).
  unfold pairs_of. rewrite Hp.
  set (W := firstn n (dumpc true text)) in *.
  assert (HW : length W = n) by (unfold W; rewrite firstn_length, dumpc_length; lia).
  assert (Hd2 : dst2 <> []).
  { intro Hx. rewrite Hx in E4. simpl in E4. lia. }
  destruct dst2 as [|d0 dst2]; [congruence|].
  assert (Hupd0 : forall x, upd (W ++ d0 :: dst2) 0 x = Some (firstn 0 (W ++ d0 :: dst2) ++ x :: skipn 1 (W ++ d0 :: dst2))).
  { intros. apply upd_lt. rewrite app_length. simpl. lia. }
  assert (Hempty : exists d' , upd (W ++ d0 :: dst2) 0 0 = Some d' /\ length d' = length dst /\ nth 0 d' 1 = 0).
  { rewrite Hupd0. eexists. split; [reflexivity|]. split; [|reflexivity]. cbn [firstn app]. cbn [length]. rewrite skipn_length.
    rewrite app_length. simpl. simpl in E4. lia. }
  destruct n as [|n'].
  - (* nothing written *)
    assert (W = []) by (apply length_zero_iff_nil; auto). 
    destruct Hempty as (d' & F1 & F2 & F3). rewrite F1. exists d', 0%nat, 0%nat. cbn [firstn concat]. repeat split; auto; try lia.
    intros HL Hev. assert (length text = 0)%nat by lia. apply length_zero_iff_nil in H0.
    rewrite H0 in Hp. cbn in Hp. rewrite <- Hp. auto.
  - assert (HWs : exists W' c, W = W' ++ [c] /\ length W' = n').
    { revert HW. generalize W. clear. intros W HW.
      destruct W as [|c W' _] using rev_ind; [simpl in HW; lia|]. exists W', c. split; auto. rewrite app_length in HW. simpl in HW. lia. }
    destruct HWs as (W' & c & EW & HW').
    assert (Hrd : rd (W ++ d0 :: dst2) n' = Some c).
    { rewrite EW, <- app_assoc. cbn [app]. rewrite <- HW'. apply rd_app. }
    rewrite Hrd.
    assert (Hfn : forall x, firstn (S n') (W ++ x :: dst2) = W) by (intros; rewrite <- HW; apply firstn_app_exact).
    assert (Hud : upd (W ++ d0 :: dst2) (S n') 0 = Some (W ++ 0 :: dst2)) by (rewrite <- HW; apply upd_app).
    change LF with 10.
    destruct (Z.eqb_spec c 10).
    + (* ends in LF *)
      rewrite Hud.
      assert (Hlast : last W 0 = 10) by (rewrite EW, last_last; auto).
      assert (HWne : W <> []) by (rewrite EW; destruct W'; discriminate).
      unfold W in Hlast, HWne. rewrite Htl in Hlast, HWne.
      destruct (prefix_lines (length l) l (S n')) as (k & F1 & F2); auto.
      { apply nolf_text. rewrite <- Htl. auto. }
      exists (W ++ 0 :: dst2), (S n'), k. repeat split; auto.
      * rewrite app_length in *. simpl in *. lia.
      * simpl in E4. lia.
      * rewrite Hfn. unfold W. rewrite Htl. auto.
      * rewrite app_nth2 by lia. rewrite HW, Nat.sub_diag. auto.
      * intros HL Hev. rewrite Hfn. unfold W. rewrite Htl. rewrite F1.
        destruct F2 as [-> _]. { rewrite <- Htl. destruct E3 as [E3|E3]; lia. }
        f_equal. rewrite <- (map_length line). apply firstn_all.
    + destruct Hempty as (d' & F1 & F2 & F3). rewrite F1. exists d', 0%nat, 0%nat. cbn [firstn concat]. repeat split; auto; try lia.
      intros HL Hev. exfalso. apply n.
      assert (S n' = length text) by (destruct E3; lia).
      assert (HWf : W = dumpc true text) by (unfold W; rewrite firstn_all2; auto; rewrite dumpc_length; lia).
      assert (Hlast : last W 0 = 10).
      { rewrite HWf, Htl. apply dumpc_last_even; auto. intro Hx. rewrite Htl, Hx in H. cbn in H. lia. }
      rewrite EW, last_last in Hlast. auto.
Qed.

(** ** Signedness of char *)

Lemma ck_loop_sign : forall n i sep s1 s2 fr, s1 mod 64 = s2 mod 64 ->
  match ck_loop true n i sep s1 fr, ck_loop false n i sep s2 fr with
  | Some (a, f1), Some (b, f2) => a mod 64 = b mod 64 /\ f1 = f2
  | None, None => True
  | _, _ => False
  end.
Proof.
  induction n; simpl; intros; auto.
  destruct (rd fr i) as [b|]; auto.
  assert (HH : (s1 + char_val true b) mod 64 = (s2 + char_val false b) mod 64).
  { rewrite Zplus_mod, H, char_val_mod64, <- (char_val_mod64 false b), <- Zplus_mod. auto. }
  destruct (b =? sep).
  - destruct (upd fr i 0); auto. apply IHn; auto.
  - apply IHn; auto.
Qed.

Lemma put_sign : forall now c d, bytes (d_frame d) -> put true now c d = put false now c d.
Proof.
  intros. unfold put.
  destruct (c =? STX), (c =? LF), (c =? CR); auto. all: try (destruct (d_state _); auto; fail).
  cbn [d_state]. destruct (d_state d); auto. unfold put_cr. cbn [d_off d_start d_frame d_size d_ts].
  destruct (_ && _)%bool; auto. destruct (Nat.ltb _ _); auto.
  destruct (rd (d_frame d) (d_off d - 2)) as [sep|]; auto.
  destruct (rd (d_frame d) (d_off d - 1)) as [ckb|] eqn:Er; auto.
  pose proof (ck_loop_sign (d_off d - 2 - d_start d) (d_start d) sep 0 0 (d_frame d) eq_refl).
  destruct (ck_loop true _ _ _ _ _) as [[a f1]|], (ck_loop false _ _ _ _ _) as [[b f2]|]; try contradiction; auto.
  destruct H0 as [Hm ->]. rewrite !land63, Hm.
  assert (is_byte ckb). { unfold bytes in H. rewrite Forall_forall in H. apply H. eapply nth_error_In. exact Er. }
  rewrite !char_val_eq by auto. auto.
Qed.

Lemma upd_bytes : forall m i v m', upd m i v = Some m' -> bytes m -> is_byte v -> bytes m'.
Proof.
  induction m; simpl; intros; [discriminate|]. inv H0. destruct i.
  - inv H. constructor; auto.
  - destruct (upd m i v) eqn:E; inv H. constructor; auto. eapply IHm; eauto.
Qed.
Lemma ck_loop_bytes : forall sgn n i sep s fr s' fr', ck_loop sgn n i sep s fr = Some (s', fr') -> bytes fr -> bytes fr'.
Proof.
  induction n; simpl; intros.
  - inv H. auto.
  - destruct (rd fr i); [|discriminate]. destruct (z =? sep); eauto.
    destruct (upd fr i 0) eqn:E; [|discriminate]. eapply IHn; eauto. eapply upd_bytes; eauto. unfold is_byte. lia.
Qed.
Lemma put_bytes : forall sgn now c d d', put sgn now c d = Some d' -> bytes (d_frame d) -> bytes (d_frame d').
Proof.
  intros sgn now c d d' H Hb. unfold put in H.
  destruct (c =? STX). { inv H. auto. }
  destruct (c =? LF). { cbn [d_state] in H. destruct (d_state d); inv H; auto. }
  destruct (c =? CR).
  { cbn [d_state] in H. destruct (d_state d); try (inv H; auto; fail).
    unfold put_cr in H. cbn [d_size d_off d_start d_frame] in H.
    destruct (_ && _)%bool; [|inv H; auto]. destruct (Nat.ltb _ _); [|inv H; auto].
    destruct (rd _ _); [|discriminate]. destruct (rd _ _); [|discriminate].
    destruct (ck_loop _ _ _ _ _ _) as [[? ?]|] eqn:E; [|discriminate]. apply ck_loop_bytes in E; auto.
    destruct (_ =? _); [|inv H; auto]. destruct (strip_loop _ _); [|discriminate].
    destruct (upd _ _ _) eqn:E2; inv H. eapply upd_bytes; eauto. unfold is_byte. lia. }
  destruct (c =? ETX). { cbn [d_state] in H. destruct (d_state d); inv H; auto. }
  destruct (c =? EOT). { inv H. auto. }
  cbn [d_state] in H. destruct (d_state d); try (inv H; auto; fail).
  destruct (Nat.ltb _ _); [|inv H; auto]. destruct (upd _ _ _) eqn:E; inv H. cbn. eapply upd_bytes; eauto.
  unfold is_byte, u8. apply Z.mod_pos_bound. lia.
Qed.

Lemma run_sign : forall h d, bytes (d_frame d) -> run true h d = run false h d.
Proof.
  induction h as [|[now c] h]; simpl; intros; auto. rewrite put_sign by auto.
  destruct (put false now c d) eqn:E; auto. apply IHh. eapply put_bytes; eauto.
Qed.
