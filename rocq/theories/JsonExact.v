(** A compact text is read back as the value it was printed from only if no string of the value needs an escape: reading
    never yields more characters than the text holds, and a character that needs an escape takes at least two. *)
From Coq Require Import ZArith List Bool Lia ZifyBool ZifyNat.
From Verif Require Import Base BaseFacts Json JsonFacts.
From Verif Require EepromTool.
Import ListNotations.
Open Scope Z_scope.

Definition plainc (c : Z) : bool := (32 <=? c) && negb (c =? 34) && negb (c =? 92).
(** Fewest characters that can write a string, a value. *)
Fixpoint scost (s : list Z) : nat :=
  match s with
  | [] => 0
  | c :: t => (if plainc c then 1 else 2) + scost t
  end.
Fixpoint cost (j : json) : nat :=
  match j with
  | JNull => 4
  | JBool b => if b then 4 else 5
  | JNum n => length n
  | JStr s => 2 + scost s
  | JArr vs => 2 + pred (list_sum (map (fun v => S (cost v)) vs))
  | JObj ms => 2 + pred (list_sum (map (fun m => S (3 + scost (fst m) + cost (snd m))) ms))
  end%nat.

Lemma scost_app : forall a b, scost (a ++ b) = (scost a + scost b)%nat.
Proof. induction a; intros b; cbn [scost app]; [reflexivity|]. rewrite IHa. lia. Qed.
Lemma scost_short : forall s, (scost s <= 2 * length s)%nat.
Proof. induction s; cbn [scost length]; [lia|]. destruct (plainc a); lia. Qed.
Lemma scost_len : forall s, (length s <= scost s)%nat.
Proof. induction s; cbn [scost length]; [lia|]. destruct (plainc a); lia. Qed.
Lemma scost_plain : forall s, (scost s <= length s)%nat -> forallb plainc s = true.
Proof.
  induction s; cbn [scost length forallb]; intro H; [reflexivity|]. assert (L := scost_len s).
  destruct (plainc a); cbn [andb]; [apply IHs; lia|lia].
Qed.
Lemma ws_len : forall s, (length (ws s) <= length s)%nat.
Proof. induction s as [|c t IH]; cbn [ws length]; [lia|]. destruct (is_ws c); cbn [length]; lia. Qed.
Lemma utf8_of_len : forall n, (length (utf8_of n) <= 3)%nat.
Proof. intro n. unfold utf8_of. destruct (n <? 128); [cbn; lia|]. destruct (n <? 2048); cbn; lia. Qed.
Lemma string_cost : forall n s v r, (length s <= n)%nat -> string_rest s = Some (v, r) -> (1 + scost v + length r <= length s)%nat.
Proof.
  induction n as [|n IH]; intros s v r L H; (destruct s as [|c t]; [discriminate|]); cbn [length] in L; [lia|]. cbn [string_rest] in H.
  destruct (c =? 34) eqn:E1; [inv H; cbn; lia|]. destruct (c <? 32) eqn:E2; [discriminate|]. destruct (c =? 92) eqn:E3.
  - destruct t as [|e t']; [discriminate|]. assert (D : e = 117 \/ e <> 117) by lia. destruct D as [->|D].
    + assert (U : unescape 117 = None) by reflexivity.
      destruct t' as [|a t']; [rewrite U in H; discriminate|]. destruct t' as [|b t']; [rewrite U in H; discriminate|].
      destruct t' as [|d t']; [rewrite U in H; discriminate|]. destruct t' as [|f t']; [rewrite U in H; discriminate|].
      destruct (hex a) as [a'|]; [|discriminate]. destruct (hex b) as [b'|]; [|discriminate].
      destruct (hex d) as [d'|]; [|discriminate]. destruct (hex f) as [f'|]; [|discriminate].
      destruct (string_rest t') as [[v' r']|] eqn:E; [|discriminate]. inv H. apply IH in E; [|cbn [length] in L; lia].
      rewrite scost_app. cbn [length]. assert (X := scost_short (utf8_of (a' * 4096 + b' * 256 + d' * 16 + f'))).
      assert (Y := utf8_of_len (a' * 4096 + b' * 256 + d' * 16 + f')). lia.
    + assert (H' : (x <- unescape e ;; '(v0, r0) <- string_rest t' ;; Some (x :: v0, r0)) = Some (v, r)).
      { rewrite <- H. destruct e as [|p|p]; try reflexivity. repeat (destruct p as [p|p|]; try reflexivity). congruence. }
      clear H. destruct (unescape e) as [x|]; [|discriminate]. destruct (string_rest t') as [[v' r']|] eqn:E; [|discriminate]. inv H'.
      apply IH in E; [|cbn [length] in L; lia]. cbn [scost length]. destruct (plainc x); lia.
  - destruct (string_rest t) as [[v' r']|] eqn:E; [|discriminate]. inv H. apply IH in E; [|lia]. cbn [scost length].
    replace (plainc c) with true by (unfold plainc; lia). lia.
Qed.
Lemma after_len : forall w s r, Json.after w s = Some r -> length s = (length w + length r)%nat.
Proof.
  induction w as [|a w IH]; intros s r H; cbn [Json.after] in H; [inv H; reflexivity|]. destruct s as [|b s]; [discriminate|].
  destruct (a =? b); [|discriminate]. apply IH in H. cbn [length]. lia.
Qed.
Lemma digits_split : forall s d r, digits s = (d, r) -> s = d ++ r.
Proof.
  induction s as [|c t IH]; intros d r H; cbn [digits] in H; [inv H; reflexivity|]. destruct (isdigit c); [|inv H; reflexivity].
  destruct (digits t) as [d' r'] eqn:E. inv H. cbn [app]. f_equal. auto.
Qed.
Lemma int_split : forall s i r, int_part s = Some (i, r) -> s = i ++ r.
Proof.
  unfold int_part. intros s i r H. destruct (digits s) as [[|c d] r'] eqn:E; [discriminate|].
  destruct ((c =? 48) && negb (Nat.eqb (length d) 0)); [discriminate|]. inv H. apply digits_split in E. exact E.
Qed.
Lemma frac_eq : forall s, frac_part s = match s with
  | c :: t => if c =? 46 then match digits t with ([], _) => None | (d, r) => Some (46 :: d, r) end else Some ([], s)
  | [] => Some ([], []) end.
Proof.
  intros [|c t]; [reflexivity|]. destruct (c =? 46) eqn:E; [apply Z.eqb_eq in E; subst; reflexivity|]. unfold frac_part.
  destruct c as [|p|p]; try reflexivity. repeat (destruct p as [p|p|]; try reflexivity). discriminate.
Qed.
Lemma frac_split : forall s i r, frac_part s = Some (i, r) -> s = i ++ r.
Proof.
  intros s i r H. rewrite frac_eq in H. destruct s as [|c t]; [inv H; reflexivity|]. destruct (Z.eqb_spec c 46) as [->|N].
  - destruct (digits t) as [d r'] eqn:E. apply digits_split in E. destruct d; [discriminate|]. inv H. reflexivity.
  - inv H. reflexivity.
Qed.
Lemma exp_split : forall s i r, exp_part s = Some (i, r) -> s = i ++ r.
Proof.
  unfold exp_part. intros s i r H. destruct s as [|e t]; [inv H; reflexivity|]. destruct ((e =? 101) || (e =? 69)); [|inv H; reflexivity].
  assert (X : forall sg t1, t = sg ++ t1 -> match digits t1 with ([], _) => None | (d, r) => Some (e :: sg ++ d, r) end = Some (i, r) -> e :: t = i ++ r).
  { intros sg t1 T Q. destruct (digits t1) as [d r'] eqn:E. apply digits_split in E. destruct d; [discriminate|]. inv Q.
    cbn [app]. rewrite <- app_assoc. reflexivity. }
  destruct t as [|x t']; [apply (X [] []); auto|]. destruct ((x =? 43) || (x =? 45)); [apply (X [x] t'); auto|apply (X [] (x :: t')); auto].
Qed.
Definition signed (s : list Z) : list Z * list Z := match s with c :: t => if c =? 45 then ([45], t) else ([], s) | [] => ([], []) end.
Lemma number_eq : forall s, number s = let '(sg, s1) := signed s in
  '(i, s2) <- int_part s1 ;; '(f, s3) <- frac_part s2 ;; '(e, s4) <- exp_part s3 ;; Some (sg ++ i ++ f ++ e, s4).
Proof.
  intros [|c t]; [reflexivity|]. unfold signed. destruct (c =? 45) eqn:E; [apply Z.eqb_eq in E; subst; reflexivity|]. unfold number.
  destruct c as [|p|p]; try reflexivity. repeat (destruct p as [p|p|]; try reflexivity). discriminate.
Qed.
Lemma number_split : forall s n r, number s = Some (n, r) -> s = n ++ r.
Proof.
  intros s n r H. rewrite number_eq in H. destruct (signed s) as [sg s1] eqn:S.
  assert (S1 : s = sg ++ s1).
  { unfold signed in S. destruct s as [|c t]; [inv S; reflexivity|]. destruct (Z.eqb_spec c 45) as [->|]; inv S; reflexivity. }
  destruct (int_part s1) as [[i s2]|] eqn:E1; [|discriminate]. destruct (frac_part s2) as [[f s3]|] eqn:E2; [|discriminate].
  destruct (exp_part s3) as [[e s4]|] eqn:E3; [|discriminate]. inv H. apply int_split in E1. apply frac_split in E2. apply exp_split in E3. subst.
  rewrite <- !app_assoc. reflexivity.
Qed.

(** ** Values: the same functions with tests instead of patterns *)
Ltac patt l := destruct l as [|c l]; [reflexivity|]; destruct c as [|p|p]; try reflexivity; repeat (destruct p as [p|p|]; try reflexivity).
Lemma pat125 : forall A (a : list Z -> A) (b : A) l,
  match l with 125 :: r => a r | _ => b end = match l with c :: r => if c =? 125 then a r else b | [] => b end.
Proof. intros A a b l. patt l. Qed.
Lemma pat93 : forall A (a : list Z -> A) (b : A) l,
  match l with 93 :: r => a r | _ => b end = match l with c :: r => if c =? 93 then a r else b | [] => b end.
Proof. intros A a b l. patt l. Qed.
Lemma pat34 : forall A (a : list Z -> A) (b : A) l,
  match l with 34 :: r => a r | _ => b end = match l with c :: r => if c =? 34 then a r else b | [] => b end.
Proof. intros A a b l. patt l. Qed.
Lemma pat58 : forall A (a : list Z -> A) (b : A) l,
  match l with 58 :: r => a r | _ => b end = match l with c :: r => if c =? 58 then a r else b | [] => b end.
Proof. intros A a b l. patt l. Qed.
Lemma pat44_125 : forall A (a b : list Z -> A) (d : A) l,
  match l with 44 :: r => a r | 125 :: r => b r | _ => d end =
  match l with c :: r => if c =? 44 then a r else if c =? 125 then b r else d | [] => d end.
Proof. intros A a b d l. patt l. Qed.
Lemma pat44_93 : forall A (a b : list Z -> A) (d : A) l,
  match l with 44 :: r => a r | 93 :: r => b r | _ => d end =
  match l with c :: r => if c =? 44 then a r else if c =? 93 then b r else d | [] => d end.
Proof. intros A a b d l. patt l. Qed.
Definition msum (ms : list (list Z * json)) : nat := list_sum (map (fun m => S (3 + scost (fst m) + cost (snd m))) ms).
Definition vsum (vs : list json) : nat := list_sum (map (fun v => S (cost v)) vs).
Lemma msum_cons : forall m ms, msum (m :: ms) = (4 + scost (fst m) + cost (snd m) + msum ms)%nat.
Proof. reflexivity. Qed.
Lemma vsum_cons : forall v vs, vsum (v :: vs) = (1 + cost v + vsum vs)%nat.
Proof. reflexivity. Qed.
Lemma read_cost : forall f,
  (forall s v r, value f s = Some (v, r) -> (cost v + length r <= length s)%nat) /\
  (forall s ms r, members f s = Some (ms, r) -> (msum ms + length r <= length s)%nat /\ ms <> []) /\
  (forall s vs r, items f s = Some (vs, r) -> (vsum vs + length r <= length s)%nat /\ vs <> []).
Proof.
  induction f as [|f (IHv & IHm & IHi)]; [repeat split; discriminate|]. split; [|split].
  - intros s v r H. cbn [value] in H. assert (W := ws_len s). destruct (ws s) as [|c t] eqn:Es; [discriminate|]. cbn [length] in W.
    destruct (c =? 123).
    { rewrite pat125 in H. assert (W2 := ws_len t). destruct (ws t) as [|c2 t2] eqn:Et.
      - destruct (members f t) as [[ms r0]|] eqn:E; [|discriminate]. inv H. apply IHm in E. destruct E as (E & N).
        cbn [cost]. fold (msum ms). destruct ms as [|m ms]; [congruence|]. unfold msum in *. cbn [map list_sum fold_right Nat.add pred] in *. lia.
      - destruct (c2 =? 125); [inv H; cbn [length] in *; cbn; lia|].
        destruct (members f t) as [[ms r0]|] eqn:E; [|discriminate]. inv H. apply IHm in E. destruct E as (E & N).
        cbn [cost]. fold (msum ms). destruct ms as [|m ms]; [congruence|]. unfold msum in *. cbn [map list_sum fold_right Nat.add pred] in *. lia. }
    destruct (c =? 91).
    { rewrite pat93 in H. assert (W2 := ws_len t). destruct (ws t) as [|c2 t2] eqn:Et.
      - destruct (items f t) as [[ms r0]|] eqn:E; [|discriminate]. inv H. apply IHi in E. destruct E as (E & N).
        cbn [cost]. fold (vsum ms). destruct ms as [|m ms]; [congruence|]. unfold vsum in *. cbn [map list_sum fold_right Nat.add pred] in *. lia.
      - destruct (c2 =? 93); [inv H; cbn [length] in *; cbn; lia|].
        destruct (items f t) as [[ms r0]|] eqn:E; [|discriminate]. inv H. apply IHi in E. destruct E as (E & N).
        cbn [cost]. fold (vsum ms). destruct ms as [|m ms]; [congruence|]. unfold vsum in *. cbn [map list_sum fold_right Nat.add pred] in *. lia. }
    destruct (c =? 34).
    { destruct (string_rest t) as [[x r0]|] eqn:E; [|discriminate]. inv H. apply (string_cost (length t)) in E; [|lia]. cbn [cost]. lia. }
    destruct (c =? 116); [destruct (Json.after (str "rue") t) eqn:E; [|discriminate]; inv H; apply after_len in E; change (length (str "rue")) with 3%nat in E; cbn [cost]; lia|].
    destruct (c =? 102); [destruct (Json.after (str "alse") t) eqn:E; [|discriminate]; inv H; apply after_len in E; change (length (str "alse")) with 4%nat in E; cbn [cost]; lia|].
    destruct (c =? 110); [destruct (Json.after (str "ull") t) eqn:E; [|discriminate]; inv H; apply after_len in E; change (length (str "ull")) with 3%nat in E; cbn [cost]; lia|].
    destruct (number (c :: t)) as [[n r0]|] eqn:E; [|discriminate]. inv H. apply number_split in E. apply (f_equal (@length Z)) in E.
    rewrite app_length in E. cbn [cost length] in *. lia.
  - intros s ms r H. cbn [members] in H. assert (W := ws_len s). rewrite pat34 in H. destruct (ws s) as [|c t]; [discriminate|]. cbn [length] in W.
    destruct (c =? 34); [|discriminate]. destruct (string_rest t) as [[k r0]|] eqn:E; [|discriminate].
    apply (string_cost (length t)) in E; [|lia]. rewrite pat58 in H. assert (W2 := ws_len r0). destruct (ws r0) as [|c2 r1]; [discriminate|].
    cbn [length] in W2. destruct (c2 =? 58); [|discriminate]. destruct (value f r1) as [[v r2]|] eqn:Ev; [|discriminate]. apply IHv in Ev.
    rewrite pat44_125 in H. assert (W3 := ws_len r2). destruct (ws r2) as [|c3 r3]; [discriminate|]. cbn [length] in W3.
    destruct (c3 =? 44).
    { destruct (members f r3) as [[ms' r4]|] eqn:Em; [|discriminate]. inv H. apply IHm in Em. split; [|discriminate].
      rewrite msum_cons; cbn [fst snd]; try change (msum []) with 0%nat; lia. }
    destruct (c3 =? 125); [|discriminate]. inv H. split; [|discriminate]. rewrite msum_cons; cbn [fst snd]; try change (msum []) with 0%nat; lia.
  - intros s vs r H. cbn [items] in H. destruct (value f s) as [[v r1]|] eqn:Ev; [|discriminate]. apply IHv in Ev.
    rewrite pat44_93 in H. assert (W3 := ws_len r1). destruct (ws r1) as [|c3 r3]; [discriminate|]. cbn [length] in W3.
    destruct (c3 =? 44).
    { destruct (items f r3) as [[ms' r4]|] eqn:Em; [|discriminate]. inv H. apply IHi in Em. split; [|discriminate].
      rewrite vsum_cons; try change (vsum []) with 0%nat; lia. }
    destruct (c3 =? 93); [|discriminate]. inv H. split; [|discriminate]. rewrite vsum_cons; try change (vsum []) with 0%nat; lia.
Qed.

(** ** Texts of printed values *)
Lemma sep_len : forall l, length (sep_by [44] l) = pred (list_sum (map (fun x => S (length x)) l)).
Proof.
  induction l as [|x l IH]; [reflexivity|]. destruct l as [|y l]; [cbn; lia|]. rewrite sep_by_cons, !app_length, IH. cbn. lia.
Qed.
(** Every string of the value is made of plain characters. *)
Fixpoint plain_strings (j : json) : bool :=
  match j with
  | JStr s => forallb plainc s
  | JArr vs => forallb plain_strings vs
  | JObj ms => forallb (fun m => forallb plainc (fst m) && plain_strings (snd m)) ms
  | _ => true
  end.
Lemma print_cost : forall j, (length (print j) <= cost j)%nat /\ ((cost j <= length (print j))%nat -> plain_strings j = true).
Proof.
  induction j as [|b|n|s|vs IH|ms IH] using json_ind'; cbn [print cost plain_strings].
  - split; [cbn; lia|reflexivity].
  - split; [destruct b; cbn; lia|reflexivity].
  - split; [lia|reflexivity].
  - unfold quoted. cbn [length]. rewrite app_length. cbn [length]. assert (L := scost_len s). split; [lia|]. intro H. apply scost_plain. lia.
  - cbn [length]. rewrite app_length, sep_len, map_map. cbn [length]. fold (vsum vs).
    assert (X : (list_sum (map (fun x => S (length (print x))) vs) <= vsum vs)%nat /\
      ((vsum vs <= list_sum (map (fun x => S (length (print x))) vs))%nat -> forallb plain_strings vs = true)).
    { clear - IH. induction IH as [|v vs (A & B) F (IH1 & IH2)]; [split; [cbn; lia|reflexivity]|]. rewrite vsum_cons. cbn [map list_sum fold_right].
      fold (list_sum (map (fun x => S (length (print x))) vs)). split; [lia|]. intro H. cbn [forallb]. rewrite B by lia. rewrite IH2 by lia. reflexivity. }
    destruct X as (X1 & X2). split; [lia|]. intro H. apply X2. destruct vs as [|v vs]; [cbn; lia|].
    rewrite vsum_cons in *. cbn [map list_sum fold_right] in *. lia.
  - cbn [length]. rewrite app_length, sep_len, map_map. cbn [length]. fold (msum ms).
    assert (X : (list_sum (map (fun x => S (length (quoted (fst x) ++ 58%Z :: print (snd x)))) ms) <= msum ms)%nat /\
      ((msum ms <= list_sum (map (fun x => S (length (quoted (fst x) ++ 58%Z :: print (snd x)))) ms))%nat ->
       forallb (fun m => forallb plainc (fst m) && plain_strings (snd m)) ms = true)).
    { clear - IH. induction IH as [|v vs (A & B) F (IH1 & IH2)]; [split; [cbn; lia|reflexivity]|]. rewrite msum_cons. cbn [map list_sum fold_right].
      fold (list_sum (map (fun x => S (length (quoted (fst x) ++ 58%Z :: print (snd x)))) vs)).
      rewrite app_length. unfold quoted at 1 3. cbn [length]. rewrite app_length. cbn [length]. assert (L := scost_len (fst v)).
      split; [lia|]. intro H. cbn [forallb]. rewrite B by lia. rewrite IH2 by lia. rewrite scost_plain by lia. reflexivity. }
    destruct X as (X1 & X2). split; [lia|]. intro H. apply X2. destruct ms as [|v ms]; [cbn; lia|].
    rewrite msum_cons in *. cbn [map list_sum fold_right] in *. lia.
Qed.

(** ** Numbers read are plain *)
Lemma digits_spec : forall s d r, digits s = (d, r) -> forallb isdigit d = true /\ match r with [] => True | c :: _ => isdigit c = false end.
Proof.
  induction s as [|c t IH]; intros d r H; cbn [digits] in H; [inv H; auto|]. destruct (isdigit c) eqn:E; [|inv H; auto].
  destruct (digits t) as [d' r'] eqn:F. inv H. destruct (IH _ _ eq_refl) as (A & B). cbn [forallb]. rewrite E, A. auto.
Qed.
Definition starts_plain (x : list Z) : Prop := match x with [] => True | c :: _ => isdigit c = false end.
Lemma digits_then : forall d x, forallb isdigit d = true -> starts_plain x -> digits (d ++ x) = (d, x).
Proof.
  induction d as [|c d IH]; intros x D X; cbn [app].
  - destruct x as [|c x]; [reflexivity|]. cbn in X. cbn [digits]. rewrite X. reflexivity.
  - cbn [forallb] in D. apply andb_true_iff in D. destruct D as (C & D). cbn [digits]. rewrite C, IH; auto.
Qed.
Lemma int_again : forall s i r x, int_part s = Some (i, r) -> starts_plain x -> int_part (i ++ x) = Some (i, x).
Proof.
  unfold int_part. intros s i r x H X. destruct (digits s) as [d r'] eqn:E. destruct (digits_spec _ _ _ E) as (D & _).
  destruct d as [|c d]; [discriminate|]. destruct ((c =? 48) && negb (Nat.eqb (length d) 0)) eqn:Z; [discriminate|]. inv H.
  rewrite digits_then by auto. rewrite Z. reflexivity.
Qed.
Lemma int_first : forall s i r, int_part s = Some (i, r) -> exists c t, i = c :: t /\ isdigit c = true.
Proof.
  unfold int_part. intros s i r H. destruct (digits s) as [d r'] eqn:E. destruct (digits_spec _ _ _ E) as (D & _).
  destruct d as [|c d]; [discriminate|]. destruct ((c =? 48) && negb (Nat.eqb (length d) 0)); [discriminate|]. inv H.
  cbn [forallb] in D. exists c, d. split; [reflexivity|]. apply andb_true_iff in D. apply D.
Qed.
Lemma frac_again : forall s f r x, frac_part s = Some (f, r) -> starts_plain x -> match x with 46 :: _ => False | _ => True end ->
  frac_part (f ++ x) = Some (f, x) /\ (f = [] \/ exists t, f = 46 :: t).
Proof.
  intros s f r x H X N. rewrite frac_eq in H. assert (Nil : frac_part ([] ++ x) = Some ([], x)).
  { cbn [app]. rewrite frac_eq. destruct x as [|c x]; [reflexivity|]. destruct (Z.eqb_spec c 46) as [->|]; [contradiction|reflexivity]. }
  destruct s as [|c t]; [inv H; auto|]. destruct (c =? 46); [|inv H; auto].
  destruct (digits t) as [d r'] eqn:E. destruct (digits_spec _ _ _ E) as (D & _). destruct d as [|c' d]; [discriminate|].
  assert (F : f = 46 :: c' :: d) by congruence. subst f. split; [|right; eauto].
  change ((46 :: c' :: d) ++ x) with (46 :: (c' :: d) ++ x). rewrite frac_eq. change (46 =? 46) with true. cbn iota.
  rewrite digits_then by auto. reflexivity.
Qed.
Lemma exp_again : forall s e r, exp_part s = Some (e, r) -> exp_part e = Some (e, []) /\ starts_plain e /\ match e with 46 :: _ => False | _ => True end.
Proof.
  unfold exp_part. intros s e r H. destruct s as [|c t]; [inv H; cbn; auto|]. destruct ((c =? 101) || (c =? 69)) eqn:C; [|inv H; cbn; auto].
  assert (X : forall sg t1, (sg = [] \/ exists x, sg = [x] /\ ((x =? 43) || (x =? 45) = true)) ->
    match digits t1 with ([], _) => None | (d, r) => Some (c :: sg ++ d, r) end = Some (e, r) ->
    exp_part e = Some (e, []) /\ starts_plain e /\ match e with 46 :: _ => False | _ => True end).
  { intros sg t1 S Q. destruct (digits t1) as [d r'] eqn:E. destruct (digits_spec _ _ _ E) as (D & _). destruct d as [|c' d]; [discriminate|].
    assert (F : e = c :: sg ++ c' :: d) by congruence. subst e. split; [|split; [cbn; unfold isdigit; lia|]].
    - unfold exp_part. rewrite C. destruct S as [->|(x & -> & S)].
      + cbn [app]. assert (C' : isdigit c' = true) by (cbn [forallb] in D; apply andb_true_iff in D; apply D).
        replace ((c' =? 43) || (c' =? 45)) with false by (unfold isdigit in C'; lia).
        assert (Y := digits_then (c' :: d) [] D Logic.I). rewrite app_nil_r in Y. rewrite Y. reflexivity.
      + cbn [app]. rewrite S. assert (Y := digits_then (c' :: d) [] D Logic.I). rewrite app_nil_r in Y. rewrite Y. reflexivity.
    - destruct (Z.eqb_spec c 46) as [->|N]; [discriminate C|]. destruct c as [|p|p]; auto. repeat (destruct p as [p|p|]; auto). }
  destruct t as [|x t']; [apply (X [] []); auto|]. destruct ((x =? 43) || (x =? 45)) eqn:S; [apply (X [x] t'); eauto|apply (X [] (x :: t')); auto].
Qed.
Lemma number_again : forall s n r, number s = Some (n, r) -> plain_number n = true.
Proof.
  intros s n r H. rewrite number_eq in H. destruct (signed s) as [sg s1] eqn:S.
  destruct (int_part s1) as [[i s2]|] eqn:E1; [|discriminate]. destruct (frac_part s2) as [[f s3]|] eqn:E2; [|discriminate].
  destruct (exp_part s3) as [[e s4]|] eqn:E3; [|discriminate]. inv H.
  destruct (exp_again _ _ _ E3) as (A3 & B3 & C3). destruct (frac_again _ _ _ e E2 B3 C3) as (A2 & B2).
  assert (X : starts_plain (f ++ e)) by (destruct B2 as [->|(t & ->)]; [exact B3|reflexivity]).
  assert (A1 := int_again _ _ _ (f ++ e) E1 X). destruct (int_first _ _ _ E1) as (c & t & I & C).
  assert (N : number (sg ++ i ++ f ++ e) = Some (sg ++ i ++ f ++ e, [])).
  { rewrite number_eq. assert (Y : signed (sg ++ i ++ f ++ e) = (sg, i ++ f ++ e)).
    { clear A1 A2 A3 E1 E2 E3. assert (D : c =? 45 = false) by (unfold isdigit in C; lia).
      assert (Q : signed ([] ++ i ++ f ++ e) = ([], i ++ f ++ e)) by (rewrite I; cbn [app]; unfold signed; rewrite D; reflexivity).
      unfold signed in S. destruct s as [|c0 t0]; [inv S; exact Q|]. destruct (c0 =? 45); inv S; [reflexivity|exact Q]. }
    rewrite Y. cbn iota beta. rewrite A1. cbn iota beta. rewrite A2. cbn iota beta. rewrite A3. reflexivity. }
  unfold plain_number. rewrite N. rewrite beq_refl. reflexivity.
Qed.
Fixpoint plain_numbers (j : json) : bool :=
  match j with
  | JNum n => plain_number n
  | JArr vs => forallb plain_numbers vs
  | JObj ms => forallb (fun m => plain_numbers (snd m)) ms
  | _ => true
  end.
Lemma read_numbers : forall f,
  (forall s v r, value f s = Some (v, r) -> plain_numbers v = true) /\
  (forall s ms r, members f s = Some (ms, r) -> forallb (fun m => plain_numbers (snd m)) ms = true) /\
  (forall s vs r, items f s = Some (vs, r) -> forallb plain_numbers vs = true).
Proof.
  induction f as [|f (IHv & IHm & IHi)]; [repeat split; discriminate|]. split; [|split].
  - intros s v r H. cbn [value] in H. destruct (ws s) as [|c t]; [discriminate|].
    destruct (c =? 123).
    { rewrite pat125 in H. assert (M : forall ms r0, members f t = Some (ms, r0) -> plain_numbers (JObj ms) = true) by (intros ms r0 E; exact (IHm _ _ _ E)).
      destruct (ws t) as [|c2 t2].
      - destruct (members f t) as [[ms r0]|] eqn:E; [|discriminate]. inv H. eapply M; eauto.
      - destruct (c2 =? 125); [inv H; reflexivity|]. destruct (members f t) as [[ms r0]|] eqn:E; [|discriminate]. inv H. eapply M; eauto. }
    destruct (c =? 91).
    { rewrite pat93 in H. assert (M : forall ms r0, items f t = Some (ms, r0) -> plain_numbers (JArr ms) = true) by (intros ms r0 E; exact (IHi _ _ _ E)).
      destruct (ws t) as [|c2 t2].
      - destruct (items f t) as [[ms r0]|] eqn:E; [|discriminate]. inv H. eapply M; eauto.
      - destruct (c2 =? 93); [inv H; reflexivity|]. destruct (items f t) as [[ms r0]|] eqn:E; [|discriminate]. inv H. eapply M; eauto. }
    destruct (c =? 34); [destruct (string_rest t) as [[x r0]|]; [|discriminate]; inv H; reflexivity|].
    destruct (c =? 116); [destruct (Json.after (str "rue") t); [|discriminate]; inv H; reflexivity|].
    destruct (c =? 102); [destruct (Json.after (str "alse") t); [|discriminate]; inv H; reflexivity|].
    destruct (c =? 110); [destruct (Json.after (str "ull") t); [|discriminate]; inv H; reflexivity|].
    destruct (number (c :: t)) as [[n r0]|] eqn:E; [|discriminate]. inv H. exact (number_again _ _ _ E).
  - intros s ms r H. cbn [members] in H. rewrite pat34 in H. destruct (ws s) as [|c t]; [discriminate|].
    destruct (c =? 34); [|discriminate]. destruct (string_rest t) as [[k r0]|]; [|discriminate].
    rewrite pat58 in H. destruct (ws r0) as [|c2 r1]; [discriminate|].
    destruct (c2 =? 58); [|discriminate]. destruct (value f r1) as [[v r2]|] eqn:Ev; [|discriminate]. apply IHv in Ev.
    rewrite pat44_125 in H. destruct (ws r2) as [|c3 r3]; [discriminate|].
    destruct (c3 =? 44).
    { destruct (members f r3) as [[ms' r4]|] eqn:Em; [|discriminate]. inv H. apply IHm in Em. cbn [forallb snd]. rewrite Ev, Em. reflexivity. }
    destruct (c3 =? 125); [|discriminate]. inv H. cbn [forallb snd]. rewrite Ev. reflexivity.
  - intros s vs r H. cbn [items] in H. destruct (value f s) as [[v r1]|] eqn:Ev; [|discriminate]. apply IHv in Ev.
    rewrite pat44_93 in H. destruct (ws r1) as [|c3 r3]; [discriminate|].
    destruct (c3 =? 44).
    { destruct (items f r3) as [[ms' r4]|] eqn:Em; [|discriminate]. inv H. apply IHi in Em. cbn [forallb]. rewrite Ev, Em. reflexivity. }
    destruct (c3 =? 93); [|discriminate]. inv H. cbn [forallb]. rewrite Ev. reflexivity.
Qed.

(** ** UTF-8 of the pieces *)
Lemma utf8_pieces : forall f a c b, 0 <= c <= 127 -> EepromTool.utf8 f (a ++ c :: b) = true ->
  EepromTool.is_utf8 a = true /\ EepromTool.is_utf8 b = true.
Proof.
  induction f as [|f IH]; intros a c b C H; [discriminate|]. cbn [EepromTool.utf8] in H.
  assert (CC : forall x, EepromTool.cont x = true -> x <> c) by (unfold EepromTool.cont; intros; lia).
  assert (One : forall n x, EepromTool.utf8 n x = true -> EepromTool.is_utf8 x = true) by apply utf8_any.
  assert (Up : forall x y, (forall n, EepromTool.utf8 n x = true -> EepromTool.utf8 (Datatypes.S n) y = true) -> EepromTool.is_utf8 x = true -> EepromTool.is_utf8 y = true).
  { intros x y Q E. apply (utf8_any (Datatypes.S (Datatypes.S (length x)))). apply Q. exact E. }
  destruct a as [|c0 a]; cbn [app] in H.
  { replace ((0 <=? c) && (c <=? 127)) with true in H by lia. split; [reflexivity|]. eauto. }
  destruct ((0 <=? c0) && (c0 <=? 127)) eqn:E0.
  { apply IH in H; [|auto]. destruct H as (A & B). split; [|auto]. apply (Up a); [|auto]. intros n Q. cbn [EepromTool.utf8]. rewrite E0. exact Q. }
  destruct a as [|c1 a]; cbn [app] in H.
  { destruct ((194 <=? c0) && (c0 <=? 223)); [exfalso; apply andb_true_iff in H; destruct H as (K & _); exact (CC _ K eq_refl)|].
    destruct b as [|c2 b]; [discriminate|]. exfalso. destruct ((224 <=? c0) && (c0 <=? 239)).
    - apply andb_true_iff in H; destruct H as (K & _). do 3 (apply andb_true_iff in K; destruct K as (K & _)). exact (CC _ K eq_refl).
    - destruct b as [|c3 b]; [discriminate|]. apply andb_true_iff in H; destruct H as (K & _).
      do 4 (apply andb_true_iff in K; destruct K as (K & _)). apply andb_true_iff in K. destruct K as (_ & K). exact (CC _ K eq_refl). }
  destruct ((194 <=? c0) && (c0 <=? 223)) eqn:E1.
  { apply andb_true_iff in H. destruct H as (K & H). apply IH in H; [|auto]. destruct H as (A & B). split; [|auto].
    apply (Up a); [|auto]. intros n Q. cbn [EepromTool.utf8]. rewrite E0, E1, K, Q. reflexivity. }
  destruct a as [|c2 a]; cbn [app] in H.
  { exfalso. destruct ((224 <=? c0) && (c0 <=? 239)).
    - apply andb_true_iff in H; destruct H as (K & _). do 2 (apply andb_true_iff in K; destruct K as (K & _)).
      apply andb_true_iff in K. destruct K as (_ & K). exact (CC _ K eq_refl).
    - destruct b as [|c3 b]; [discriminate|]. apply andb_true_iff in H; destruct H as (K & _).
      do 3 (apply andb_true_iff in K; destruct K as (K & _)). apply andb_true_iff in K. destruct K as (_ & K). exact (CC _ K eq_refl). }
  destruct ((224 <=? c0) && (c0 <=? 239)) eqn:E2.
  { apply andb_true_iff in H. destruct H as (K & H). apply IH in H; [|auto]. destruct H as (A & B). split; [|auto].
    apply (Up a); [|auto]. intros n Q. cbn [EepromTool.utf8]. rewrite E0, E1, E2, K, Q. reflexivity. }
  destruct a as [|c3 a]; cbn [app] in H.
  { exfalso. apply andb_true_iff in H; destruct H as (K & _).
    do 2 (apply andb_true_iff in K; destruct K as (K & _)). apply andb_true_iff in K. destruct K as (_ & K). exact (CC _ K eq_refl). }
  apply andb_true_iff in H. destruct H as (K & H). apply IH in H; [|auto]. destruct H as (A & B). split; [|auto].
  apply (Up a); [|auto]. intros n Q. cbn [EepromTool.utf8]. rewrite E0, E1, E2, K, Q. reflexivity.
Qed.
Lemma utf8_split : forall a c b, 0 <= c <= 127 -> EepromTool.is_utf8 (a ++ c :: b) = true ->
  EepromTool.is_utf8 a = true /\ EepromTool.is_utf8 b = true.
Proof. intros a c b C H. exact (utf8_pieces _ a c b C H). Qed.
Lemma utf8_sep : forall l, EepromTool.is_utf8 (sep_by [44] l) = true -> forallb EepromTool.is_utf8 l = true.
Proof.
  induction l as [|x l IH]; intro H; [reflexivity|]. destruct l as [|y l]; [cbn [sep_by forallb] in *; rewrite H; reflexivity|].
  rewrite sep_by_cons in H. apply (utf8_split x 44) in H; [|lia]. destruct H as (A & B). cbn [forallb] in *. rewrite A. apply IH. exact B.
Qed.
Fixpoint utf8_strings (j : json) : bool :=
  match j with
  | JStr s => EepromTool.is_utf8 s
  | JArr vs => forallb utf8_strings vs
  | JObj ms => forallb (fun m => EepromTool.is_utf8 (fst m) && utf8_strings (snd m)) ms
  | _ => true
  end.
Lemma utf8_inside : forall c s d, 0 <= c <= 127 -> 0 <= d <= 127 -> EepromTool.is_utf8 (c :: s ++ [d]) = true -> EepromTool.is_utf8 s = true.
Proof.
  intros c s d C D H. apply (utf8_split [] c) in H; [|auto]. destruct H as (_ & H). apply (utf8_split s d) in H; [|auto]. apply H.
Qed.
Lemma print_pieces : forall j, EepromTool.is_utf8 (print j) = true -> utf8_strings j = true.
Proof.
  induction j as [|b|n|s|vs IH|ms IH] using json_ind'; cbn [print utf8_strings]; intro H; auto.
  - apply (utf8_inside 34 s 34); [lia|lia|exact H].
  - apply utf8_inside in H; [|lia|lia]. apply utf8_sep in H. clear - H IH. induction IH as [|v vs A F I]; [reflexivity|]. cbn [map forallb] in *.
    apply andb_true_iff in H. destruct H as (H1 & H2). rewrite A by auto. apply I. auto.
  - apply utf8_inside in H; [|lia|lia]. apply utf8_sep in H. clear - H IH. induction IH as [|v vs A F I]; [reflexivity|]. cbn [map forallb] in *.
    apply andb_true_iff in H. destruct H as (H1 & H2). apply (utf8_split (quoted (fst v)) 58) in H1; [|lia]. destruct H1 as (Q & P).
    apply (utf8_inside 34 _ 34) in Q; [|lia|lia]. rewrite Q, A by auto. apply I. auto.
Qed.
Lemma pieces_printable : forall j, plain_strings j = true -> plain_numbers j = true -> utf8_strings j = true -> printable j = true.
Proof.
  induction j as [|b|n|s|vs IH|ms IH] using json_ind'; cbn [plain_strings plain_numbers utf8_strings printable]; intros A B C; auto.
  - unfold quotable. apply andb_true_iff. split; [exact A|exact C].
  - induction IH as [|v vs V F I]; [reflexivity|]. cbn [forallb] in *. apply andb_true_iff in A, B, C. rewrite V by tauto. apply I; tauto.
  - induction IH as [|v vs V F I]; [reflexivity|]. cbn [forallb] in *. apply andb_true_iff in A, B, C. destruct A as (A & A'), B as (B & B'), C as (C & C').
    apply andb_true_iff in A, C. rewrite V by tauto. unfold quotable. fold plainc. destruct A as (A & _), C as (C & _).
    change (forallb (fun c => (32 <=? c) && negb (c =? 34) && negb (c =? 92)) (fst v)) with (forallb plainc (fst v)). rewrite A, C. cbn [andb]. apply I; tauto.
Qed.

(** A printed value is read back as itself if and only if its strings need no escape and its numbers are numbers. *)
Lemma json_print_exact : forall j, json_of (print j) = Some j <-> printable j = true.
Proof.
  intro j. split; [|apply json_print]. intro H. unfold json_of in H. destruct (EepromTool.is_utf8 (print j)) eqn:U; [|discriminate].
  destruct (value (Datatypes.S (length (print j))) (print j)) as [[v r]|] eqn:E; [|discriminate].
  destruct (ws r); [|discriminate]. assert (V : v = j) by congruence. subst v. apply pieces_printable.
  - apply print_cost. assert (X := proj1 (read_cost _) _ _ _ E). lia.
  - exact (proj1 (read_numbers _) _ _ _ E).
  - apply print_pieces. exact U.
Qed.
