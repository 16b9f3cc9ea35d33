(** Proofs about the URL templates of src/tic.cpp. *)
From Coq Require Import ZArith List Bool Lia.
From Verif Require Import Base BaseFacts Teleinfo TeleinfoSpec HistorySpec Publish Config ConfigSpec PageProofs Tic TicSpec.
Import ListNotations.
Open Scope Z_scope.

Lemma add_value : forall e t notif gs label, published_ti t -> carries t gs ->
  http_add_value_ex e t label notif = Some (label_text e (t_ts t) gs notif label).
Proof.
  intros e t notif gs label H C. destruct (published_facts t H) as (gs' & w & C' & _ & _ & _ & V).
  rewrite (carries_unique _ _ _ C C') in *. unfold http_add_value_ex, label_text.
  change (beq_nocase label (str "type")) with (same_word label "type").
  change (beq_nocase label (str "notif")) with (same_word label "notif").
  change (beq_nocase label (str "date")) with (same_word label "date").
  change (beq_nocase label (str "timestamp")) with (same_word label "timestamp").
  change (beq_nocase label (str "seconds")) with (same_word label "seconds").
  change (beq_nocase label (str "chipid")) with (same_word label "chipid").
  destruct (same_word label "type"); [reflexivity|]. destruct (same_word label "notif"); [reflexivity|]. cbn [orb].
  destruct (same_word label "date"); [reflexivity|]. destruct (same_word label "timestamp"); [reflexivity|].
  destruct (same_word label "seconds"); [reflexivity|]. destruct (same_word label "chipid"); [reflexivity|].
  destruct (V label) as [_ ->]. destruct (lookup label gs'); reflexivity.
Qed.

(** ** C17 *)
Lemma rd_at : forall A x B p, p = length A -> rd (A ++ x :: B) p = Some x.
Proof. intros. subst. apply rd_app. Qed.
Lemma snoc_app : forall (A : list Z) x B, A ++ x :: B = (A ++ [x]) ++ B.
Proof. intros. rewrite <- app_assoc. reflexivity. Qed.
Lemma snoc_length : forall (A : list Z) x, length (A ++ [x]) = S (length A).
Proof. intros. rewrite app_length. cbn. lia. Qed.

Lemma tilde_label_eq : forall n m p, tilde_label n m p =
  (c <- rd m p ;; if (c =? 0) || (c =? 126) then Some ([], p)
   else match n with O => Some ([], p) | S n' => '(l, q) <- tilde_label n' m (S p) ;; Some (c :: l, q) end).
Proof. destruct n; reflexivity. Qed.
Lemma dollar_label_eq : forall n m p, dollar_label n m p =
  (c <- rd m p ;; if isalpha c || (c =? 95) then
    match n with O => Some ([], p) | S n' => '(l, q) <- dollar_label n' m (S p) ;; Some (c :: l, q) end
   else Some ([], p)).
Proof. destruct n; reflexivity. Qed.

Lemma tilde_label_spec : forall l n A B, (length l <= n)%nat -> Forall (fun c => c <> 0 /\ c <> 126) l ->
  tilde_label n (A ++ l ++ 126 :: B) (length A) = Some (l, (length A + length l)%nat).
Proof.
  induction l as [|c l IH]; intros n A B L H.
  - rewrite tilde_label_eq. cbn [app]. rewrite rd_app. cbn. now rewrite Nat.add_0_r.
  - inv H. rewrite tilde_label_eq. cbn [app]. rewrite rd_app.
    assert (E : (c =? 0) || (c =? 126) = false) by (apply orb_false_iff; split; apply Z.eqb_neq; tauto). rewrite E.
    cbn [length] in L. destruct n as [|n]; [lia|]. rewrite snoc_app, <- (snoc_length A c).
    rewrite IH by (auto; lia). rewrite snoc_length. cbn [length]. do 2 f_equal. lia.
Qed.
Lemma dollar_label_spec : forall l n A c B, (length l <= n)%nat -> forallb label_char l = true ->
  (length l = n \/ label_char c = false) ->
  dollar_label n (A ++ l ++ c :: B) (length A) = Some (l, (length A + length l)%nat).
Proof.
  induction l as [|x l IH]; intros n A c B L H D.
  - rewrite dollar_label_eq. cbn [app]. rewrite rd_app. cbn [length]. rewrite Nat.add_0_r.
    destruct D as [<-|D]; [destruct (isalpha c || (c =? 95)); reflexivity|]. unfold label_char in D. now rewrite D.
  - cbn [forallb] in H. apply andb_true_iff in H. destruct H as [X H]. unfold label_char in X.
    rewrite dollar_label_eq. cbn [app]. rewrite rd_app, X. cbn [length] in *. destruct n as [|n]; [lia|].
    rewrite snoc_app, <- (snoc_length A x). rewrite IH; auto; [|lia|].
    + rewrite snoc_length. do 2 f_equal. lia.
    + destruct D as [D|D]; auto.
Qed.

Definition expansion (ps : list piece) : list Z := concat (map written ps).
Lemma label_dollar : label_char 36 = false.
Proof. reflexivity. Qed.
Lemma expand_pieces : forall e t notif gs, published_ti t -> carries t gs ->
  forall ps f A rest uri, (length (expansion ps) < f)%nat -> Forall piece_ok ps -> separated ps ->
  expand f e t notif (A ++ expansion ps ++ 0 :: rest) (length A) uri = Some (uri ++ concat (map (meaning e (t_ts t) gs notif) ps)).
Proof.
  intros e t notif gs P C. induction ps as [|q ps IH]; intros f A rest uri F K S.
  - destruct f as [|f]; [cbn in F; lia|]. cbn [expansion map concat app expand]. rewrite rd_app. cbn. now rewrite app_nil_r.
  - inv K. assert (S' : separated ps) by (destruct q; cbn in S; auto; destruct ps; [exact I|tauto]).
    assert (G : forall w f', written q = w -> (0 < length w)%nat -> (length (expansion (q :: ps)) < Datatypes.S f')%nat ->
              expand f' e t notif (A ++ expansion (q :: ps) ++ 0 :: rest) (length A + length w)
                (uri ++ meaning e (t_ts t) gs notif q) =
              Some (uri ++ concat (map (meaning e (t_ts t) gs notif) (q :: ps)))).
    { intros w f' W W0 L. unfold expansion in *. cbn [map concat] in *. rewrite W in *.
      rewrite <- app_length, <- app_assoc, app_assoc, IH; auto; [now rewrite <- !app_assoc|].
      rewrite app_length in L. unfold expansion. lia. }
    destruct f as [|f]; [cbn in F; lia|].
    assert (X : A ++ expansion (q :: ps) ++ 0 :: rest = A ++ written q ++ expansion ps ++ 0 :: rest).
    { unfold expansion. cbn [map concat]. rewrite <- !app_assoc. reflexivity. }
    specialize (G (written q) f eq_refl).
    destruct q as [c| | |l|l]; cbn [expand].
    + destruct H1 as (N0 & N1 & N2). rewrite X at 1. cbn [written app]. rewrite rd_app.
      apply Z.eqb_neq in N0, N1, N2. rewrite N0, N1, N2. cbn [written length] in G. rewrite Nat.add_1_r in G. apply G; auto; lia.
    + rewrite X at 1. cbn [written]. change (str "~~") with [126; 126]. cbn [app]. rewrite rd_app. cbn [Z.eqb Pos.eqb].
      rewrite X at 1. cbn [written]. change (str "~~") with [126; 126]. cbn [app].
      assert (T := tilde_label_spec [] 15 (A ++ [126]) (expansion ps ++ 0 :: rest) ltac:(cbn; lia) (Forall_nil _)).
      cbn [app] in T. rewrite snoc_app, <- (snoc_length A 126), T.
      cbn [written] in G. change (length (str "~~")) with 2%nat in G. rewrite snoc_length. cbn [length].
      replace (Datatypes.S (Datatypes.S (length A) + 0)) with (length A + 2)%nat by lia. apply G; auto; lia.
    + rewrite X at 1. cbn [written]. change (str "$$") with [36; 36]. cbn [app]. rewrite rd_app. cbn [Z.eqb Pos.eqb].
      rewrite X at 1. cbn [written]. change (str "$$") with [36; 36]. cbn [app].
      rewrite snoc_app, <- (snoc_length A 36), rd_app. cbn [Z.eqb Pos.eqb].
      cbn [written] in G. change (length (str "$$")) with 2%nat in G. rewrite snoc_length.
      replace (Datatypes.S (Datatypes.S (length A))) with (length A + 2)%nat by lia. apply G; auto; lia.
    + destruct H1 as (L & N). rewrite X at 1. cbn [written]. change (str "~") with [126]. cbn [app]. rewrite rd_app. cbn [Z.eqb Pos.eqb].
      rewrite X at 1. cbn [written]. change (str "~") with [126]. cbn [app]. rewrite <- app_assoc. cbn [app].
      rewrite snoc_app, <- (snoc_length A 126), tilde_label_spec by (auto; lia).
      destruct l as [|c l0] eqn:El; [cbn in L; lia|]. rewrite <- El in *. rewrite (add_value _ _ _ gs) by auto.
      cbn [written] in G. change (str "~") with [126] in G. cbn [app length] in G. rewrite app_length in G. cbn [length] in G.
      rewrite snoc_length.
      replace (Datatypes.S (Datatypes.S (length A) + length l)) with (length A + Datatypes.S (length l + 1))%nat by lia.
      apply G; auto; lia.
    + destruct H1 as (L & N). rewrite X at 1. cbn [written]. change (str "$") with [36]. cbn [app]. rewrite rd_app. cbn [Z.eqb Pos.eqb].
      destruct l as [|c l0] eqn:El; [cbn in L; lia|].
      assert (Nc : c =? 36 = false).
      { cbn [forallb] in N. apply andb_true_iff in N. destruct N as [N _]. destruct (Z.eqb_spec c 36); auto. subst. discriminate. }
      rewrite X at 1. cbn [written]. change (str "$") with [36]. cbn [app]. rewrite snoc_app, <- (snoc_length A 36), rd_app, Nc.
      rewrite snoc_length. rewrite <- El in *.
      assert (E : exists d B, expansion ps ++ 0 :: rest = d :: B /\ (length l = 15%nat \/ label_char d = false)).
      { destruct ps as [|q ps]; [exists 0, rest; split; auto|].
        cbn [separated] in S. destruct S as [S _]. unfold expansion. cbn [map concat].
        destruct S as [S|(d & B & S & D)].
        - destruct (written q ++ concat (map written ps)) as [|d B] eqn:Ew; [exists 0, rest; auto|]. cbn [app]. eauto.
        - rewrite S. cbn [app]. eauto. }
      destruct E as (d & B & E & D). rewrite X at 1. cbn [written]. change (str "$") with [36]. rewrite E. cbn [app].
      rewrite snoc_app, <- (snoc_length A 36), dollar_label_spec by (auto; lia). rewrite (add_value _ _ _ gs) by auto.
      cbn [written] in G. change (str "$") with [36] in G. cbn [app length] in G. rewrite snoc_length.
      replace (Datatypes.S (length A) + length l)%nat with (length A + Datatypes.S (length l))%nat by lia.
      apply G; auto; lia.
Qed.
Lemma c17 : forall e t notif gs ps rest, published_ti t -> carries t gs -> Forall piece_ok ps -> separated ps ->
  expand_url e t notif (concat (map written ps) ++ 0 :: rest) = Some (concat (map (meaning e (t_ts t) gs notif) ps)).
Proof.
  intros. unfold expand_url. apply (expand_pieces e t notif gs H H0 ps _ [] rest []); auto.
  unfold expansion. rewrite app_length. cbn. lia.
Qed.

(** ** C18 *)
Lemma tilde_label_any : forall n url A tail, Forall (fun c => c <> 0) url ->
  exists l, tilde_label n (A ++ url ++ 0 :: tail) (length A) = Some (l, (length A + length l)%nat) /\
    (url = l /\ ends_in_label (Some n) url = true \/
     exists c url', url = l ++ c :: url' /\ ends_in_label (Some n) url = ends_in_label None url').
Proof.
  induction n as [|n IH]; intros [|c url] A tail H; rewrite tilde_label_eq; cbn [app].
  - exists []. rewrite rd_app. cbn. rewrite Nat.add_0_r. auto.
  - exists []. rewrite rd_app. cbn [length]. rewrite Nat.add_0_r. split; [destruct ((c =? 0) || (c =? 126)); auto|].
    right. exists c, url. split; auto. cbn [ends_in_label]. destruct (c =? 126); auto.
  - exists []. rewrite rd_app. cbn. rewrite Nat.add_0_r. auto.
  - inv H. rewrite rd_app. apply Z.eqb_neq in H2. rewrite H2. cbn [orb]. destruct (c =? 126) eqn:E.
    + exists []. cbn [length]. rewrite Nat.add_0_r. split; auto. right. exists c, url. split; auto. cbn [ends_in_label]. now rewrite E.
    + destruct (IH url (A ++ [c]) tail H3) as (l & El & D). rewrite snoc_length in El. exists (c :: l).
      rewrite snoc_app, El. split; [cbn [length]; do 2 f_equal; lia|]. cbn [ends_in_label]. rewrite E.
      destruct D as [[-> D]|(d & u' & -> & D)]; [left; auto|right; exists d, u'; auto].
Qed.
Lemma dollar_label_any : forall n url A tail, Forall (fun c => c <> 0) url ->
  exists l url', dollar_label n (A ++ url ++ 0 :: tail) (length A) = Some (l, (length A + length l)%nat) /\
    url = l ++ url' /\ ends_in_label None url = ends_in_label None url'.
Proof.
  induction n as [|n IH]; intros [|c url] A tail H; rewrite dollar_label_eq; cbn [app].
  - exists [], []. rewrite rd_app. cbn. rewrite Nat.add_0_r. auto.
  - exists [], (c :: url). rewrite rd_app. cbn [length]. rewrite Nat.add_0_r. split; auto. destruct (isalpha c || (c =? 95)); auto.
  - exists [], []. rewrite rd_app. cbn. rewrite Nat.add_0_r. auto.
  - inv H. rewrite rd_app. destruct (isalpha c || (c =? 95)) eqn:E.
    + destruct (IH url (A ++ [c]) tail H3) as (l & u' & El & -> & D). rewrite snoc_length in El. exists (c :: l), u'.
      rewrite snoc_app, El. split; [cbn [length]; do 2 f_equal; lia|]. split; auto. cbn [ends_in_label].
      destruct (Z.eqb_spec c 126); [subst; discriminate|]. exact D.
    + exists [], (c :: url). cbn [length]. rewrite Nat.add_0_r. auto.
Qed.
Lemma expand_any : forall e t notif, published_ti t -> forall f url A tail uri, Forall (fun c => c <> 0) url ->
  (length url + 1 < f)%nat ->
  let r := expand f e t notif (A ++ url ++ 0 :: tail) (length A) uri in
  (ends_in_label None url = false -> exists u, r = Some u) /\
  (ends_in_label None url = true -> tail = [] -> r = None) /\
  (forall tail', tail = 0 :: tail' -> exists u, r = Some u).
Proof.
  intros e t notif P. assert (V : forall label, exists v, http_add_value_ex e t label notif = Some v).
  { destruct (published_facts t P) as (gs & w & C & _). intros. eexists. eapply add_value; eauto. }
  induction f as [|f IH]; intros url A tail uri H L r; [lia|]. subst r. destruct url as [|c url].
  { cbn [app expand]. rewrite rd_app. cbn. split; [eauto|]. split; [discriminate|eauto]. }
  pose proof (Forall_inv H) as Nc. pose proof (Forall_inv_tail H) as H'. cbn beta in Nc. cbn [length] in L.
  cbn [app expand]. rewrite rd_app. apply Z.eqb_neq in Nc. rewrite Nc. destruct (c =? 126) eqn:E1.
  { destruct (tilde_label_any 15 url (A ++ [c]) tail H') as (l & El & D). rewrite snoc_length in El.
    rewrite snoc_app, El. set (v := match l with [] => _ | _ => _ end).
    assert (exists w, v = Some w) as [w ->] by (destruct l; subst v; [eauto|apply V]).
    cbn [ends_in_label]. rewrite E1. destruct D as [[<- D]|(d & u' & -> & D)]; rewrite D.
    - rewrite <- app_assoc. cbn [app]. split; [discriminate|].
      assert (X : A ++ c :: url ++ 0 :: tail = (A ++ c :: url ++ [0]) ++ tail).
      { rewrite <- !app_assoc. cbn [app]. rewrite <- app_assoc. reflexivity. }
      assert (Y : S (S (length A) + length url) = length (A ++ c :: url ++ [0])).
      { rewrite app_length. cbn [length]. rewrite app_length. cbn. lia. }
      rewrite X, Y. split.
      + intros _ ->. destruct f as [|f]; [reflexivity|]. cbn [expand].
        assert (Z : rd ((A ++ c :: url ++ [0]) ++ []) (length (A ++ c :: url ++ [0])) = None).
        { rewrite app_nil_r. apply nth_error_None. auto. }
        rewrite Z. reflexivity.
      + intros tail' ->. destruct f as [|f]; [lia|]. cbn [expand]. rewrite rd_app. cbn. eauto.
    - rewrite <- app_assoc. cbn [app]. rewrite <- app_assoc. cbn [app].
      assert (X : A ++ c :: l ++ d :: u' ++ 0 :: tail = (A ++ c :: l ++ [d]) ++ u' ++ 0 :: tail).
      { rewrite <- !app_assoc. cbn [app]. rewrite <- app_assoc. reflexivity. }
      assert (Y : S (S (length A) + length l) = length (A ++ c :: l ++ [d])).
      { rewrite app_length. cbn [length]. rewrite app_length. cbn. lia. }
      rewrite X, Y. apply IH. { apply Forall_app in H'. destruct H' as [_ H']. now inv H'. }
      rewrite app_length in L. cbn [length] in L. lia. }
  cbn [ends_in_label]. rewrite E1. destruct (c =? 36) eqn:E2.
  { destruct url as [|d url].
    - cbn [app]. rewrite snoc_app, <- (snoc_length A c), rd_app. cbn [Z.eqb].
      rewrite dollar_label_eq, rd_app. cbn [isalpha isupper islower Z.leb Z.compare andb orb Z.eqb].
      destruct (V []) as [v ->]. cbn. destruct f as [|f]; [lia|]. cbn [expand]. rewrite rd_app. cbn.
      split; [eauto|]. split; [discriminate|eauto].
    - cbn [app]. rewrite (snoc_app A c), <- (snoc_length A c), rd_app. destruct (d =? 36) eqn:E3.
      + rewrite (snoc_app (A ++ [c]) d), <- (snoc_length (A ++ [c]) d). cbn [ends_in_label].
        replace (d =? 126) with false by (symmetry; apply Z.eqb_neq; apply Z.eqb_eq in E3; lia).
        apply IH; [now inv H'|cbn [length] in L; lia].
      + destruct (dollar_label_any 15 (d :: url) (A ++ [c]) tail H') as (l & u' & El & Eu & D). cbn [app] in El. rewrite El.
        destruct (V l) as [v ->]. rewrite D.
        assert (X : (A ++ [c]) ++ d :: url ++ 0 :: tail = ((A ++ [c]) ++ l) ++ u' ++ 0 :: tail).
        { change (d :: url ++ 0 :: tail) with ((d :: url) ++ 0 :: tail). rewrite Eu, <- !app_assoc. reflexivity. }
        rewrite X, <- app_length. apply IH.
        * rewrite Eu in H'. apply Forall_app in H'. tauto.
        * rewrite Eu, app_length in L. lia. }
  rewrite snoc_app, <- (snoc_length A c). apply IH; auto. lia.
Qed.
Lemma c18 : forall e t notif url tail, published_ti t -> Forall (fun c => c <> 0) url ->
  (unterminated url = false -> exists u, expand_url e t notif (url ++ 0 :: tail) = Some u) /\
  (forall tail', tail = 0 :: tail' -> exists u, expand_url e t notif (url ++ 0 :: tail) = Some u) /\
  (unterminated url = true -> expand_url e t notif (url ++ [0]) = None).
Proof.
  intros e t notif url tail P H. unfold expand_url, unterminated.
  destruct (expand_any e t notif P (S (length (url ++ 0 :: tail))) url [] tail [] H) as (A & _ & B).
  { rewrite app_length. cbn. lia. }
  split; auto. split; auto.
  destruct (expand_any e t notif P (S (length (url ++ [0]))) url [] [] [] H) as (_ & C & _).
  { rewrite app_length. cbn. lia. }
  intros U. apply C; auto.
Qed.
