(** Proofs about the single source file. *)
From Coq Require Import ZArith List Bool Lia.
From Verif Require Import Base BaseFacts Amalg AmalgSpec.
Import ListNotations.
Open Scope Z_scope.

Lemma included_in : forall n a, included n a = true <-> In n (am_included a).
Proof.
  intros n a. unfold included. rewrite existsb_exists. split.
  - intros (x & I & E). apply beq_eq in E. subst x. exact I.
  - intros I. exists n. split; [exact I|apply beq_refl].
Qed.
Lemma not_included : forall n a, included n a = false <-> ~ In n (am_included a).
Proof. intros n a. rewrite <- included_in. destruct (included n a); split; congruence. Qed.
Lemma name_dec : forall a b : list Z, {a = b} + {a <> b}.
Proof. intros. apply list_eq_dec. apply Z.eq_dec. Defined.
Lemma taken_app : forall f a b, taken f (a ++ b) = taken f a ++ taken f b.
Proof. intros. unfold taken. apply flat_map_app. Qed.
Lemma taken_other : forall f g k l, f <> g -> taken f [(Some (g, k), l)] = [].
Proof. intros f g k l N. unfold taken. cbn. assert (X : beq g f = false) by (apply beq_neq; congruence). rewrite X. reflexivity. Qed.
Lemma taken_own : forall f k l, taken f [(Some (f, k), l)] = [(k, l)].
Proof. intros. unfold taken. cbn. rewrite beq_refl. reflexivity. Qed.
Lemma taken_none : forall f l, taken f [(None, l)] = [].
Proof. reflexivity. Qed.

Section Source.
  Context (src : sources).

  Inductive reach (n : list Z) : list Z -> Prop :=
  | reach_self : reach n n
  | reach_step : forall f k h, reach n f -> includes src f k h -> reach n h.

  (** What an addition does to the files other than [x]. *)
  Definition ext (x : option (list Z)) (n : list Z) (a a' : amalgam) (new : list item) : Prop :=
    am_lines a' = am_lines a ++ new /\ incl (am_included a) (am_included a') /\
    (forall g, x <> Some g -> In g (am_included a) -> taken g new = []) /\
    (forall g ls, ~ In g (am_included a) -> In g (am_included a') -> lines_named src g = Some ls -> taken g new = whole ls) /\
    (forall g, ~ In g (am_included a') -> taken g new = []) /\
    (forall g, In g (am_included a') -> In g (am_included a) \/ lines_named src g <> None /\ reach n g) /\
    (forall g k h, In g (am_included a') -> ~ In g (am_included a) -> includes src g k h -> In h (am_included a')).
  Lemma ext_refl : forall x n a, ext x n a a [].
  Proof.
    intros x n a. split; [symmetry; apply app_nil_r|]. split; [apply incl_refl|]. split; [reflexivity|]. split; [intros g ls N I; contradiction|].
    split; [reflexivity|]. split; [intros g I; left; exact I|]. intros g k h I N. contradiction.
  Qed.
  Lemma ext_trans : forall x n a b c n1 n2, (forall g, x = Some g -> In g (am_included a)) -> ext x n a b n1 -> ext x n b c n2 -> ext x n a c (n1 ++ n2).
  Proof.
    intros x n a b c n1 n2 X (L1 & I1 & A1 & B1 & C1 & D1 & E1) (L2 & I2 & A2 & B2 & C2 & D2 & E2).
    split; [rewrite L2, L1, app_assoc; reflexivity|]. split; [eapply incl_tran; eassumption|].
    split; [intros g N I; rewrite taken_app, A1, A2 by auto; reflexivity|].
    split.
    - intros g ls N I G. rewrite taken_app. assert (NX : x <> Some g) by (intro Q; apply N, X, Q).
      destruct (in_dec name_dec g (am_included b)) as [J|J].
      + rewrite (B1 g ls N J G), (A2 g NX J). apply app_nil_r.
      + rewrite (C1 g J), (B2 g ls J I G). reflexivity.
    - split; [intros g N; rewrite taken_app, C1, C2; auto|]. split.
      + intros g I. destruct (D2 g I) as [J|J]; [|right; exact J]. apply D1, J.
      + intros g k h I N H. destruct (in_dec name_dec g (am_included b)) as [J|J]; [apply I2, (E1 g k h); assumption|apply (E2 g k h); assumption].
  Qed.
  Lemma ext_mark : forall x n a l, ext x n a (emit (None, l) a) [(None, l)].
  Proof.
    intros x n a l. split; [reflexivity|]. split; [apply incl_refl|]. split; [reflexivity|]. split; [intros g ls N I; contradiction|].
    split; [reflexivity|]. split; [intros g I; left; exact I|]. intros g k h I N. contradiction.
  Qed.
  (** One file. *)
  Definition adds (f : list Z -> amalgam -> made) : Prop := forall n a a', f n a = Made a' ->
    In n (am_included a') /\ exists new, ext None n a a' new.

  Lemma lines_ext : forall f n, adds f -> forall ls pre a a', lines_named src n = Some (pre ++ ls) -> In n (am_included a) ->
    add_lines f n (length pre) ls a = Made a' ->
    exists new, ext (Some n) n a a' new /\ taken n new = combine (seq (length pre) (length ls)) (map disarmed ls) /\
      forall i l h, nth_error ls i = Some l -> kind_of l = Local h -> In h (am_included a').
  Proof.
    intros f n F. induction ls as [|l ls IH]; intros pre a a' N I H.
    - injection H as <-. exists []. split; [apply ext_refl|]. split; [reflexivity|]. intros i l h E. destruct i; discriminate.
    - assert (N' : lines_named src n = Some ((pre ++ [l]) ++ ls)) by (rewrite <- app_assoc; exact N).
      assert (LP : length (pre ++ [l]) = S (length pre)) by (rewrite app_length; cbn; lia).
      assert (LINE : forall shown, ext (Some n) n a (emit (Some (n, length pre), shown) a) [(Some (n, length pre), shown)]).
      { intros shown. split; [reflexivity|]. split; [apply incl_refl|].
        split; [intros g X _; apply taken_other; congruence|]. split; [intros g ls0 X Y; contradiction|].
        split; [intros g X; apply taken_other; intros ->; contradiction|]. split; [intros g X; left; exact X|]. intros g k h X Y. contradiction. }
      (* the common end: the line is written, then possibly a header, then the rest *)
      assert (REST : forall shown b nb, shown = disarmed l -> ext (Some n) n (emit (Some (n, length pre), shown) a) b nb -> taken n nb = [] ->
        (forall h, kind_of l = Local h -> In h (am_included b)) -> add_lines f n (S (length pre)) ls b = Made a' ->
        exists new, ext (Some n) n a a' new /\ taken n new = combine (seq (length pre) (length (l :: ls))) (map disarmed (l :: ls)) /\
          forall i l0 h, nth_error (l :: ls) i = Some l0 -> kind_of l0 = Local h -> In h (am_included a')).
      { intros shown b nb SH EB TB KB R. rewrite <- LP in R.
        destruct (IH (pre ++ [l]) b a' N') as (new & EX & TK & HD); [apply EB; exact I|exact R|].
        exists (([(Some (n, length pre), shown)] ++ nb) ++ new). split; [|split].
        - eapply ext_trans; [intros g X; injection X as <-; exact I| |exact EX].
          eapply ext_trans; [intros g X; injection X as <-; exact I|apply LINE|exact EB].
        - rewrite !taken_app, taken_own, TB, TK, LP, SH. reflexivity.
        - intros i l0 h E K. destruct i as [|i]; [injection E as <-; apply EX, KB, K|]. eapply HD; eassumption. }
      cbn [add_lines] in H. destruct (kind_of l) eqn:K.
      + eapply REST; [|apply ext_refl|reflexivity|intros h X; discriminate|exact H]. unfold disarmed. rewrite K. reflexivity.
      + destruct (included header a) eqn:J.
        * eapply REST; [|apply ext_refl|reflexivity| |exact H]; [unfold disarmed; rewrite K; reflexivity|].
          intros h X. injection X as <-. cbn [emit am_included]. apply included_in, J.
        * destruct (f header (emit (Some (n, length pre), commented l) a)) as [b| | |] eqn:FB; try discriminate.
          destruct (F _ _ _ FB) as (IH1 & nb & EB).
          assert (INC : includes src n (length pre) header).
          { exists (pre ++ l :: ls), l. split; [exact N|]. split; [|exact K]. rewrite nth_error_app2 by lia. rewrite Nat.sub_diag. reflexivity. }
          assert (EB' : ext (Some n) n (emit (Some (n, length pre), commented l) a) b nb).
          { destruct EB as (E1 & E2 & E3 & E4 & E5 & E6 & E7). split; [exact E1|]. split; [exact E2|]. split; [intros g _; apply E3; discriminate|].
            split; [exact E4|]. split; [exact E5|]. split; [|exact E7]. intros g X. destruct (E6 g X) as [Y|[Y R]]; [left; exact Y|]. right. split; [exact Y|].
            clear - R INC. induction R as [|f0 k h R IHR X]; [eapply reach_step; [apply reach_self|exact INC]|]. eapply reach_step; eassumption. }
          eapply REST; [|exact EB'| | |exact H]; [unfold disarmed; rewrite K; reflexivity| |].
          -- destruct EB as (_ & _ & E3 & _). apply E3; [discriminate|exact I].
          -- intros h X. injection X as <-. exact IH1.
      + eapply REST; [|apply ext_refl|reflexivity|intros h X; discriminate|exact H]. unfold disarmed. rewrite K. reflexivity.
      + discriminate.
      + eapply REST; [|apply ext_refl|reflexivity|intros h X; discriminate|exact H]. unfold disarmed. rewrite K. reflexivity.
  Qed.
  Lemma add_ext : forall fuel, adds (add fuel src).
  Proof.
    assert (STOP : forall n a a', included n a = true -> Made a = Made a' -> In n (am_included a') /\ exists new, ext None n a a' new).
    { intros n a a' I E. injection E as <-. split; [apply included_in, I|]. exists []. apply ext_refl. }
    induction fuel as [|fuel IH]; intros n a a' H; cbn [add] in H; destruct (included n a) eqn:I; try (eapply STOP; eassumption);
      destruct (lines_named src n) as [ls|] eqn:N; try discriminate.
    set (b := emit _ (emit _ _)) in H. destruct (add_lines (add fuel src) n 0 ls b) as [c| | |] eqn:E; try discriminate. injection H as <-.
    apply not_included in I.
    destruct (lines_ext (add fuel src) n IH ls [] b c N) as (new & EX & TK & HD); [left; reflexivity|exact E|].
    destruct EX as (E1 & E2 & E3 & E4 & E5 & E6 & E7). cbn [b emit am_included am_lines] in E1, E2, E3, E4, E5, E6, E7.
    split; [cbn [emit am_included]; apply E2; left; reflexivity|].
    exists ([(None, [10]); (None, str "//begin: " ++ n ++ [10])] ++ new ++ [(None, str "//end: " ++ n ++ [10])]).
    assert (TAK : forall g, taken g ([(None, [10]); (None, str "//begin: " ++ n ++ [10])] ++ new ++ [(None, str "//end: " ++ n ++ [10])]) = taken g new).
    { intros g. rewrite !taken_app. cbn [taken flat_map]. apply app_nil_r. }
    split; [cbn [emit am_lines]; rewrite E1, <- !app_assoc; reflexivity|].
    split; [cbn [emit am_included]; intros g G; apply E2; right; exact G|].
    split; [intros g _ G; rewrite TAK; apply E3; [intro X; injection X as <-; contradiction|right; exact G]|].
    split.
    { cbn [emit am_included]. intros g ls' NG G LG. rewrite TAK. destruct (name_dec n g) as [->|D].
      - rewrite TK. rewrite N in LG. injection LG as <-. reflexivity.
      - apply E4; [intros [X|X]; contradiction|exact G|exact LG]. }
    split; [cbn [emit am_included]; intros g NG; rewrite TAK; apply E5; exact NG|].
    split.
    { cbn [emit am_included]. intros g G. destruct (E6 g G) as [[<-|X]|X]; [right; split; [rewrite N; discriminate|apply reach_self]|left; exact X|right; exact X]. }
    cbn [emit am_included]. intros g k h G NG INC. destruct (name_dec n g) as [<-|D].
    - destruct INC as (ls' & l & L1 & L2 & L3). rewrite N in L1. injection L1 as <-. eapply HD; eassumption.
    - eapply E7; [exact G| |exact INC]. intros [X|X]; contradiction.
  Qed.
  Definition reach_any (ns : list (list Z)) (g : list Z) : Prop := exists n, In n ns /\ reach n g.
  Lemma all_ext : forall fuel ns a a', add_all fuel src ns a = Made a' ->
    incl ns (am_included a') /\ exists new, am_lines a' = am_lines a ++ new /\ incl (am_included a) (am_included a') /\
    (forall g, In g (am_included a) -> taken g new = []) /\
    (forall g ls, ~ In g (am_included a) -> In g (am_included a') -> lines_named src g = Some ls -> taken g new = whole ls) /\
    (forall g, ~ In g (am_included a') -> taken g new = []) /\
    (forall g, In g (am_included a') -> In g (am_included a) \/ lines_named src g <> None /\ reach_any ns g) /\
    (forall g k h, In g (am_included a') -> ~ In g (am_included a) -> includes src g k h -> In h (am_included a')).
  Proof.
    induction ns as [|n ns IH]; intros a a' H.
    - injection H as <-. split; [intros x []|]. exists []. split; [symmetry; apply app_nil_r|]. split; [apply incl_refl|]. split; [reflexivity|].
      split; [intros g ls N I; contradiction|]. split; [reflexivity|]. split; [intros g I; left; exact I|]. intros g k h I N. contradiction.
    - cbn [add_all] in H. destruct (add fuel src n a) as [b| | |] eqn:E; try discriminate.
      destruct (add_ext fuel n a b E) as (NB & n1 & L1 & I1 & A1 & B1 & C1 & D1 & E1).
      destruct (IH b a' H) as (NS & n2 & L2 & I2 & A2 & B2 & C2 & D2 & E2).
      split; [intros x [<-|X]; [apply I2, NB|apply NS, X]|]. exists (n1 ++ n2).
      split; [rewrite L2, L1, app_assoc; reflexivity|]. split; [eapply incl_tran; eassumption|].
      split; [intros g I; rewrite taken_app, A1, A2 by (discriminate || auto); reflexivity|].
      split.
      { intros g ls N I G. rewrite taken_app. destruct (in_dec name_dec g (am_included b)) as [J|J].
        - rewrite (B1 g ls N J G), (A2 g J). apply app_nil_r.
        - rewrite (C1 g J), (B2 g ls J I G). reflexivity. }
      split; [intros g N; rewrite taken_app, C1, C2; auto|]. split.
      { intros g I. destruct (D2 g I) as [J|[J (m & M & R)]]; [|right; split; [exact J|exists m; split; [right; exact M|exact R]]].
        destruct (D1 g J) as [K|[K R]]; [left; exact K|right; split; [exact K|exists n; split; [left; reflexivity|exact R]]]. }
      intros g k h I N X. destruct (in_dec name_dec g (am_included b)) as [J|J]; [apply I2, (E1 g k h); assumption|apply (E2 g k h); assumption].
  Qed.

  (** ** The recursion ends *)
  Definition left_over (inc : list (list Z)) : nat := length (filter (fun n => negb (existsb (beq n) inc)) (map fst src)).
  Lemma named_in : forall n ls, lines_named src n = Some ls -> In n (map fst src).
  Proof.
    induction src as [|[m l] r IH]; intros n ls H; [discriminate|]. cbn [lines_named] in H. destruct (beq m n) eqn:E.
    - apply beq_eq in E. left. exact E.
    - right. eapply IH. exact H.
  Qed.
  Lemma in_bool : forall n (l : list (list Z)), existsb (beq n) l = true <-> In n l.
  Proof. intros. exact (included_in n (mk_am l [])). Qed.
  Lemma left_mono : forall inc inc', incl inc inc' -> (left_over inc' <= left_over inc)%nat.
  Proof.
    intros inc inc' I. unfold left_over. induction (map fst src) as [|n l IH]; [cbn; lia|]. cbn [filter].
    destruct (existsb (beq n) inc) eqn:A.
    - apply in_bool in A. apply I in A. apply in_bool in A. rewrite A. exact IH.
    - cbn [negb]. destruct (existsb (beq n) inc'); cbn [negb length]; lia.
  Qed.
  Lemma left_cons : forall n inc, In n (map fst src) -> ~ In n inc -> (left_over (n :: inc) < left_over inc)%nat.
  Proof.
    intros n inc I N. unfold left_over. revert I.
    assert (M : forall l, (length (filter (fun m => negb (existsb (beq m) (n :: inc))) l) <= length (filter (fun m => negb (existsb (beq m) inc)) l))%nat).
    { induction l as [|m l IH]; [cbn; lia|]. cbn [filter existsb]. destruct (beq m n); cbn [orb negb]; destruct (existsb (beq m) inc); cbn [negb length existsb] in *; lia. }
    induction (map fst src) as [|m l IH]; intros I; [destruct I|]. destruct (name_dec m n) as [->|D].
    - cbn [filter existsb]. rewrite beq_refl. cbn [orb negb]. assert (X : existsb (beq n) inc = false).
      { destruct (existsb (beq n) inc) eqn:A; [apply in_bool in A; contradiction|reflexivity]. }
      rewrite X. cbn [negb length]. specialize (M l). cbn [existsb] in M. lia.
    - destruct I as [I|I]; [contradiction|]. specialize (IH I). cbn [filter existsb] in *. assert (X : beq m n = false) by (apply beq_neq; exact D). rewrite X. cbn [orb].
      destruct (existsb (beq m) inc); cbn [negb length]; lia.
  Qed.
  Lemma lines_fuel : forall f n, adds f ->
    forall bound, (forall m a, (left_over (am_included a) <= bound)%nat -> f m a <> NoFuel) ->
    forall ls k a, (left_over (am_included a) <= bound)%nat -> add_lines f n k ls a <> NoFuel.
  Proof.
    intros f n F bound B. induction ls as [|l ls IH]; intros k a L; [discriminate|]. cbn [add_lines]. destruct (kind_of l).
    - apply IH. exact L.
    - destruct (included header a); [apply IH; exact L|]. destruct (f header _) as [b| | |] eqn:E; try discriminate.
      + apply IH. destruct (F _ _ _ E) as (_ & nb & EB). destruct EB as (_ & I & _). apply left_mono in I. cbn [emit am_included] in I. lia.
      + exfalso. apply (B header (emit (Some (n, k), commented l) a)); [exact L|exact E].
    - apply IH. exact L.
    - discriminate.
    - apply IH. exact L.
  Qed.
  Lemma add_fuel : forall fuel n a, (left_over (am_included a) <= fuel)%nat -> add fuel src n a <> NoFuel.
  Proof.
    induction fuel as [|fuel IH]; intros n a L; cbn [add]; (destruct (included n a) eqn:I; [discriminate|]); (destruct (lines_named src n) as [ls|] eqn:N; [|discriminate]);
      apply not_included in I; pose proof (left_cons n (am_included a) (named_in n ls N) I) as C.
    - lia.
    - match goal with |- context [add_lines ?f n 0 ls ?b] => assert (X : add_lines f n 0 ls b <> NoFuel) end.
      { apply (lines_fuel _ n (add_ext fuel) fuel); [exact IH|]. cbn [emit am_included]. lia. }
      destruct (add_lines _ _ _ _ _); [discriminate|discriminate|discriminate|contradiction].
  Qed.
  Lemma all_fuel : forall ns a, add_all (length src) src ns a <> NoFuel.
  Proof.
    assert (B : forall inc, (left_over inc <= length src)%nat).
    { intros inc. unfold left_over. rewrite <- (map_length fst src). generalize (map fst src). induction l as [|n l IH]; [cbn; lia|]. cbn [filter]. destruct (negb _); cbn [length]; lia. }
    induction ns as [|n ns IH]; intros a; [discriminate|]. cbn [add_all]. pose proof (add_fuel (length src) n a (B _)) as X.
    destruct (add (length src) src n a); [apply IH|discriminate|discriminate|contradiction].
  Qed.

  (** ** No error with complete sources *)
  Definition fine (r : made) : Prop := match r with NoFile _ | BadInclude _ => False | _ => True end.
  Lemma lines_fine : forall f n, complete src -> (forall m a, lines_named src m <> None -> fine (f m a)) ->
    forall ls k a, (forall l, In l ls -> kind_of l <> Wrong /\ forall h, kind_of l = Local h -> lines_named src h <> None) -> fine (add_lines f n k ls a).
  Proof.
    intros f n C F. induction ls as [|l ls IH]; intros k a H; [exact Logic.I|]. cbn [add_lines]. destruct (H l (or_introl eq_refl)) as [W HD].
    assert (H' : forall l0, In l0 ls -> kind_of l0 <> Wrong /\ forall h, kind_of l0 = Local h -> lines_named src h <> None) by (intros l0 X; apply H; right; exact X).
    destruct (kind_of l).
    - apply IH, H'.
    - destruct (included header a); [apply IH, H'|]. pose proof (F header (emit (Some (n, k), commented l) a) (HD header eq_refl)) as X.
      destruct (f header _); [apply IH, H'|contradiction|contradiction|exact Logic.I].
    - apply IH, H'.
    - contradiction.
    - apply IH, H'.
  Qed.
  Lemma add_fine : forall fuel n a, complete src -> lines_named src n <> None -> fine (add fuel src n a).
  Proof.
    induction fuel as [|fuel IH]; intros n a C N; cbn [add]; (destruct (included n a); [exact Logic.I|]); destruct (lines_named src n) as [ls|] eqn:E; try contradiction; [exact Logic.I|].
    match goal with |- context [add_lines ?f n 0 ls ?b] => assert (X : fine (add_lines f n 0 ls b)) end.
    { apply lines_fine; [exact C|intros m b M; apply IH; assumption|]. intros l I. exact (C n ls l E I). }
    destruct (add_lines _ _ _ _ _); [exact Logic.I|exact X|exact X|exact Logic.I].
  Qed.
  Lemma key_named : forall n, In n (map fst src) -> lines_named src n <> None.
  Proof.
    induction src as [|[m l] r IH]; intros n I; [destruct I|]. cbn [lines_named]. destruct (beq m n) eqn:E; [discriminate|]. destruct I as [I|I].
    - cbn in I. subst m. rewrite beq_refl in E. discriminate.
    - apply IH, I.
  Qed.
  Lemma units_named : forall n, In n (units src) -> lines_named src n <> None.
  Proof.
    intros n I. apply key_named. unfold units in I. apply in_app_or in I. destruct I as [I|I]; [apply filter_In in I; apply I|].
    apply in_app_or in I. destruct I as [I|I]; [|apply filter_In in I; apply I].
    destruct (existsb (beq (str "main.cpp")) (map fst src)) eqn:E; [|destruct I]. destruct I as [<-|[]]. apply in_bool, E.
  Qed.
  Lemma all_fine : forall fuel ns a, complete src -> (forall n, In n ns -> lines_named src n <> None) -> fine (add_all fuel src ns a).
  Proof.
    induction ns as [|n ns IH]; intros a C H; [exact Logic.I|]. cbn [add_all]. pose proof (add_fine fuel n a C (H n (or_introl eq_refl))) as X.
    destruct (add fuel src n a); [apply IH; [exact C|intros m M; apply H; right; exact M]|exact X|exact X|exact Logic.I].
  Qed.

  (** ** Order *)
  Section Order.
    Context (rank : list Z -> nat).
    Hypothesis ranked : forall f k h, includes src f k h -> (rank h < rank f)%nat.
    (** [open]: the files being copied *)
    Definition ordered (open : list (list Z)) (a : amalgam) : Prop :=
      (forall f j l k h, In (Some (f, j), l) (am_lines a) -> (k < j)%nat -> includes src f k h -> In h (am_included a) /\ ~ In h open) /\
      (forall x y f j l k h i l', am_lines a = x ++ (Some (f, j), l) :: y -> (k < j)%nat -> includes src f k h -> In (Some (h, i), l') y -> False).
    Lemma ordered_mark : forall open a l, ordered open a -> ordered open (emit (None, l) a).
    Proof.
      intros open a l [A B]. split; cbn [emit am_lines am_included].
      - intros f j l0 k h I. apply in_app_or in I. destruct I as [I|[I|[]]]; [eapply A; exact I|discriminate].
      - intros x y f j l0 k h i l' E K INC I. destruct (exists_last (l := y)) as (y' & e & ->); [intros ->; destruct I|].
        rewrite app_comm_cons, app_assoc in E. apply app_inj_tail in E. destruct E as [E <-]. apply in_app_or in I. destruct I as [I|[I|[]]]; [|discriminate].
        eapply B; eassumption.
    Qed.
    Lemma ordered_line : forall open a n j l, ordered open a -> In n open ->
      (forall k h, (k < j)%nat -> includes src n k h -> In h (am_included a) /\ ~ In h open) -> ordered open (emit (Some (n, j), l) a).
    Proof.
      intros open a n j l [A B] O C. split; cbn [emit am_lines am_included].
      - intros f j0 l0 k h I. apply in_app_or in I. destruct I as [I|[I|[]]]; [eapply A; exact I|]. injection I as <- <- <-. apply C.
      - intros x y f j0 l0 k h i l' E K INC I. destruct (exists_last (l := y)) as (y' & e & ->); [intros ->; destruct I|].
        rewrite app_comm_cons, app_assoc in E. apply app_inj_tail in E. destruct E as [E <-]. apply in_app_or in I. destruct I as [I|[I|[]]]; [eapply B; eassumption|].
        injection I as -> _ _. destruct (A f j0 l0 k h) as [_ X]; [rewrite E; apply in_or_app; right; left; reflexivity|exact K|exact INC|]. contradiction.
    Qed.
    Definition keeps (f : list Z -> amalgam -> made) : Prop := forall open n a a', f n a = Made a' -> ordered open a ->
      (forall m, In m open -> (rank n < rank m)%nat) -> incl open (am_included a) -> ordered open a'.
    Lemma lines_ordered : forall f n, adds f -> keeps f -> forall ls pre open a a', lines_named src n = Some (pre ++ ls) ->
      add_lines f n (length pre) ls a = Made a' -> ordered open a -> In n open -> (forall m, In m open -> (rank n <= rank m)%nat) -> incl open (am_included a) ->
      (forall k h, (k < length pre)%nat -> includes src n k h -> In h (am_included a)) -> ordered open a'.
    Proof using ranked.
      intros f n F KF. induction ls as [|l ls IH]; intros pre open a a' N H O IN R IO P; [injection H as <-; exact O|].
      assert (N' : lines_named src n = Some ((pre ++ [l]) ++ ls)) by (rewrite <- app_assoc; exact N).
      assert (LP : length (pre ++ [l]) = S (length pre)) by (rewrite app_length; cbn; lia).
      assert (OL : forall shown, ordered open (emit (Some (n, length pre), shown) a)).
      { intros shown. apply ordered_line; [exact O|exact IN|]. intros k h K INC. split; [eapply P; eassumption|].
        intro X. apply R in X. apply ranked in INC. lia. }
      assert (LAST : forall h, includes src n (length pre) h -> kind_of l = Local h).
      { intros h (ls' & l' & L1 & L2 & L3). rewrite N in L1. injection L1 as <-. rewrite nth_error_app2 in L2 by lia. rewrite Nat.sub_diag in L2. injection L2 as <-. exact L3. }
      assert (REST : forall b, incl (am_included a) (am_included b) -> ordered open b -> (forall h, kind_of l = Local h -> In h (am_included b)) ->
        add_lines f n (S (length pre)) ls b = Made a' -> ordered open a').
      { intros b IB OB KB Q. rewrite <- LP in Q. eapply (IH (pre ++ [l])); [exact N'|exact Q|exact OB|exact IN|exact R|eapply incl_tran; eassumption|].
        rewrite LP. intros k h K INC. destruct (Nat.eq_dec k (length pre)) as [->|D]; [apply KB, LAST, INC|]. apply IB. apply (P k h); [lia|exact INC]. }
      cbn [add_lines] in H. destruct (kind_of l) eqn:K.
      - eapply REST; [|apply OL| |exact H]; [apply incl_refl|intros h X; discriminate].
      - destruct (included header a) eqn:J.
        + eapply REST; [|apply OL| |exact H]; [apply incl_refl|]. intros h X. injection X as <-. apply included_in, J.
        + destruct (f header (emit (Some (n, length pre), commented l) a)) as [b| | |] eqn:FB; try discriminate.
          destruct (F _ _ _ FB) as (IH1 & nb & EB). destruct EB as (_ & IB & _).
          assert (INC : includes src n (length pre) header).
          { exists (pre ++ l :: ls), l. split; [exact N|]. split; [|exact K]. rewrite nth_error_app2 by lia. rewrite Nat.sub_diag. reflexivity. }
          eapply REST; [exact IB| | |exact H]; [|intros h X; injection X as <-; exact IH1].
          apply (KF open header _ b FB (OL _)); [|exact IO]. intros m M. apply R in M. apply ranked in INC. lia.
      - eapply REST; [|apply OL| |exact H]; [apply incl_refl|intros h X; discriminate].
      - discriminate.
      - eapply REST; [|apply OL| |exact H]; [apply incl_refl|intros h X; discriminate].
    Qed.
    Lemma add_ordered : forall fuel, keeps (add fuel src).
    Proof using ranked.
      induction fuel as [|fuel IH]; intros open n a a' H O R IO; cbn [add] in H; (destruct (included n a) eqn:I; [injection H as <-; exact O|]);
        (destruct (lines_named src n) as [ls|] eqn:N; [|discriminate]); [discriminate|].
      set (b := emit _ (emit _ _)) in H. destruct (add_lines (add fuel src) n 0 ls b) as [c| | |] eqn:E; try discriminate. injection H as <-.
      apply ordered_mark. apply not_included in I.
      assert (OB : ordered (n :: open) b).
      { unfold b. apply ordered_mark, ordered_mark. destruct O as [A B]. split; cbn [am_lines am_included]; [|exact B].
        intros f j l k h X K INC. destruct (A f j l k h X K INC) as [Y1 Y2]. split; [right; exact Y1|]. intros [<-|Z]; contradiction. }
      assert (OC : ordered (n :: open) c).
      { apply (lines_ordered (add fuel src) n (add_ext fuel) IH ls [] (n :: open) b c N E OB); [left; reflexivity| | |].
        - intros m [<-|M]; [lia|]. apply R in M. lia.
        - cbn [b emit am_included]. intros m [<-|M]; [left; reflexivity|right; apply IO, M].
        - intros k h K. cbn in K. lia. }
      destruct OC as [A B]. split; [|exact B]. intros f j l k h X K INC. destruct (A f j l k h X K INC) as [Y1 Y2]. split; [exact Y1|]. intro Z. apply Y2. right. exact Z.
    Qed.
    Lemma all_ordered : forall fuel ns a a', add_all fuel src ns a = Made a' -> ordered [] a -> ordered [] a'.
    Proof using ranked.
      induction ns as [|n ns IH]; intros a a' H O; [injection H as <-; exact O|]. cbn [add_all] in H. destruct (add fuel src n a) as [b| | |] eqn:E; try discriminate.
      apply (IH b a' H). apply (add_ordered fuel [] n a b E O); [intros m []|intros m []].
    Qed.
  End Order.
End Source.

(** ** C89 *)
Lemma c89_ends : forall src, amalgamate src <> NoFuel.
Proof. intros. apply all_fuel. Qed.
Lemma c89_made : forall src, complete src -> exists a, amalgamate src = Made a.
Proof.
  intros src C. pose proof (c89_ends src) as X. unfold amalgamate in *.
  pose proof (all_fine src (length src) (units src) (mk_am [] [(None, str "//amalgamation: src *.ino *.cpp" ++ [10])]) C (units_named src)) as Y.
  destruct (add_all _ _ _ _) as [a| | |]; [exists a; reflexivity|destruct Y|destruct Y|congruence].
Qed.
Lemma part_reach : forall src g, part_of src g <-> reach_any src (units src) g.
Proof.
  intros src g. split.
  - intros P. induction P as [n I|f k h P (n & I & R) INC]; [exists n; split; [exact I|apply reach_self]|]. exists n. split; [exact I|]. eapply reach_step; eassumption.
  - intros (n & I & R). induction R as [|f k h R IH INC]; [apply part_unit, I|]. eapply part_header; eassumption.
Qed.
Lemma c89_once : forall src a, amalgamate src = Made a -> forall f,
  (part_of src f -> exists ls, lines_named src f = Some ls /\ taken f (am_lines a) = whole ls) /\
  (~ part_of src f -> taken f (am_lines a) = []).
Proof.
  intros src a H f. destruct (all_ext src _ _ _ _ H) as (NS & new & L & I & A & B & C & D & E). cbn [am_lines am_included] in *.
  assert (T : forall g, taken g (am_lines a) = taken g new) by (intros g; rewrite L; reflexivity). rewrite T.
  assert (K : forall g, In g (am_included a) <-> part_of src g).
  { intros g. split.
    - intros G. destruct (D g G) as [[]|[_ R]]. apply part_reach, R.
    - intros P. induction P as [n J|g k h P IH INC]; [apply NS, J|]. apply (E g k h IH); [intros []|exact INC]. }
  split.
  - intros P. apply K in P. destruct (D f P) as [[]|[N R]]. destruct (lines_named src f) as [ls|] eqn:LN; [|contradiction]. exists ls. split; [reflexivity|].
    apply B; [intros []|exact P|exact LN].
  - intros P. apply C. intro X. apply P, K, X.
Qed.
Lemma flat_map_nil : forall (A B : Type) (f : A -> list B) l, (forall x, In x l -> f x = []) -> flat_map f l = [].
Proof. induction l as [|x l IH]; intros H; [reflexivity|]. cbn [flat_map]. rewrite (H x (or_introl eq_refl)), IH; [reflexivity|]. intros y I. apply H. right. exact I. Qed.
Lemma c89_before : forall src a, amalgamate src = Made a -> acyclic src -> forall x f j l y k h, am_lines a = x ++ (Some (f, j), l) :: y ->
  (k < j)%nat -> includes src f k h -> taken h y = [] /\ exists ls, lines_named src h = Some ls /\ taken h x = whole ls.
Proof.
  intros src a H [rank R] x f j l y k h E K INC.
  assert (O : ordered src [] a).
  { eapply (all_ordered src rank R); [exact H|]. split; cbn [am_lines].
    - intros f0 j0 l0 k0 h0 [X|[]]. discriminate.
    - intros x0 y0 f0 j0 l0 k0 h0 i l' X. destruct x0 as [|? [|? ?]]; discriminate. }
  destruct O as [_ O]. assert (Y : taken h y = []).
  { unfold taken. apply flat_map_nil. intros [[[g i]|] l'] J; [|reflexivity]. destruct (beq g h) eqn:Q; [|reflexivity]. apply beq_eq in Q. subst g.
    exfalso. eapply O; eassumption. }
  split; [exact Y|].
  assert (F : In (j, l) (taken f (am_lines a))).
  { rewrite E, taken_app. apply in_or_app. right. unfold taken. cbn [flat_map]. rewrite beq_refl. left. reflexivity. }
  destruct (c89_once src a H f) as [P1 P2]. destruct (c89_once src a H h) as [Q1 _].
  assert (P : part_of src f).
  { destruct (all_ext src _ _ _ _ H) as (NS & new & L & I & A & B & C & D & EE). cbn [am_lines am_included] in *.
    assert (T : taken f (am_lines a) = taken f new) by (rewrite L; reflexivity).
    destruct (in_dec name_dec f (am_included a)) as [J|J]; [destruct (D f J) as [[]|[_ RR]]; apply part_reach, RR|]. rewrite T, (C f J) in F. destruct F. }
  destruct Q1 as (ls & LN & TK); [eapply part_header; eassumption|]. exists ls. split; [exact LN|]. rewrite <- TK, E, taken_app.
  assert (D : h <> f) by (intros ->; apply R in INC; lia).
  change ((Some (f, j), l) :: y) with ([(Some (f, j), l)] ++ y). rewrite taken_app, (taken_other h f j l D), Y, !app_nil_r. reflexivity.
Qed.

(** ** Lines *)
Lemma begins_app : forall w l, begins w (w ++ l) = true.
Proof. intros w l. unfold begins. rewrite firstn_app, Nat.sub_diag, firstn_all, app_nil_r. apply beq_refl. Qed.
Lemma last_none : forall c l, ~ In c l -> last_at c l = None.
Proof.
  intros c. induction l as [|x l IH]; intros N; [reflexivity|]. cbn [last_at]. rewrite IH by (intros I; apply N; right; exact I).
  destruct (Z.eqb_spec x c); [|reflexivity]. destruct N. left. assumption.
Qed.
Lemma last_found : forall c h r, ~ In c r -> last_at c (h ++ c :: r) = Some (length h).
Proof.
  intros c h r N. induction h as [|x h IH]; cbn [app last_at length].
  - rewrite last_none by exact N. rewrite Z.eqb_refl. reflexivity.
  - rewrite IH. reflexivity.
Qed.
Lemma group_found : forall c h r, h <> [] -> ~ In c r -> group_upto c (h ++ c :: r) = Some h.
Proof.
  intros c h r H N. unfold group_upto. rewrite last_found by exact N. destruct h as [|x h]; [congruence|]. cbn [length].
  change (S (length h)) with (length (x :: h)). rewrite firstn_app, Nat.sub_diag, firstn_all, app_nil_r. reflexivity.
Qed.
Lemma unindent_blanks : forall b l, spaces_only b -> unindent (b ++ l) = unindent l.
Proof.
  intros b l H. induction H as [|c b C H IH]; [reflexivity|]. cbn [app unindent]. replace (white c) with true by (destruct C; subst; reflexivity). exact IH.
Qed.
Lemma search_blanks : forall w d b l, spaces_only b -> search (35 :: w) d (b ++ l) = search (35 :: w) d l.
Proof.
  intros w d b l H. induction H as [|c b C H IH]; [reflexivity|]. cbn [app]. rewrite <- IH. cbn [search].
  replace (begins (35 :: w) (c :: b ++ l)) with false; [reflexivity|]. unfold begins. cbn [firstn length]. symmetry. apply beq_neq. destruct C; subst; congruence.
Qed.
Lemma search_here : forall w d l g, group_upto d l = Some g -> search w d (w ++ l) = Some g.
Proof.
  intros w d l g H. assert (X : (if begins w (w ++ l) then group_upto d (skipn (length w) (w ++ l)) else None) = Some g).
  { rewrite begins_app, skipn_app, Nat.sub_diag, skipn_all. cbn [app skipn]. exact H. }
  destruct (w ++ l); cbn [search]; rewrite X; reflexivity.
Qed.
Lemma search_never : forall w d l, ~ In d l -> search w d l = None.
Proof.
  intros w d. induction l as [|x l IH]; intros N.
  - cbn [search]. destruct (begins w []); [|reflexivity]. rewrite skipn_nil. reflexivity.
  - cbn [search]. rewrite IH by (intros I; apply N; right; exact I).
    destruct (begins w (x :: l)); [|reflexivity]. unfold group_upto. rewrite last_none; [reflexivity|]. intros I. apply N.
    rewrite <- (firstn_skipn (length w) (x :: l)). apply in_or_app. right. exact I.
Qed.
Lemma c89_include : forall blanks h rest, spaces_only blanks -> h <> [] -> ~ In 34 rest -> kind_of (include_line blanks h rest) = Local h.
Proof.
  intros b h r B H N. unfold kind_of, include_line. rewrite unindent_blanks by exact B.
  assert (S : search (str "#include " ++ [34]) 34 (b ++ str "#include " ++ [34] ++ h ++ [34] ++ r) = Some h).
  { change (str "#include " ++ [34]) with (35 :: tl (str "#include " ++ [34])) at 1. rewrite search_blanks by exact B.
    change (35 :: tl (str "#include " ++ [34])) with (str "#include " ++ [34]). rewrite app_assoc. apply search_here. apply group_found; assumption. }
  rewrite S. reflexivity.
Qed.
Lemma c89_system : forall blanks h rest, spaces_only blanks -> h <> [] -> ~ In 34 (h ++ rest) -> kind_of (system_line blanks h rest) = System.
Proof.
  intros b h r B H N. unfold kind_of, system_line. rewrite unindent_blanks by exact B.
  assert (S1 : search (str "#include " ++ [34]) 34 (b ++ str "#include <" ++ h ++ str ">" ++ r) = None).
  { apply search_never. intros I. apply in_app_or in I. destruct I as [I|I].
    - apply (proj1 (Forall_forall _ _) B) in I. destruct I; discriminate.
    - apply in_app_or in I. destruct I as [I|I]; [vm_compute in I; intuition discriminate|]. apply N. apply in_app_or in I. destruct I as [I|I]; [apply in_or_app; auto|].
      destruct I as [I|I]; [discriminate|]. apply in_or_app. auto. }
  rewrite S1.
  assert (S2 : search (str "#include <") 62 (b ++ str "#include <" ++ h ++ str ">" ++ r) <> None).
  { change (str "#include <") with (35 :: tl (str "#include <")) at 1. rewrite search_blanks by exact B.
    change (35 :: tl (str "#include <")) with (str "#include <").
    assert (X : exists i, last_at 62 (h ++ str ">" ++ r) = Some (S i)).
    { destruct h as [|x h]; [congruence|]. clear. assert (Y : forall a, exists i, last_at 62 (a ++ 62 :: r) = Some i).
      { induction a as [|y a (i & IH)]; [|exists (S i); cbn [app last_at]; rewrite IH; reflexivity].
        cbn [app last_at]. destruct (last_at 62 r) as [i|]; [exists (S i)|exists O]; reflexivity. }
      destruct (Y h) as (i & Z). exists i. cbn [app last_at]. change (str ">" ++ r) with (62 :: r). rewrite Z. reflexivity. }
    destruct X as (i & X). rewrite (search_here _ _ _ (firstn (S i) (h ++ str ">" ++ r))); [discriminate|]. unfold group_upto. rewrite X. reflexivity. }
  destruct (search (str "#include <") 62 _); [reflexivity|congruence].
Qed.
Lemma c89_other : forall blanks c l, spaces_only blanks -> c <> 35 -> white c = false -> kind_of (blanks ++ c :: l) = Other.
Proof.
  intros b c l B N W. unfold kind_of. rewrite unindent_blanks by exact B. cbn [unindent]. rewrite W.
  replace (begins (str "#pragma once") (c :: l)) with false; [replace (begins (str "#include") (c :: l)) with false; [reflexivity|]|];
    symmetry; apply beq_neq; intros X; cbn in X; congruence.
Qed.
