(** Proofs for C98. *)
From Coq Require Import ZArith List Bool Lia.
From Verif Require Import Base BaseFacts Config Ota OtaSpec.
Import ListNotations.
Open Scope Z_scope.

Section Md5.
Variable md5 : list Z -> list Z.
Hypothesis H32 : digits32 md5.

Lemma run_snoc : forall es e m m1 os m2 o, run md5 es m = (m1, os) -> step md5 e m1 = (m2, o) -> run md5 (es ++ [e]) m = (m2, os ++ [o]).
Proof.
  induction es as [|x es IH]; intros e m m1 os m2 o R S; cbn [run app] in *.
  - injection R as <- <-. rewrite S. reflexivity.
  - destruct (step md5 x m) as [m' o'] eqn:E. destruct (run md5 es m') as [m'' os'] eqn:F. injection R as <- <-.
    rewrite (IH e m' m'' os' m2 o F S). reflexivity.
Qed.
Lemma run_length : forall es m m' os, run md5 es m = (m', os) -> length os = length es.
Proof.
  induction es as [|x es IH]; intros m m' os R; cbn [run] in R; [injection R as <- <-; reflexivity|].
  destruct (step md5 x m) as [m1 o]. destruct (run md5 es m1) as [m2 os2] eqn:E. injection R as <- <-. cbn [length]. f_equal. exact (IH _ _ _ E).
Qed.
Lemma run_app : forall a b m, run md5 (a ++ b) m = (let '(m1, o1) := run md5 a m in let '(m2, o2) := run md5 b m1 in (m2, o1 ++ o2)).
Proof.
  induction a as [|x a IH]; intros b m; cbn [run app].
  - destruct (run md5 b m); reflexivity.
  - destruct (step md5 x m) as [m1 o]. rewrite IH. destruct (run md5 a m1) as [m2 o2]. destruct (run md5 b m2). reflexivity.
Qed.

(** The invitation being dealt with. *)
Definition invited (es : list event) (os : list (list out)) (t : ota) (rest : list event) : Prop :=
  exists es1 p port, es = es1 ++ Comes p (Invite (o_cmd t) port (o_size t) (o_md5 t)) (o_nonce t) :: rest /\
    nth (length es1) os [] = [Challenge p (o_nonce t)].
Definition waited (es : list event) (os : list (list out)) (t : ota) : Prop := exists es2, no_datagram es2 /\ invited es os t es2.
Definition ran (pw : list Z) (es : list event) (os : list (list out)) (t : ota) : Prop :=
  exists es2 q cn n es3, no_datagram es2 /\ invited es os t (es2 ++ Comes q (Answer cn (response md5 pw (o_nonce t) cn)) n :: es3).
Definition origin (pw : list Z) (es : list event) (os : list (list out)) (t : ota) : Prop :=
  match o_state t with Idle => True | WaitAuth => waited es os t | RunUpdate => ran pw es os t end.
Record Inv (c0 : cfg) (es : list event) (os : list (list out)) (m : module) : Prop := {
  i_now : m_cfg m = fst (settings_after c0 (combine es os));
  i_pass : o_pass (m_ota m) = md5 (password c0 (combine es os));
  i_origin : origin (password c0 (combine es os)) es os (m_ota m) }.

Lemma combine_snoc : forall A B (a : list A) (b : list B) x y, length a = length b -> combine (a ++ [x]) (b ++ [y]) = combine a b ++ [(x, y)].
Proof.
  induction a as [|u a IH]; intros [|v b] x y L; cbn in *; try discriminate; auto. f_equal. apply IH. congruence.
Qed.
Lemma settings_snoc : forall c0 tr x, settings_after c0 (tr ++ [x]) =
  (let a := settings_after c0 tr in let now := match fst x with Saved c => c | _ => fst a end in (now, if starts x then now else snd a)).
Proof. intros. unfold settings_after. now rewrite fold_left_app. Qed.

Lemma invited_more : forall es os t t' rest e o, length os = length es -> invited es os t rest ->
  o_cmd t' = o_cmd t -> o_size t' = o_size t -> o_md5 t' = o_md5 t -> o_nonce t' = o_nonce t -> invited (es ++ [e]) (os ++ [o]) t' (rest ++ [e]).
Proof.
  intros es os t t' rest e o L (es1 & p & port & E & N) A B C D. exists es1, p, port. rewrite A, B, C, D. split.
  - rewrite E. rewrite <- app_assoc. reflexivity.
  - rewrite app_nth1; [exact N|]. rewrite L, E, app_length. cbn. lia.
Qed.
Lemma waited_more : forall es os t t' e o, length os = length es -> waited es os t -> (forall p d n, e <> Comes p d n) ->
  o_cmd t' = o_cmd t -> o_size t' = o_size t -> o_md5 t' = o_md5 t -> o_nonce t' = o_nonce t -> waited (es ++ [e]) (os ++ [o]) t'.
Proof.
  intros es os t t' e o L (es2 & N & I) X A B C D. exists (es2 ++ [e]). split.
  - intros p d n J. apply in_app_or in J. destruct J as [J|[J|[]]]; [exact (N p d n J)|exact (X p d n J)].
  - exact (invited_more es os t t' es2 e o L I A B C D).
Qed.
Lemma ran_more : forall pw es os t t' e o, length os = length es -> ran pw es os t ->
  o_cmd t' = o_cmd t -> o_size t' = o_size t -> o_md5 t' = o_md5 t -> o_nonce t' = o_nonce t -> ran pw (es ++ [e]) (os ++ [o]) t'.
Proof.
  intros pw es os t t' e o L (es2 & q & cn & n & es3 & N & I) A B C D. exists es2, q, cn, n, (es3 ++ [e]). split; [exact N|].
  pose proof (invited_more es os t t' _ e o L I A B C D) as K. rewrite <- app_assoc in K. rewrite D. exact K.
Qed.
Lemma origin_more : forall pw es os t t' e o, length os = length es -> origin pw es os t -> (forall p d n, e <> Comes p d n) ->
  o_state t' = o_state t -> o_cmd t' = o_cmd t -> o_size t' = o_size t -> o_md5 t' = o_md5 t -> o_nonce t' = o_nonce t ->
  origin pw (es ++ [e]) (os ++ [o]) t'.
Proof.
  intros pw es os t t' e o L O X S A B C D. unfold origin in *. rewrite S. destruct (o_state t); [exact Logic.I| |].
  - exact (waited_more es os t t' e o L O X A B C D).
  - exact (ran_more pw es os t t' e o L O A B C D).
Qed.

(** The module restarts. *)
Lemma boot_inv : forall c0 es os m e o, length os = length es -> Inv c0 es os m -> (forall c, e <> Saved c) -> starts (e, o) = true ->
  Inv c0 (es ++ [e]) (os ++ [o]) (boot md5 (m_cfg m)).
Proof.
  intros c0 es os m e o L I X S. unfold password. 
  assert (K : settings_after c0 (combine (es ++ [e]) (os ++ [o])) = (m_cfg m, m_cfg m)).
  { rewrite combine_snoc by congruence. rewrite settings_snoc, S. cbv zeta. cbn [fst]. rewrite (i_now _ _ _ _ I).
    destruct e; try reflexivity. destruct (X c eq_refl). }
  constructor; unfold password; rewrite K; [reflexivity|reflexivity|exact Logic.I].
Qed.
(** It does not. *)
Lemma plain_inv : forall c0 es os m t' e o, length os = length es -> Inv c0 es os m -> (forall c, e <> Saved c) -> starts (e, o) = false ->
  o_pass t' = o_pass (m_ota m) -> origin (password c0 (combine es os)) (es ++ [e]) (os ++ [o]) t' ->
  Inv c0 (es ++ [e]) (os ++ [o]) (mk_module (m_cfg m) t').
Proof.
  intros c0 es os m t' e o L I X S P O.
  assert (K : settings_after c0 (combine (es ++ [e]) (os ++ [o])) = settings_after c0 (combine es os)).
  { rewrite combine_snoc by congruence. rewrite settings_snoc, S. cbv zeta. cbn [fst]. destruct e; try (destruct (X c eq_refl)); now rewrite <- surjective_pairing. }
  constructor; unfold password; rewrite K; cbn [m_cfg m_ota]; [apply (i_now _ _ _ _ I)|rewrite P; apply (i_pass _ _ _ _ I)|exact O].
Qed.
Lemma module_eta : forall m, mk_module (m_cfg m) (m_ota m) = m. Proof. intros []. reflexivity. Qed.

Lemma error_inv : forall c0 es os m e os1 m' o, length os = length es -> Inv c0 es os m -> (forall c, e <> Saved c) -> e <> Reboots ->
  existsb is_restart os1 = false -> on_error md5 m os1 = (m', o) -> Inv c0 (es ++ [e]) (os ++ [o]) m'.
Proof.
  intros c0 es os m e os1 m' o L I X Y N E. unfold on_error in E. destruct (o_calls (m_ota m)); injection E as <- <-.
  - apply boot_inv; auto. unfold starts. cbn [fst snd]. destruct e; try reflexivity; rewrite existsb_app, orb_comm; reflexivity.
  - apply plain_inv; auto; [unfold starts; cbn [fst snd]; destruct e; try exact N; congruence|exact Logic.I].
Qed.

Lemma step_inv : forall c0 es os m e m' o, length os = length es -> Inv c0 es os m -> step md5 e m = (m', o) -> Inv c0 (es ++ [e]) (os ++ [o]) m'.
Proof.
  intros c0 es os m e m' o L I E. destruct e as [c| | |p d nonce|b k image]; cbn [step] in E.
  - injection E as <- <-.
    assert (K : settings_after c0 (combine (es ++ [Saved c]) (os ++ [[]])) = (c, snd (settings_after c0 (combine es os)))).
    { rewrite combine_snoc by congruence. rewrite settings_snoc. reflexivity. }
    constructor; unfold password; rewrite K; cbn [fst snd m_cfg m_ota]; [reflexivity|apply (i_pass _ _ _ _ I)|].
    apply (origin_more _ es os (m_ota m)); auto; [apply (i_origin _ _ _ _ I)|discriminate].
  - injection E as <- <-. apply boot_inv; auto; [discriminate].
  - injection E as <- <-. apply plain_inv; auto; [discriminate|].
    apply (origin_more _ es os (m_ota m)); auto; [apply (i_origin _ _ _ _ I)|discriminate].
  - unfold on_rx in E. pose proof (i_origin _ _ _ _ I) as O. unfold origin in O.
    destruct (o_state (m_ota m)) eqn:S.
    + assert (Z0 : Inv c0 (es ++ [Comes p d nonce]) (os ++ [[]]) m).
      { rewrite <- (module_eta m). apply plain_inv; auto; [discriminate|]. unfold origin. rewrite S. exact Logic.I. }
      destruct d as [cmd port size sum|cn resp|]; try (injection E as <- <-; exact Z0).
      destruct (((cmd =? 0) || (cmd =? 100)) && is32 sum); [|injection E as <- <-; exact Z0].
      destruct (o_pass (m_ota m)) as [|x l] eqn:Ps.
      { exfalso. pose proof (i_pass _ _ _ _ I) as P. rewrite Ps in P. pose proof (H32 (password c0 (combine es os))) as Q. rewrite <- P in Q. discriminate. }
      injection E as <- <-. rewrite <- Ps. apply plain_inv; auto; [discriminate|]. unfold origin. cbn [o_state].
      exists []. split; [intros ? ? ? []|]. exists es, p, port. cbn [o_cmd o_size o_md5 o_nonce]. split; [reflexivity|].
      rewrite <- L, app_nth2, Nat.sub_diag by lia. reflexivity.
    + assert (Z0 : Inv c0 (es ++ [Comes p d nonce]) (os ++ [[]]) (mk_module (m_cfg m) (in_state Idle (m_ota m)))).
      { apply plain_inv; auto; [discriminate|exact Logic.I]. }
      destruct d as [cmd port size sum|cn resp|]; try (injection E as <- <-; exact Z0).
      destruct (is32 cn && is32 resp); [|injection E as <- <-; exact Z0].
      destruct (beq (expected md5 (o_pass (m_ota m)) (o_nonce (m_ota m)) cn) resp) eqn:Q.
      * injection E as <- <-. apply plain_inv; auto; [discriminate|]. unfold origin. cbn [in_state o_state].
        apply beq_eq in Q. unfold expected in Q. rewrite (i_pass _ _ _ _ I) in Q.
        destruct O as (es2 & N & es1 & p1 & port & Ee & Nn). exists es2, p, cn, nonce, []. split; [exact N|].
        exists es1, p1, port. cbn [in_state o_cmd o_size o_md5 o_nonce]. split.
        -- rewrite Ee at 1. rewrite <- app_assoc. cbn [app]. unfold response. change (str ":") with [58]. rewrite Q. reflexivity.
        -- rewrite app_nth1; [exact Nn|]. rewrite L, Ee, app_length. cbn. lia.
      * apply (error_inv c0 es os m _ [Failed p]); auto; discriminate.
    + assert (Z0 : Inv c0 (es ++ [Comes p d nonce]) (os ++ [[]]) m).
      { rewrite <- (module_eta m). apply plain_inv; auto; [discriminate|]. unfold origin. rewrite S. apply (ran_more _ es os (m_ota m)); auto. }
      destruct d; injection E as <- <-; exact Z0.
  - unfold handle in E. pose proof (i_origin _ _ _ _ I) as O.
    assert (Z0 : o_state (m_ota m) <> RunUpdate -> Inv c0 (es ++ [Handles b k image]) (os ++ [[]]) m).
    { intros _. rewrite <- (module_eta m). apply plain_inv; auto; [discriminate|].
      apply (origin_more _ es os (m_ota m)); auto. discriminate. }
    destruct (o_state (m_ota m)) eqn:S; try (injection E as <- <-; apply Z0; discriminate).
    destruct (b && k && (Z.of_nat (length image) =? o_size (m_ota m)) && beq (md5 image) (o_md5 (m_ota m))).
    + injection E as <- <-. apply boot_inv; auto; discriminate.
    + apply (error_inv c0 es os m _ []); auto; discriminate.
Qed.
Lemma run_inv : forall c0 es m os, run md5 es (boot md5 c0) = (m, os) -> Inv c0 es os m.
Proof.
  intros c0. induction es as [|e es IH] using rev_ind; intros m os R.
  - cbn in R. injection R as <- <-. constructor; [reflexivity|reflexivity|exact Logic.I].
  - destruct (run md5 es (boot md5 c0)) as [m1 os1] eqn:R1. destruct (step md5 e m1) as [m2 o] eqn:S.
    rewrite (run_snoc es e _ m1 os1 m2 o R1 S) in R. injection R as <- <-.
    apply (step_inv c0 es os1 m1 e m2 o); auto. exact (run_length _ _ _ _ R1).
Qed.

Lemma c98_written : forall c0 es m os e m' o cmd image, run md5 es (boot md5 c0) = (m, os) -> step md5 e m = (m', o) -> In (Written cmd image) o ->
  e = Handles true true image /\ o = [Written cmd image; Restart] /\
  exists es1 p port nonce es2 q cn n es3,
    es = es1 ++ Comes p (Invite cmd port (Z.of_nat (length image)) (md5 image)) nonce ::
         es2 ++ Comes q (Answer cn (response md5 (password c0 (combine es os)) nonce cn)) n :: es3 /\
    nth (length es1) os [] = [Challenge p nonce] /\ no_datagram es2.
Proof.
  intros c0 es m os e m' o cmd image R E W. pose proof (run_inv c0 es m os R) as I.
  assert (OE : forall x l m'' o'', on_error md5 m l = (m'', o'') -> In (Written x image) o'' -> In (Written x image) l).
  { intros x l m'' o'' Q J. unfold on_error in Q. destruct (o_calls (m_ota m)); injection Q as <- <-; [|exact J].
    apply in_app_or in J. destruct J as [J|[J|[]]]; [exact J|discriminate]. }
  destruct e as [c| | |p d nonce|b k im]; cbn [step] in E; try (injection E as <- <-; destruct W).
  - exfalso. unfold on_rx in E. destruct (o_state (m_ota m)).
    + destruct d; try (injection E as <- <-; destruct W). destruct (_ && is32 _); [|injection E as <- <-; destruct W].
      destruct (o_pass (m_ota m)); injection E as <- <-; [destruct W|destruct W as [W|[]]; discriminate].
    + destruct d; try (injection E as <- <-; destruct W). destruct (_ && is32 _); [|injection E as <- <-; destruct W].
      destruct (beq _ _); [injection E as <- <-; destruct W|]. specialize (OE _ _ _ _ E W). destruct OE as [OE|[]]; discriminate.
    + destruct d; injection E as <- <-; destruct W.
  - unfold handle in E. pose proof (i_origin _ _ _ _ I) as O. unfold origin in O.
    destruct (o_state (m_ota m)); try (injection E as <- <-; destruct W).
    destruct (b && k && (Z.of_nat (length im) =? o_size (m_ota m)) && beq (md5 im) (o_md5 (m_ota m))) eqn:C; [|exfalso; exact (OE _ _ _ _ E W)].
    injection E as <- <-. destruct W as [W|[W|[]]]; [|discriminate]. injection W as <- <-.
    rewrite !andb_true_iff in C. destruct C as [[[-> ->] C] D]. apply Z.eqb_eq in C. apply beq_eq in D.
    split; [reflexivity|]. split; [reflexivity|].
    destruct O as (es2 & q & cn & n & es3 & N & es1 & p & port & Ee & Nn).
    exists es1, p, port, (o_nonce (m_ota m)), es2, q, cn, n, es3. rewrite C, D. auto.
Qed.

(** Someone who knows the password. *)
Lemma c98_update : forall c0 es m os cmd port image p q nonce cn n, run md5 es (boot md5 c0) = (m, os) -> o_state (m_ota m) = Idle ->
  cmd = 0 \/ cmd = 100 -> length cn = 32%nat ->
  exists m', run md5 [Comes p (Invite cmd port (Z.of_nat (length image)) (md5 image)) nonce;
                 Comes q (Answer cn (response md5 (password c0 (combine es os)) nonce cn)) n; Handles true true image] m =
             (m', [[Challenge p nonce]; []; [Written cmd image; Restart]]) /\ o_state (m_ota m') = Idle.
Proof.
  intros c0 es m os cmd port image p q nonce cn n R S C L. pose proof (run_inv c0 es m os R) as I.
  cbn [run step]. unfold on_rx at 1. rewrite S.
  replace (((cmd =? 0) || (cmd =? 100)) && is32 (md5 image)) with true
    by (unfold is32; rewrite H32; destruct C as [-> | ->]; reflexivity).
  destruct (o_pass (m_ota m)) as [|x l] eqn:Ps.
  { exfalso. pose proof (i_pass _ _ _ _ I) as P. rewrite Ps in P. pose proof (H32 (password c0 (combine es os))) as Q. rewrite <- P in Q. discriminate. }
  rewrite <- Ps. cbv zeta. unfold on_rx. cbn [m_ota o_state o_pass o_nonce m_cfg].
  assert (T : is32 cn && is32 (response md5 (password c0 (combine es os)) nonce cn) = true).
  { unfold is32, response. rewrite L, H32. reflexivity. }
  rewrite T. unfold expected. rewrite (i_pass _ _ _ _ I).
  change (md5 (md5 (password c0 (combine es os)) ++ [58] ++ nonce ++ [58] ++ cn)) with (response md5 (password c0 (combine es os)) nonce cn).
  rewrite beq_refl. unfold handle. cbn [m_ota in_state o_state o_size o_md5 o_cmd m_cfg]. rewrite Z.eqb_refl, beq_refl. cbn [andb].
  eexists. split; reflexivity.
Qed.
End Md5.

(** Someone who does not. *)
Lemma c98_stranger : forall md5 c0 es m os p, run md5 es (boot md5 c0) = (m, os) -> o_calls (m_ota m) = true -> o_state (m_ota m) = Idle ->
  forall nonce n port sum cn guess, length sum = 32%nat -> length cn = 32%nat -> length guess = 32%nat ->
  In Restart (concat (snd (run md5 [Comes p (Invite 0 port 1 sum) nonce; Comes p (Answer cn guess) n; Handles true false []] m))).
Proof.
  intros md5 c0 es m os p R C S nonce n port sum cn guess A B D.
  assert (X : forall l, length l = 32%nat -> is32 l = true) by (intros l E; unfold is32; rewrite E; reflexivity).
  assert (Rs : forall (a b : list out), In Restart b -> In Restart (a ++ b)) by (intros; apply in_or_app; auto).
  cbn [run step]. unfold on_rx at 1. rewrite S, (X sum A). cbn [Z.eqb orb andb]. cbv zeta.
  destruct (o_pass (m_ota m)) as [|x l] eqn:Ps.
  - unfold on_rx. cbn [m_ota o_state]. unfold handle. cbn [m_ota o_state andb]. unfold on_error. cbn [m_ota o_calls]. rewrite C.
    cbn [snd concat app]. left. reflexivity.
  - unfold on_rx. cbn [m_ota o_state o_pass o_nonce m_cfg]. rewrite (X cn B), (X guess D). cbn [andb].
    destruct (beq _ guess).
    + unfold handle. cbn [m_ota in_state o_state andb]. unfold on_error. cbn [m_ota in_state o_calls]. rewrite C. cbn [snd concat app]. right. left. reflexivity.
    + unfold on_error. cbn [m_ota o_calls]. rewrite C. unfold handle, boot, ota_begin. cbn [m_ota o_state].
      cbn [snd concat app]. right. right. left. reflexivity.
Qed.

Lemma is32_iff : forall l, is32 l = true <-> length l = 32%nat.
Proof. intros l. unfold is32. apply Nat.eqb_eq. Qed.
Lemma not32 : forall l, length l <> 32%nat -> is32 l = false.
Proof. intros l H. destruct (is32 l) eqn:E; [|reflexivity]. apply is32_iff in E. contradiction. Qed.
Lemma c98_malformed : forall md5 m p d nonce,
  match d with Invite _ _ _ sum => length sum <> 32%nat | Answer cn r => length cn <> 32%nat \/ length r <> 32%nat | _ => False end ->
  exists m', step md5 (Comes p d nonce) m = (m', []) /\ m_cfg m' = m_cfg m /\ (o_state (m_ota m') <> o_state (m_ota m) -> o_state (m_ota m') = Idle) /\
    (o_state (m_ota m) = Idle -> m' = m).
Proof.
  intros md5 m p d nonce H. cbn [step]. unfold on_rx. destruct d as [cmd port size sum|cn r|]; [| |destruct H].
  - destruct (o_state (m_ota m)) eqn:S.
    + rewrite (not32 _ H), andb_false_r. exists m. rewrite S. repeat split; congruence.
    + eexists. split; [reflexivity|]. cbn [m_cfg m_ota in_state o_state]. repeat split; congruence.
    + exists m. rewrite S. repeat split; congruence.
  - destruct (o_state (m_ota m)) eqn:S.
    + exists m. rewrite S. repeat split; congruence.
    + replace (is32 cn && is32 r) with false by (symmetry; apply andb_false_iff; destruct H as [H|H]; [left|right]; exact (not32 _ H)).
      eexists. split; [reflexivity|]. cbn [m_cfg m_ota in_state o_state]. repeat split; congruence.
    + exists m. rewrite S. repeat split; congruence.
Qed.
