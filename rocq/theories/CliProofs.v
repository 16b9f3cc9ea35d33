(** Proofs about the serial command line. *)
From Coq Require Import ZArith List Bool Lia ZifyBool ZifyNat.
From Verif Require Import Base BaseFacts Config ConfigSpec ConfigProofs ConfigMain ConfigHist Teleinfo Cli CliSpec.
Import ListNotations.
Open Scope Z_scope.

Lemma opens_eq : forall c, ((c =? 9) || (c =? 27) || (c =? 96)) = opens c.
Proof. reflexivity. Qed.

Section Session.
Context {T : Type}.
Implicit Type es : list (T * Z).

(** What follows an opened command in which [w] has been typed. *)
Definition goes_on (w : list Z) (es data : list (T * Z)) (cmds : list (list Z)) : Prop :=
  (unfinished (w ++ typed es) /\ data = [] /\ cmds = []) \/
  exists body t last r cs, es = body ++ (t, last) :: r /\ unfinished (w ++ typed body) /\ opens last = false /\
    (closes last = true \/ length ((w ++ typed body) ++ [last]) = 128%nat) /\
    session r data cs /\ cmds = ((w ++ typed body) ++ [last]) :: cs.

Lemma typed_open : forall (t : T) c es, opens c = true -> typed ((t, c) :: es) = typed es.
Proof. intros. unfold typed. cbn [map snd filter]. rewrite H. reflexivity. Qed.
Lemma typed_other : forall (t : T) c es, opens c = false -> typed ((t, c) :: es) = c :: typed es.
Proof. intros. unfold typed. cbn [map snd filter]. rewrite H. reflexivity. Qed.
Lemma unfinished_app : forall a b, unfinished (a ++ b) -> unfinished a.
Proof.
  intros a b (L & F). rewrite app_length in L. rewrite forallb_app in F. apply andb_true_iff in F. destruct F.
  split; [lia|auto].
Qed.
Lemma unfinished_snoc : forall w c, unfinished w -> closes c = false -> (length (w ++ [c]) < 128)%nat -> unfinished (w ++ [c]).
Proof. intros w c (L & F) C H. split; [auto|]. rewrite forallb_app, F. cbn [forallb]. rewrite C. reflexivity. Qed.

Lemma listen_spec : forall es, Forall is_byte (map snd es) ->
  (forall data cmds s, cli_listen es cli_init = (s, data, cmds) -> session es data cmds) /\
  (forall w data cmds s, unfinished w -> cli_listen es (mk_cli true w) = (s, data, cmds) -> goes_on w es data cmds).
Proof.
  induction es as [|(t, c) es IH]; intros B.
  - split; intros.
    + injection H as _ <- <-. constructor.
    + injection H0 as _ <- <-. left. unfold typed. cbn [map filter]. rewrite app_nil_r. auto.
  - inversion B as [|x l Hc Hes]; subst. cbn [snd] in Hc. destruct (IH Hes) as (I1 & I2). split.
    + intros data cmds s. cbn [cli_listen]. unfold cli_loop_read. rewrite opens_eq. cbn [cl_mode cl_input cli_init andb].
      destruct (opens c) eqn:O.
      * destruct (cli_listen es (mk_cli true [])) as ((s2, out), cs) eqn:L. cbn [Z.eqb negb]. intros E.
        injection E as _ <- <-.
        destruct (I2 [] _ _ _ (conj (Nat.lt_0_succ 127) eq_refl) L) as [(U & -> & ->)|(body & t' & last & r & cs' & -> & U & Ol & D & S & ->)].
        { apply open_command; auto. }
        { cbn [app] in *. apply command; auto. }
      * change (mk_cli false []) with cli_init.
        destruct (cli_listen es cli_init) as ((s2, out), cs) eqn:L.
        replace (c =? -1) with false by (unfold is_byte in Hc; lia). cbn [negb]. intros E. injection E as _ <- <-.
        apply meter_byte; eauto.
    + intros w data cmds s U. cbn [cli_listen]. unfold cli_loop_read. rewrite opens_eq. cbn [cl_mode cl_input andb].
      destruct (opens c) eqn:O.
      * destruct (cli_listen es (mk_cli true w)) as ((s2, out), cs) eqn:L. cbn [Z.eqb negb]. intros E.
        injection E as _ <- <-.
        destruct (I2 w _ _ _ U L) as [(V & -> & ->)|(body & t' & last & r & cs' & -> & V & Ol & D & S & ->)].
        { left. rewrite typed_open by auto. auto. }
        { right. exists ((t, c) :: body), t', last, r, cs'. rewrite typed_open by auto. auto 8. }
      * replace ((0 <=? c) && (c <=? 255)) with true by (unfold is_byte in Hc; lia).
        fold (closes c). destruct (closes c || (128 <=? length (w ++ [c]))%nat) eqn:K.
        { change (mk_cli false []) with cli_init.
          destruct (cli_listen es cli_init) as ((s2, out), cs) eqn:L. cbn [Z.eqb negb]. intros E. injection E as _ <- <-.
          right. exists [], t, c, es, cs. unfold typed at 1 2 3. cbn [map filter app]. rewrite app_nil_r.
          split; [reflexivity|]. split; [auto|]. split; [auto|]. split; [|split; [eauto|reflexivity]].
          apply orb_true_iff in K. destruct K as [K|K]; [auto|right].
          destruct U as (U & _). rewrite app_length in *. cbn [length] in *. apply Nat.leb_le in K. lia. }
        { apply orb_false_iff in K. destruct K as (K1 & K2). apply Nat.leb_gt in K2.
          destruct (cli_listen es (mk_cli true (w ++ [c]))) as ((s2, out), cs) eqn:L. cbn [Z.eqb negb]. intros E.
          injection E as _ <- <-.
          destruct (I2 (w ++ [c]) _ _ _ (unfinished_snoc _ _ U K1 K2) L)
            as [(V & -> & ->)|(body & t' & last & r & cs' & -> & V & Ol & D & S & ->)].
          - left. rewrite typed_other by auto. rewrite <- app_assoc in V. auto.
          - right. exists ((t, c) :: body), t', last, r, cs'. rewrite typed_other by auto.
            rewrite <- !app_assoc in *. cbn [app] in *. auto 8. }
Qed.

(** The division of the bytes is unique. *)
Lemma listen_open : forall body w (t : T) c r, opens c = true -> cli_listen ((t, c) :: r) (mk_cli body w) = cli_listen r (mk_cli true w).
Proof.
  intros. cbn [cli_listen]. unfold cli_loop_read. rewrite opens_eq, H. cbn [cl_input].
  destruct (cli_listen r (mk_cli true w)) as ((s2, out), cs). reflexivity.
Qed.
Lemma listen_body : forall (body : list (T * Z)) w r, Forall is_byte (map snd body) -> unfinished (w ++ typed body) ->
  cli_listen (body ++ r) (mk_cli true w) = cli_listen r (mk_cli true (w ++ typed body)).
Proof.
  induction body as [|(t, c) body IH]; intros w r B U.
  - unfold typed. cbn [map filter app]. rewrite app_nil_r. reflexivity.
  - inversion B as [|x l Hc Hes]; subst. cbn [snd] in Hc. destruct (opens c) eqn:O.
    + rewrite typed_open in * by auto. change (((t, c) :: body) ++ r) with ((t, c) :: body ++ r).
      rewrite listen_open by auto. auto.
    + rewrite typed_other in * by auto. cbn [app cli_listen]. unfold cli_loop_read. rewrite opens_eq, O. cbn [cl_mode cl_input andb].
      replace ((0 <=? c) && (c <=? 255)) with true by (unfold is_byte in Hc; lia). fold (closes c).
      assert (U' : unfinished ((w ++ [c]) ++ typed body)) by (rewrite <- app_assoc; exact U).
      destruct (unfinished_app _ _ U') as (L & F). rewrite forallb_app in F. cbn [forallb] in F.
      replace (closes c) with false by (destruct (closes c); [rewrite !andb_false_r in F; discriminate F|reflexivity]).
      replace ((128 <=? length (w ++ [c]))%nat) with false by lia. cbn [orb].
      rewrite IH by auto. rewrite <- app_assoc. cbn [app].
      destruct (cli_listen r (mk_cli true (w ++ c :: typed body))) as ((s2, out), cs). reflexivity.
Qed.
Lemma session_listen : forall es data cmds, session es data cmds -> Forall is_byte (map snd es) ->
  exists s, cli_listen es cli_init = (s, data, cmds).
Proof.
  intros es data cmds S. induction S; intros B.
  - exists cli_init. reflexivity.
  - inversion B as [|x l Hc Hes]; subst. cbn [snd] in Hc. destruct (IHS Hes) as (s & E). exists s.
    cbn [cli_listen]. unfold cli_loop_read. rewrite opens_eq, H. cbn [cl_mode cl_input cli_init andb].
    change (mk_cli false []) with cli_init. rewrite E. replace (c =? -1) with false by (unfold is_byte in Hc; lia). reflexivity.
  - cbn [map snd] in B. rewrite map_app in B. inversion B as [|x l Hc Hes]; subst. apply Forall_app in Hes. destruct Hes as (B1 & B2).
    cbn [map snd] in B2. inversion B2 as [|x' l' Hl B3]; subst. destruct (IHS B3) as (s & E). exists s.
    unfold cli_init. rewrite listen_open by auto. rewrite listen_body by auto. cbn [app cli_listen].
    unfold cli_loop_read. rewrite opens_eq, H1. cbn [cl_mode cl_input andb].
    replace ((0 <=? last) && (last <=? 255)) with true by (unfold is_byte in Hl; lia). fold (closes last).
    replace (closes last || (128 <=? length (typed body ++ [last]))%nat) with true by (destruct H2; [rewrite H2; reflexivity|rewrite H2, orb_true_r; reflexivity]).
    change (mk_cli false []) with cli_init. rewrite E. reflexivity.
  - cbn [map snd] in B. inversion B as [|x l Hc Hes]; subst. exists (mk_cli true (typed body)).
    unfold cli_init. rewrite listen_open by auto. rewrite <- (app_nil_r body). rewrite listen_body by (rewrite ?app_nil_r; auto).
    cbn [app cli_listen]. rewrite app_nil_r. reflexivity.
Qed.

Lemma c49 : forall es, Forall is_byte (map snd es) -> exists s data cmds,
  cli_listen es cli_init = (s, data, cmds) /\ session es data cmds /\
  forall data' cmds', session es data' cmds' -> data' = data /\ cmds' = cmds.
Proof.
  intros es B. destruct (cli_listen es cli_init) as ((s, data), cmds) eqn:E. exists s, data, cmds.
  split; [reflexivity|]. split; [exact (proj1 (listen_spec es B) _ _ _ E)|].
  intros data' cmds' S. destruct (session_listen _ _ _ S B) as (s' & E'). rewrite E in E'. injection E' as _ -> ->. auto.
Qed.
Lemma session_short : forall es data cmds, session es data cmds -> Forall (fun l => (1 <= length l <= 128)%nat) cmds.
Proof.
  intros es data cmds S. induction S; auto. constructor; auto. destruct H0 as (L & _). rewrite app_length. cbn [length]. lia.
Qed.
Lemma session_plain : forall es, forallb (fun c => negb (opens c)) (map snd es) = true -> session es es [].
Proof.
  induction es as [|(t, c) es IH]; intros H; [constructor|]. cbn [map snd forallb] in H.
  apply andb_true_iff in H. destruct H as (H1 & H2). apply meter_byte; auto. destruct (opens c); [discriminate H1|reflexivity].
Qed.
Lemma session_app_plain : forall es data cmds, session es data cmds -> forall before,
  forallb (fun c => negb (opens c)) (map snd before) = true -> session (before ++ es) (before ++ data) cmds.
Proof.
  intros es data cmds S. induction before as [|(t, c) b IH]; intros H; [exact S|]. cbn [map snd forallb] in H.
  apply andb_true_iff in H. destruct H as (H1 & H2). cbn [app]. apply meter_byte; auto.
  destruct (opens c); [discriminate H1|reflexivity].
Qed.

Lemma listen_short : forall es s data cmds, Forall is_byte (map snd es) ->
  cli_listen es cli_init = (s, data, cmds) -> Forall (fun l => (1 <= length l <= 128)%nat) cmds.
Proof. intros es s data cmds B E. exact (session_short _ _ _ (proj1 (listen_spec es B) _ _ _ E)). Qed.
Lemma not_opens : forall l, (forall c, In c l -> c <> 9 /\ c <> 27 /\ c <> 96) -> forallb (fun c => negb (opens c)) l = true.
Proof. intros l H. apply forallb_forall. intros c Hc. specialize (H c Hc). unfold opens. lia. Qed.
Lemma listen_plain : forall es, Forall is_byte (map snd es) ->
  (forall c, In c (map snd es) -> c <> 9 /\ c <> 27 /\ c <> 96) ->
  exists s, cli_listen es cli_init = (s, es, []).
Proof. intros es B H. apply session_listen; [|exact B]. apply session_plain, not_opens, H. Qed.
Lemma typed_id : forall es, (forall c, In c (map snd es) -> opens c = false) -> typed es = map snd es.
Proof.
  induction es as [|(t, c) es IH]; intros H; [reflexivity|]. rewrite typed_other by (apply H; left; reflexivity).
  cbn [map snd]. f_equal. apply IH. intros x Hx. apply H. right. exact Hx.
Qed.
Lemma listen_command : forall before (t : T) o body t' last after,
  Forall is_byte (map snd (before ++ (t, o) :: body ++ (t', last) :: after)) ->
  (forall c, In c (map snd (before ++ after)) -> c <> 9 /\ c <> 27 /\ c <> 96) ->
  (o = 9 \/ o = 27 \/ o = 96) -> (last = 10 \/ last = 13) -> (length body < 127)%nat ->
  (forall c, In c (map snd body) -> c <> 10 /\ c <> 13 /\ c <> 9 /\ c <> 27 /\ c <> 96) ->
  exists s, cli_listen (before ++ (t, o) :: body ++ (t', last) :: after) cli_init =
    (s, before ++ after, [map snd body ++ [last]]).
Proof.
  intros before t o body t' last after B N O L Lb Hb. apply session_listen; [|exact B].
  assert (Ty : typed body = map snd body).
  { apply typed_id. intros c Hc. specialize (Hb c Hc). unfold opens. lia. }
  apply session_app_plain.
  - rewrite <- Ty. apply command.
    + unfold opens. lia.
    + rewrite Ty. split; [rewrite map_length; lia|]. apply forallb_forall. intros c Hc. specialize (Hb c Hc). unfold closes. lia.
    + unfold opens. lia.
    + left. unfold closes. lia.
    + apply session_plain, not_opens. intros c Hc. apply N. rewrite map_app, in_app_iff. auto.
  - apply not_opens. intros c Hc. apply N. rewrite map_app, in_app_iff. auto.
Qed.

End Session.

Lemma listen_decodes : forall es sgn d, Forall is_byte (map snd es) ->
  (forall c, In c (map snd es) -> c <> 9 /\ c <> 27 /\ c <> 96) ->
  exists s data cmds, cli_listen es cli_init = (s, data, cmds) /\ run sgn data d = run sgn es d /\ cmds = [].
Proof. intros es sgn d B H. destruct (listen_plain es B H) as (s & E). exists s, es, []. auto. Qed.
