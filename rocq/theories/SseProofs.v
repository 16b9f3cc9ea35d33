(** Proofs about the event streams. *)
From Coq Require Import ZArith List Bool Lia ZifyBool Permutation.
From Verif Require Import Base BaseFacts Sse SseSpec.
Import ListNotations.
Open Scope Z_scope.

Definition inlist (id : nat) (l : list nat) : bool := existsb (Nat.eqb id) l.
Lemma inlist_in : forall id l, inlist id l = true <-> In id l.
Proof.
  intros. unfold inlist. rewrite existsb_exists. split.
  - intros (x & I & E). apply Nat.eqb_eq in E. now subst.
  - intros I. exists id. split; auto. apply Nat.eqb_refl.
Qed.
Lemma inlist_out : forall id l, inlist id l = false <-> ~ In id l.
Proof. intros. rewrite <- inlist_in. destruct (inlist id l); split; congruence. Qed.

(** Effects of one pass over [l]. *)
Definition pass (up : nat -> bool) (data : option (list Z)) (l : list nat) : list sse_effect :=
  flat_map (fun id => if up id then match data with Some d => [SentTo id (event_text d)] | None => [] end else [Closed id]) l.
Definition keep (up : nat -> bool) (l heap : list nat) : list nat := filter (fun x => negb (inlist x l) || up x) heap.
Lemma handle_loop_spec : forall up data l heap, NoDup l -> (forall id, In id l -> In id heap) ->
  handle_loop up data l heap = Some (filter up l, keep up l heap, pass up data l).
Proof.
  intros up data. induction l as [|id l IH]; intros heap N I; cbn [handle_loop filter pass flat_map].
  - f_equal. f_equal. f_equal. unfold keep. cbn [inlist existsb negb orb]. symmetry. clear. induction heap; cbn; congruence.
  - inv N. assert (E : existsb (Nat.eqb id) heap = true) by (apply inlist_in; apply I; left; auto). rewrite E.
    destruct (up id) eqn:U.
    + rewrite IH; auto; [|intros; apply I; right; auto]. f_equal. f_equal; [|destruct data; reflexivity].
      f_equal. unfold keep. apply filter_ext. intros x. unfold inlist. cbn [existsb].
      destruct (Nat.eqb_spec x id); [subst; rewrite U; rewrite !orb_true_r; reflexivity|reflexivity].
    + unfold delete. rewrite E. rewrite IH; auto.
      * f_equal. f_equal. f_equal. unfold keep, remove_id. clear - U. induction heap as [|x heap IH]; auto.
        cbn [filter inlist existsb]. unfold inlist in *. cbn [existsb].
        destruct (Nat.eqb_spec x id); cbn [negb orb filter].
        -- subst. rewrite U. cbn [orb]. apply IH.
        -- destruct (negb (existsb (Nat.eqb x) l) || up x); [f_equal; apply IH|apply IH].
      * intros x X. unfold remove_id. apply filter_In. split; [apply I; right; auto|].
        destruct (Nat.eqb_spec x id); auto. subst. contradiction.
Qed.

Record sse_ok (s : sse) : Prop := {
  so_list : NoDup (sse_list s); so_heap : NoDup (sse_heap s);
  so_same : forall id, In id (sse_list s) <-> In id (sse_heap s);
  so_next : forall id, In id (sse_list s) -> (id < sse_next s)%nat;
  so_two : (length (sse_list s) <= 2)%nat }.
Lemma init_ok : sse_ok sse_init.
Proof. constructor; cbn; try constructor; auto; try tauto; lia. Qed.

Lemma handle_clients_spec : forall up data s, sse_ok s ->
  handle_clients up data s = Some (mk_sse (filter up (sse_list s)) (keep up (sse_list s) (sse_heap s)) (sse_next s), pass up data (sse_list s)).
Proof.
  intros up data s H. unfold handle_clients. destruct (sse_list s) as [|id l] eqn:E.
  - cbn [filter pass flat_map]. f_equal. f_equal. destruct s as [l h n]. cbn in *. subst l. f_equal.
    destruct h as [|x h]; auto. destruct H. cbn in *. destruct (so_same0 x) as [_ K]. destruct K. left; auto.
  - rewrite handle_loop_spec; auto; rewrite <- E; [apply H|]. intros x X. apply H. auto.
Qed.
Lemma filter_le : forall A (f : A -> bool) l, (length (filter f l) <= length l)%nat.
Proof. induction l; cbn; [lia|]. destruct (f a); cbn; lia. Qed.
Lemma clients_ok : forall up s, sse_ok s -> sse_ok (mk_sse (filter up (sse_list s)) (keep up (sse_list s) (sse_heap s)) (sse_next s)).
Proof.
  intros up s H. constructor; cbn [sse_list sse_heap sse_next].
  - apply NoDup_filter, H.
  - apply NoDup_filter, H.
  - intros id. unfold keep. rewrite !filter_In. rewrite <- (so_same s H). split; intros [A B]; split; auto.
    + rewrite B, orb_true_r. reflexivity.
    + apply orb_true_iff in B. destruct B as [B|B]; auto. apply negb_true_iff, inlist_out in B. contradiction.
  - intros id I. apply filter_In in I. apply H, I.
  - pose proof (filter_le _ up (sse_list s)). pose proof (so_two s H). lia.
Qed.
Lemma ask_ok : forall s, sse_ok s -> sse_ok (fst (handle_sse_data s)).
Proof.
  intros s H. unfold handle_sse_data. destruct (Nat.ltb_spec (length (sse_list s)) 2); auto. cbn [fst].
  assert (F : ~ In (sse_next s) (sse_list s)) by (intros I; apply (so_next s H) in I; lia).
  constructor; cbn [sse_list sse_heap sse_next].
  - apply (Permutation_NoDup (Permutation_cons_append (sse_list s) (sse_next s))). constructor; auto. apply H.
  - constructor; [|apply H]. rewrite <- (so_same s H). auto.
  - intros id. rewrite in_app_iff. cbn [In]. rewrite (so_same s H). tauto.
  - intros id I. apply in_app_iff in I. cbn [In] in I. destruct I as [I|[I|[]]]; [|lia]. apply (so_next s H) in I. lia.
  - rewrite app_length. cbn [length]. lia.
Qed.
Lemma step_ok : forall e s, sse_ok s -> exists s' o, sse_step e s = Some (s', o) /\ sse_ok s'.
Proof.
  intros [|up|up d] s H; cbn [sse_step].
  - destruct (handle_sse_data s) as [s' o] eqn:E. exists s', o. split; auto. pose proof (ask_ok s H) as K. rewrite E in K. exact K.
  - rewrite handle_clients_spec by auto. eexists _, _. split; [reflexivity|]. apply clients_ok; auto.
  - rewrite handle_clients_spec by auto. eexists _, _. split; [reflexivity|]. apply clients_ok; auto.
Qed.
Lemma run_ok : forall es s, sse_ok s -> exists s' os, sse_run es s = Some (s', os) /\ sse_ok s'.
Proof.
  induction es as [|e es IH]; intros s H; cbn [sse_run]; [eauto|].
  destruct (step_ok e s H) as (s1 & o & -> & H1). destruct (IH s1 H1) as (s2 & os & -> & H2). eauto.
Qed.
Lemma run_cons : forall e es s s' os, sse_run (e :: es) s = Some (s', os) ->
  exists s1 o os', sse_step e s = Some (s1, o) /\ sse_run es s1 = Some (s', os') /\ os = o :: os'.
Proof.
  intros e es s s' os H. cbn [sse_run] in H. destruct (sse_step e s) as [[s1 o]|]; [|discriminate].
  destruct (sse_run es s1) as [[s2 os2]|] eqn:E; [|discriminate]. inv H. eauto 8.
Qed.
Lemma run_app : forall es1 es2 s s' os, sse_run (es1 ++ es2) s = Some (s', os) ->
  exists s1 os1 os2, sse_run es1 s = Some (s1, os1) /\ sse_run es2 s1 = Some (s', os2) /\ os = os1 ++ os2 /\ length os1 = length es1.
Proof.
  induction es1 as [|e es1 IH]; intros es2 s s' os H; cbn [app] in H.
  - exists s, [], os. cbn. auto.
  - apply run_cons in H. destruct H as (s1 & o & os' & E & H & ->). apply IH in H. destruct H as (s2 & a & b & A & B & -> & L).
    exists s2, (o :: a), b. cbn [sse_run]. rewrite E, A. cbn. auto.
Qed.

(** ** C36 *)
Lemma open_app : forall a b n, open_streams n (a ++ b) = open_streams (open_streams n a) b.
Proof. induction a as [|[]]; intros; cbn [app open_streams]; auto. Qed.
Lemma open_pass : forall up data l n, open_streams n (pass up data l) = n - Z.of_nat (length l) + Z.of_nat (length (filter up l)).
Proof.
  intros up data. induction l as [|id l IH]; intros n; cbn [pass flat_map filter length]; [cbn; lia|].
  rewrite open_app. unfold pass in IH. rewrite IH. destruct (up id); [destruct data|]; cbn [open_streams length]; lia.
Qed.
Lemma step_open : forall e s s' o, sse_ok s -> sse_step e s = Some (s', o) ->
  open_streams (Z.of_nat (length (sse_list s))) o = Z.of_nat (length (sse_list s')).
Proof.
  intros [|up|up d] s s' o H E; cbn [sse_step] in E.
  - unfold handle_sse_data in E. destruct (Nat.ltb _ 2); inv E; cbn [open_streams]; auto. cbn [sse_list]. rewrite app_length. cbn. lia.
  - rewrite handle_clients_spec in E by auto. inv E. rewrite open_pass. cbn [sse_list]. lia.
  - rewrite handle_clients_spec in E by auto. inv E. rewrite open_pass. cbn [sse_list]. lia.
Qed.
Lemma run_open : forall es s s' os, sse_ok s -> sse_run es s = Some (s', os) ->
  open_streams (Z.of_nat (length (sse_list s))) (concat os) = Z.of_nat (length (sse_list s')).
Proof.
  induction es as [|e es IH]; intros s s' os H R.
  - inv R. reflexivity.
  - apply run_cons in R. destruct R as (s1 & o & os' & E & R & ->). cbn [concat]. rewrite open_app.
    rewrite (step_open _ _ _ _ H E). destruct (step_ok e s H) as (s1' & o' & E' & H1). rewrite E in E'. inv E'. auto.
Qed.
Lemma same_length : forall s, sse_ok s -> length (sse_heap s) = length (sse_list s).
Proof. intros s H. apply Permutation_length, NoDup_Permutation; try apply H. intros. now rewrite (so_same s H). Qed.
Lemma c36 : forall es, exists s os, sse_run es sse_init = Some (s, os) /\
  0 <= open_streams 0 (concat os) <= 2 /\
  Z.of_nat (length (sse_heap s)) = open_streams 0 (concat os) /\
  sse_step Ask s = Some (handle_sse_data s) /\
  (open_streams 0 (concat os) < 2 -> exists id, snd (handle_sse_data s) = [Opened id]) /\
  (open_streams 0 (concat os) = 2 -> snd (handle_sse_data s) = [Refused]).
Proof.
  intros es. destruct (run_ok es _ init_ok) as (s & os & R & H). exists s, os. split; auto.
  pose proof (run_open _ _ _ _ init_ok R) as O. cbn [sse_init sse_list length] in O. change (Z.of_nat 0) with 0 in O. rewrite O.
  pose proof (so_two s H). pose proof (same_length s H). split; [lia|]. split; [lia|]. split; [reflexivity|].
  unfold handle_sse_data. destruct (Nat.ltb_spec (length (sse_list s)) 2); split; intros; cbn [snd]; eauto; lia.
Qed.

(** ** C37 *)
Lemma texts_app : forall id a b, texts_to id (a ++ b) = texts_to id a ++ texts_to id b.
Proof. intros. apply flat_map_app. Qed.
Lemma closings_app : forall id a b, closings id (a ++ b) = (closings id a + closings id b)%nat.
Proof. intros. unfold closings. now rewrite filter_app, app_length. Qed.
Lemma openings_app : forall id a b, openings id (a ++ b) = (openings id a + openings id b)%nat.
Proof. intros. unfold openings. now rewrite filter_app, app_length. Qed.
Lemma pass_cons : forall up data x l, pass up data (x :: l) =
  (if up x then match data with Some d => [SentTo x (event_text d)] | None => [] end else [Closed x]) ++ pass up data l.
Proof. reflexivity. Qed.
Lemma pass_out : forall up data id l, ~ In id l -> texts_to id (pass up data l) = [] /\ closings id (pass up data l) = 0%nat.
Proof.
  intros up data id. induction l as [|x l IH]; intros N; auto. rewrite pass_cons.
  assert (X : Nat.eqb x id = false) by (apply Nat.eqb_neq; intros ->; apply N; left; auto).
  destruct (IH ltac:(intros I; apply N; right; auto)) as [A B].
  rewrite texts_app, closings_app, A, B. destruct (up x); [destruct data|]; cbn [texts_to flat_map closings filter app length]; rewrite ?X; auto.
Qed.
Lemma pass_in : forall up data id l, NoDup l -> In id l ->
  texts_to id (pass up data l) = (if up id then match data with Some d => [event_text d] | None => [] end else []) /\
  closings id (pass up data l) = (if up id then 0 else 1)%nat.
Proof.
  intros up data id. induction l as [|x l IH]; intros N I; [destruct I|]. inv N. rewrite pass_cons, texts_app, closings_app.
  destruct (Nat.eqb_spec x id) as [->|X].
  - destruct (pass_out up data id l H1) as [A B]. rewrite A, B.
    destruct (up id); [destruct data|]; cbn [texts_to flat_map closings filter app length]; rewrite ?Nat.eqb_refl; auto.
  - destruct I as [I|I]; [contradiction|]. destruct (IH H2 I) as [A B]. rewrite A, B. apply Nat.eqb_neq in X.
    destruct (up x); [destruct data|]; cbn [texts_to flat_map closings filter app length]; rewrite ?X; auto.
Qed.
Lemma pass_openings : forall up data id l, openings id (pass up data l) = 0%nat.
Proof.
  intros up data id. induction l as [|x l IH]; auto. rewrite pass_cons, openings_app, IH. destruct (up x); [destruct data|]; reflexivity.
Qed.
Lemma next_grows : forall e s s' o, sse_ok s -> sse_step e s = Some (s', o) -> (sse_next s <= sse_next s')%nat.
Proof.
  intros [|up|up d] s s' o H E; cbn [sse_step] in E.
  - unfold handle_sse_data in E. destruct (Nat.ltb _ 2); inv E; cbn; lia.
  - rewrite handle_clients_spec in E by auto. inv E. cbn. lia.
  - rewrite handle_clients_spec in E by auto. inv E. cbn. lia.
Qed.
(** A stream that is no longer in the list. *)
Lemma gone : forall es id s s' os, sse_ok s -> ~ In id (sse_list s) -> (id < sse_next s)%nat -> sse_run es s = Some (s', os) ->
  texts_to id (concat os) = [] /\ closings id (concat os) = 0%nat /\ openings id (concat os) = 0%nat.
Proof.
  induction es as [|e es IH]; intros id s s' os H N L R; [inv R; auto|].
  apply run_cons in R. destruct R as (s1 & o & os' & E & R & ->).
  destruct (step_ok e s H) as (s1' & o' & E' & H1). rewrite E in E'. inv E'.
  pose proof (next_grows _ _ _ _ H E) as G. cbn [concat]. rewrite texts_app, closings_app, openings_app.
  assert (K : ~ In id (sse_list s1') /\ texts_to id o' = [] /\ closings id o' = 0%nat /\ openings id o' = 0%nat).
  { destruct e as [|up|up d]; cbn [sse_step] in E.
    - unfold handle_sse_data in E. destruct (Nat.ltb _ 2); inv E; auto. cbn [sse_list]. rewrite in_app_iff. cbn [In].
      split; [intros [X|[X|[]]]; [contradiction|lia]|]. cbn [texts_to flat_map closings filter openings length].
      replace (Nat.eqb (sse_next s) id) with false by (symmetry; apply Nat.eqb_neq; lia). auto.
    - rewrite handle_clients_spec in E by auto. inv E. cbn [sse_list]. destruct (pass_out up None id _ N) as [A B]. rewrite pass_openings.
      split; auto. intros X. apply filter_In in X. tauto.
    - rewrite handle_clients_spec in E by auto. inv E. cbn [sse_list]. destruct (pass_out up (Some d) id _ N) as [A B]. rewrite pass_openings.
      split; auto. intros X. apply filter_In in X. tauto. }
  destruct K as (K1 & K2 & K3 & K4). destruct (IH id s1' s' os' H1 K1 ltac:(lia) R) as (A & B & C). rewrite K2, K3, K4, A, B, C. auto.
Qed.
Lemma alive : forall es id s s' os, sse_ok s -> In id (sse_list s) -> sse_run es s = Some (s', os) ->
  texts_to id (concat os) = map event_text (deliveries id es) /\
  closings id (concat os) = (if lost id es then 1 else 0)%nat /\ openings id (concat os) = 0%nat.
Proof.
  induction es as [|e es IH]; intros id s s' os H N R; [inv R; auto|].
  apply run_cons in R. destruct R as (s1 & o & os' & E & R & ->).
  destruct (step_ok e s H) as (s1' & o' & E' & H1). rewrite E in E'. inv E'.
  pose proof (so_next s H id N) as L. pose proof (next_grows _ _ _ _ H E) as G.
  cbn [concat]. rewrite texts_app, closings_app, openings_app.
  destruct e as [|up|up d]; cbn [sse_step] in E; cbn [deliveries lost].
  - assert (K : In id (sse_list s1') /\ texts_to id o' = [] /\ closings id o' = 0%nat /\ openings id o' = 0%nat).
    { unfold handle_sse_data in E. destruct (Nat.ltb _ 2); inv E; auto. cbn [sse_list]. rewrite in_app_iff. split; auto.
      cbn [texts_to flat_map closings filter openings length].
      replace (Nat.eqb (sse_next s) id) with false by (symmetry; apply Nat.eqb_neq; lia). auto. }
    destruct K as (K1 & K2 & K3 & K4). destruct (IH id s1' s' os' H1 K1 R) as (A & B & C). rewrite K2, K3, K4, A, B, C. auto.
  - rewrite handle_clients_spec in E by auto. inv E. destruct (pass_in up None id (sse_list s) (so_list s H) N) as [A B].
    rewrite A, B, pass_openings. destruct (up id) eqn:U; cbn [negb orb].
    + destruct (IH id _ s' os' H1 ltac:(apply filter_In; auto) R) as (A' & B' & C'). rewrite A', B', C'. auto.
    + destruct (gone es id _ s' os' H1 ltac:(cbn [sse_list]; intros X; apply filter_In in X; destruct X; congruence) ltac:(cbn; lia) R) as (A' & B' & C').
      rewrite A', B', C'. auto.
  - rewrite handle_clients_spec in E by auto. inv E. destruct (pass_in up (Some d) id (sse_list s) (so_list s H) N) as [A B].
    rewrite A, B, pass_openings. destruct (up id) eqn:U; cbn [negb orb].
    + destruct (IH id _ s' os' H1 ltac:(apply filter_In; auto) R) as (A' & B' & C'). rewrite A', B', C'. auto.
    + destruct (gone es id _ s' os' H1 ltac:(cbn [sse_list]; intros X; apply filter_In in X; destruct X; congruence) ltac:(cbn; lia) R) as (A' & B' & C').
      rewrite A', B', C'. auto.
Qed.
(** A stream that does not exist yet. *)
Lemma not_yet : forall es id s s' os, sse_ok s -> (sse_next s <= id)%nat -> sse_run es s = Some (s', os) -> (sse_next s' <= id)%nat ->
  texts_to id (concat os) = [] /\ closings id (concat os) = 0%nat /\ openings id (concat os) = 0%nat.
Proof.
  induction es as [|e es IH]; intros id s s' os H N R F; [inv R; auto|].
  apply run_cons in R. destruct R as (s1 & o & os' & E & R & ->).
  destruct (step_ok e s H) as (s1' & o' & E' & H1). rewrite E in E'. inv E'.
  assert (L : forall es s s' os, sse_ok s -> sse_run es s = Some (s', os) -> (sse_next s <= sse_next s')%nat).
  { clear. induction es as [|e es IH]; intros s s' os H R; [inv R; auto|]. apply run_cons in R.
    destruct R as (s1 & o & os' & E & R & ->). destruct (step_ok e s H) as (s1' & o' & E' & H1). rewrite E in E'. inv E'.
    pose proof (next_grows _ _ _ _ H E). pose proof (IH _ _ _ H1 R). lia. }
  pose proof (L _ _ _ _ H1 R) as G. cbn [concat]. rewrite texts_app, closings_app, openings_app.
  destruct (IH id s1' s' os' H1 ltac:(lia) R F) as (A & B & C). rewrite A, B, C.
  assert (NI : ~ In id (sse_list s)) by (intros I; apply (so_next s H) in I; lia).
  assert (K : texts_to id o' = [] /\ closings id o' = 0%nat /\ openings id o' = 0%nat).
  { destruct e as [|up|up d]; cbn [sse_step] in E.
    - unfold handle_sse_data in E. destruct (Nat.ltb _ 2); inv E; auto. cbn [sse_next] in *.
      cbn [texts_to flat_map closings filter openings length].
      replace (Nat.eqb (sse_next s) id) with false by (symmetry; apply Nat.eqb_neq; lia). auto.
    - rewrite handle_clients_spec in E by auto. inv E. destruct (pass_out up None id _ NI) as [A' B']. rewrite pass_openings. auto.
    - rewrite handle_clients_spec in E by auto. inv E. destruct (pass_out up (Some d) id _ NI) as [A' B']. rewrite pass_openings. auto. }
  destruct K as (-> & -> & ->). auto.
Qed.
Lemma c37 : forall es1 es2 s os id, sse_run (es1 ++ Ask :: es2) sse_init = Some (s, os) ->
  nth_error os (length es1) = Some [Opened id] ->
  texts_to id (concat os) = map event_text (deliveries id es2) /\
  closings id (concat os) = (if lost id es2 then 1 else 0)%nat /\ openings id (concat os) = 1%nat.
Proof.
  intros es1 es2 s os id R N. apply run_app in R. destruct R as (s1 & os1 & os2 & R1 & R2 & -> & L).
  apply run_cons in R2. destruct R2 as (s2 & o & os3 & E & R2 & ->).
  rewrite nth_error_app2 in N by lia. rewrite L, Nat.sub_diag in N. cbn [nth_error] in N. inv N.
  destruct (run_ok es1 _ init_ok) as (s1' & os1' & R1' & H1). rewrite R1 in R1'. inv R1'.
  destruct (step_ok Ask s1' H1) as (s2' & o' & E' & H2). rewrite E in E'. inv E'.
  cbn [sse_step] in E. unfold handle_sse_data in E. destruct (Nat.ltb _ 2); [|discriminate E]. injection E as E1 E2. subst s2' id.
  destruct (not_yet es1 (sse_next s1') _ _ _ init_ok ltac:(cbn; lia) R1 ltac:(lia)) as (A & B & C).
  destruct (alive es2 (sse_next s1') _ _ _ H2 ltac:(cbn [sse_list]; apply in_app_iff; right; left; auto) R2) as (A' & B' & C').
  rewrite concat_app. cbn [concat]. rewrite !texts_app, !closings_app, !openings_app, A, B, C, A', B', C'.
  cbn [texts_to flat_map closings filter openings length app]. rewrite Nat.eqb_refl. auto.
Qed.
(** Nothing is sent on a stream that was never opened. *)
Lemma opened_once : forall es s s' os id, sse_ok s -> sse_run es s = Some (s', os) -> (sse_next s <= id < sse_next s')%nat ->
  (1 <= openings id (concat os))%nat.
Proof.
  induction es as [|e es IH]; intros s s' os id H R L; [inv R; lia|].
  apply run_cons in R. destruct R as (s1 & o & os' & E & R & ->).
  destruct (step_ok e s H) as (s1' & o' & E' & H1). rewrite E in E'. inv E'. cbn [concat]. rewrite openings_app.
  destruct (le_lt_dec (sse_next s1') id) as [K|K].
  - pose proof (IH _ _ _ id H1 R ltac:(lia)). lia.
  - destruct e as [|up|up d]; cbn [sse_step] in E.
    + unfold handle_sse_data in E. destruct (Nat.ltb _ 2); inv E; [|cbn in *; lia]. cbn [sse_next] in K.
      assert (id = sse_next s) by lia. subst id. unfold openings at 1. cbn [filter]. rewrite Nat.eqb_refl. cbn. lia.
    + rewrite handle_clients_spec in E by auto. inv E. cbn in K. lia.
    + rewrite handle_clients_spec in E by auto. inv E. cbn in K. lia.
Qed.
Lemma c37_none : forall es s os id, sse_run es sse_init = Some (s, os) -> openings id (concat os) = 0%nat ->
  texts_to id (concat os) = [] /\ closings id (concat os) = 0%nat.
Proof.
  intros es s os id R O. destruct (le_lt_dec (sse_next s) id) as [L|L].
  - destruct (not_yet es id _ _ _ init_ok ltac:(cbn; lia) R L) as (A & B & _). auto.
  - pose proof (opened_once es _ _ _ id init_ok R ltac:(cbn [sse_init sse_next]; lia)). lia.
Qed.

(** ** C38: what the browser receives *)
Definition one_line (d : list Z) : Prop := Forall (fun c => c <> 10 /\ c <> 13) d.
Lemma lines_plain : forall d cur r, one_line d -> lines cur (d ++ r) = lines (rev d ++ cur) r.
Proof.
  induction d as [|c d IH]; intros cur r H; [reflexivity|]. inv H. destruct H2 as [A B]. cbn [app].
  assert (E : lines cur (c :: d ++ r) = lines (c :: cur) (d ++ r)).
  { cbn [lines]. apply Z.eqb_neq in A. apply Z.eqb_neq in B. rewrite A, B. cbn [orb].
    destruct c as [|p|p]; try reflexivity. destruct p as [p|p|]; try reflexivity. destruct p as [p|p|]; try reflexivity.
    destruct p as [p|p|]; try reflexivity. destruct p as [p|p|]; try reflexivity. discriminate B. }
  rewrite E, IH by auto. cbn [rev]. rewrite <- app_assoc. reflexivity.
Qed.
Lemma lines_event : forall d r, one_line d -> lines [] (event_text d ++ r) = (str "data: " ++ d) :: [] :: lines [] r.
Proof.
  intros d r H. unfold event_text. replace ((str "data: " ++ d ++ [13; 10; 13; 10]) ++ r) with ((str "data: " ++ d) ++ 13 :: 10 :: 13 :: 10 :: r)
    by (rewrite <- !app_assoc; reflexivity).
  rewrite lines_plain.
  - rewrite app_nil_r. cbn [lines]. rewrite rev_involutive. reflexivity.
  - apply Forall_app. split; auto. repeat constructor; discriminate.
Qed.
Lemma data_line : forall d, data_field (str "data: " ++ d) = Some d.
Proof. reflexivity. Qed.
Lemma events_stream : forall ds, Forall one_line ds -> events_of (concat (map event_text ds)) = ds.
Proof.
  induction ds as [|d ds IH]; intros H; [reflexivity|]. inv H. unfold events_of in *. cbn [map concat]. rewrite lines_event by auto.
  cbn [dispatch]. change (str "data: " ++ d) with (100 :: 97 :: 116 :: 97 :: 58 :: 32 :: d).
  change (data_field (100 :: 97 :: 116 :: 97 :: 58 :: 32 :: d)) with (Some d). cbn [dispatch]. f_equal. auto.
Qed.
Lemma c38_stream : forall es1 es2 s os id, sse_run (es1 ++ Ask :: es2) sse_init = Some (s, os) ->
  nth_error os (length es1) = Some [Opened id] ->
  Forall (fun e => match e with Broadcast _ d => one_line d | _ => True end) es2 ->
  events_of (concat (texts_to id (concat os))) = deliveries id es2.
Proof.
  intros es1 es2 s os id R N F. destruct (c37 es1 es2 s os id R N) as (-> & _). apply events_stream.
  clear - F. induction es2 as [|e es IH]; [constructor|]. inv F. specialize (IH H2). destruct e as [|up|up d]; cbn [deliveries]; auto.
  - destruct (up id); auto.
  - destruct (up id); auto.
Qed.
