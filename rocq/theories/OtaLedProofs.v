(** Proofs for C115. *)
From Coq Require Import ZArith List Bool Lia.
From Verif Require Import Base BaseFacts Config Ota OtaSpec OtaLed OtaLedSpec.
Import ListNotations.
Open Scope Z_scope.

Lemma apart_app : forall a b, apart (a ++ b) = apart a ++ apart b.
Proof. intros. apply flat_map_app. Qed.
Lemma lights_app : forall a b, lights (a ++ b) = lights a ++ lights b.
Proof. intros. apply flat_map_app. Qed.
Lemma apart_does : forall o, apart (map Does o) = o.
Proof. induction o as [|x o IH]; [reflexivity|]. cbn. unfold apart in IH. rewrite IH. reflexivity. Qed.
Lemma lights_does : forall o, lights (map Does o) = [].
Proof. induction o as [|x o IH]; [reflexivity|exact IH]. Qed.

Lemma lights_led : forall b o, lights (Led b :: o) = b :: lights o.
Proof. reflexivity. Qed.
Lemma apart_led : forall b o, apart (Led b :: o) = apart o.
Proof. reflexivity. Qed.

Lemma progress_apart : forall ps calls lit, apart (snd (progress calls lit ps)) = [].
Proof.
  induction ps as [|[|x p] ps IH]; intros calls lit; [reflexivity|apply IH|]. cbn [progress]. destruct calls; [|apply IH].
  specialize (IH true (negb lit)). destruct (progress true (negb lit) ps) as (l, o). exact IH.
Qed.
Lemma progress_lights : forall ps lit, lights (snd (progress true lit ps)) = blinks (received ps) (negb lit).
Proof.
  induction ps as [|[|x p] ps IH]; intros lit; [reflexivity|exact (IH lit)|]. cbn [progress]. specialize (IH (negb lit)).
  destruct (progress true (negb lit) ps) as (l, o). cbn [snd] in *. unfold received in *. cbn [filter length Nat.eqb negb]. cbn [blinks]. rewrite <- IH. reflexivity.
Qed.
Lemma progress_none : forall ps lit, progress false lit ps = (lit, []).
Proof. induction ps as [|[|x p] ps IH]; intros lit; [reflexivity|apply IH|]. cbn [progress]. apply IH. Qed.

Section Md5.
Variable md5 : list Z -> list Z.

(** ** The same protocol *)
Lemma step_same : forall e ps m lit, cut_in (e, ps) -> let '(m', l', o) := led_step md5 e ps m lit in step md5 e m = (m', apart o).
Proof.
  intros e ps m lit C. unfold led_step. destruct e as [c| | |p d n|b c image];
    try (destruct (step md5 _ m) as (m', o) eqn:E; rewrite apart_does; reflexivity).
  destruct (o_state (m_ota m)) eqn:S; try (destruct (step md5 _ m) as (m', o) eqn:E; rewrite apart_does; reflexivity).
  unfold cut_in in C. cbn [fst snd] in C. subst image. cbn [step]. unfold handle, run_update. rewrite S.
  destruct (on_error md5 m []) as (me, oe) eqn:Er. destruct b; cbn [negb andb]; [|cbn [app]; rewrite apart_does; reflexivity].
  destruct c; cbn [negb andb].
  - destruct (o_calls (m_ota m)) eqn:K.
    + assert (P := progress_apart ps true false). destruct (progress true false ps) as (l2, o2). cbn [snd] in P.
      destruct (_ && _); rewrite ?apart_app, P, ?apart_does; reflexivity.
    + rewrite progress_none. destruct (_ && _); rewrite ?apart_app, ?apart_does; reflexivity.
  - destruct (o_calls (m_ota m)); rewrite ?apart_app, apart_does; reflexivity.
Qed.
Lemma c115_same : forall es m lit, Forall cut_in es -> let '(m', l', os) := led_run md5 es m lit in run md5 (map fst es) m = (m', map apart os).
Proof.
  induction es as [|(e, ps) es IH]; intros m lit F; [reflexivity|]. apply Forall_cons_iff in F. destruct F as (F1 & F2). cbn [led_run map fst run].
  assert (A := step_same e ps m lit F1). destruct (led_step md5 e ps m lit) as ((m1, l1), o). rewrite A.
  assert (B := IH m1 l1 F2). destruct (led_run md5 es m1 l1) as ((m2, l2), os). rewrite B. reflexivity.
Qed.

(** ** The LED *)
Lemma c115_update : forall m lit b c ps m' l' o, o_state (m_ota m) = RunUpdate -> o_calls (m_ota m) = true ->
  led_step md5 (Handles b c (concat ps)) ps m lit = (m', l', o) ->
  lights o = (if b then true :: false :: (if c then blinks (received ps) true else []) else []) ++
             (if existsb (fun x => match x with Written _ _ => true | _ => false end) (apart o) then [false] else []) /\
  (In (Written (o_cmd (m_ota m)) (concat ps)) (apart o) -> exists o', o = o' ++ [Led false; Does Restart] /\ l' = false).
Proof.
  intros m lit b c ps m' l' o S K E. unfold led_step in E. rewrite S in E. unfold run_update in E. rewrite K in E.
  assert (X : on_error md5 m [] = (boot md5 (m_cfg m), [Restart])) by (unfold on_error; rewrite K; reflexivity). rewrite X in E. clear X.
  destruct b; cbn [negb] in E.
  - destruct c; cbn [negb] in E.
    + assert (P := progress_apart ps true false). assert (Q := progress_lights ps false). destruct (progress true false ps) as (l2, o2). cbn [snd] in P, Q.
      destruct (_ && _).
      * injection E as <- <- <-. cbn [map app negb]. rewrite !lights_led, !apart_led, lights_app, apart_app, P, Q. split; [reflexivity|].
        intros _. eexists. split; [|reflexivity]. cbn [app]. change [Does ?x; Led false; Does Restart] with ([Does x] ++ [Led false; Does Restart]).
        rewrite app_comm_cons, app_comm_cons, app_assoc. reflexivity.
      * injection E as <- <- <-. cbn [map app negb]. rewrite !lights_led, !apart_led, lights_app, apart_app, P, Q. split; [rewrite !app_nil_r; reflexivity|].
        intros [I|[]]. discriminate I.
    + injection E as <- <- <-. split; [reflexivity|]. intros [I|[]]. discriminate I.
  - injection E as <- <- <-. split; [reflexivity|]. intros [I|[]]. discriminate I.
Qed.
Lemma c115_dark : forall m lit e ps m' l' o, led_step md5 e ps m lit = (m', l', o) ->
  o_calls (m_ota m) = false \/ o_state (m_ota m) <> RunUpdate \/ (forall b c i, e <> Handles b c i) -> lights o = [] /\ l' = lit.
Proof.
  intros m lit e ps m' l' o E H. unfold led_step in E.
  assert (D : (let '(m', o) := step md5 e m in (m', lit, map Does o)) = (m', l', o) -> lights o = [] /\ l' = lit).
  { clear. destruct (step md5 e m) as (m1, o1). intros E. injection E as <- <- <-. split; [apply lights_does|reflexivity]. }
  destruct e as [c| | |p d n|b c image]; try (exact (D E)). destruct (o_state (m_ota m)) eqn:S; try (exact (D E)). clear D.
  destruct H as [K|[H|H]]; [|congruence|destruct (H b c image eq_refl)]. unfold run_update in E. rewrite K in E. rewrite progress_none in E.
  destruct (on_error md5 m []) as (me, oe). destruct b; cbn [negb] in E; [|injection E as <- <- <-; split; [apply lights_does|reflexivity]].
  destruct c; cbn [negb] in E; [|injection E as <- <- <-; split; [apply lights_does|reflexivity]].
  destruct (_ && _); injection E as <- <- <-; (split; [cbn [app]; rewrite ?lights_does; reflexivity|reflexivity]).
Qed.
Lemma last_cons_d : forall (l : list bool) x d, last (x :: l) d = last l x.
Proof. induction l as [|y l IH]; intros x d; [reflexivity|]. change (last (x :: y :: l) d) with (last (y :: l) d). rewrite IH. symmetry. apply IH. Qed.
Lemma progress_last : forall ps calls lit, fst (progress calls lit ps) = last (lights (snd (progress calls lit ps))) lit.
Proof.
  induction ps as [|[|x p] ps IH]; intros calls lit; [reflexivity|apply IH|]. cbn [progress]. destruct calls; [|apply IH].
  specialize (IH true (negb lit)). destruct (progress true (negb lit) ps) as (l, o). cbn [fst snd] in *. rewrite lights_led, last_cons_d. exact IH.
Qed.
Lemma c115_state : forall m lit e ps m' l' o, led_step md5 e ps m lit = (m', l', o) -> l' = last (lights o) lit.
Proof.
  intros m lit e ps m' l' o E. destruct (o_calls (m_ota m)) eqn:K; [|destruct (c115_dark _ _ _ _ _ _ _ E (or_introl K)) as (-> & ->); reflexivity].
  unfold led_step in E.
  assert (D : (let '(m', o) := step md5 e m in (m', lit, map Does o)) = (m', l', o) -> l' = last (lights o) lit).
  { clear. destruct (step md5 e m) as (m1, o1). intros E. injection E as <- <- <-. rewrite lights_does. reflexivity. }
  destruct e as [c| | |p d n|b c image]; try (exact (D E)). destruct (o_state (m_ota m)) eqn:S; try (exact (D E)). clear D.
  unfold run_update in E. rewrite K in E. destruct (on_error md5 m []) as (me, oe). destruct b; cbn [negb] in E; [|injection E as <- <- <-; cbn [app]; rewrite lights_does; reflexivity].
  destruct c; cbn [negb] in E; [|injection E as <- <- <-; cbn [app]; rewrite !lights_led, lights_does; reflexivity].
  assert (Q := progress_last ps true false). destruct (progress true false ps) as (l2, o2). cbn [fst snd] in Q. destruct (_ && _); injection E as <- <- <-; cbn [app].
  - rewrite !lights_led, lights_app. change (lights [Does (Written (o_cmd (m_ota m)) (concat ps)); Led false; Does Restart]) with [false].
    change (true :: false :: lights o2 ++ [false]) with ((true :: false :: lights o2) ++ [false]). rewrite last_last. reflexivity.
  - rewrite !lights_led, lights_app, lights_does, app_nil_r, !last_cons_d. exact Q.
Qed.
End Md5.
