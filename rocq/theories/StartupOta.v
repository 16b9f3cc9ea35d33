(** Proofs about the updates over the air during the start. *)
From Coq Require Import ZArith List Bool Lia.
From Verif Require Import Base BaseFacts Config Ota OtaSpec OtaProofs.
From Verif Require StartupSpec.
Import ListNotations.
Open Scope Z_scope.

Lemma idle_handles : forall md5 es m, o_state (m_ota m) <> RunUpdate -> StartupSpec.only_handles es -> run md5 es m = (m, map (fun _ => []) es).
Proof.
  intros md5 es m S F. induction F as [|e es (b & c & i & ->) F IH]; [reflexivity|]. cbn [run step map]. unfold handle.
  destruct (o_state (m_ota m)); [| |congruence]; rewrite IH; reflexivity.
Qed.
Lemma map_nil : forall (es : list event), concat (map (fun _ => @nil out) es) = [].
Proof. induction es; auto. Qed.

Lemma c114_rescue : forall md5, digits32 md5 -> forall c cmd port image p q nonce cn n before between,
  cmd = 0 \/ cmd = 100 -> length cn = 32%nat -> StartupSpec.only_handles before -> StartupSpec.only_handles between ->
  exists m, run md5 (before ++ Comes p (Invite cmd port (Z.of_nat (length image)) (md5 image)) nonce :: between ++
                     [Comes q (Answer cn (response md5 (text OtaAuth c) nonce cn)) n; Handles true true image]) (boot md5 c) =
    (m, map (fun _ => []) before ++ [Challenge p nonce] :: map (fun _ => []) between ++ [[]; [Written cmd image; Restart]]).
Proof.
  intros md5 H32 c cmd port image p q nonce cn n before between C L FB FT.
  destruct (c98_update md5 H32 c [] (boot md5 c) [] cmd port image p q nonce cn n eq_refl eq_refl C L) as (m' & R & _).
  change (password c (combine [] [])) with (text OtaAuth c) in R. exists m'.
  rewrite run_app, (idle_handles md5 before (boot md5 c)) by (try exact FB; discriminate).
  cbn [run] in R |- *. destruct (step md5 (Comes p _ nonce) (boot md5 c)) as [m1 o1] eqn:E1.
  assert (S1 : o1 = [Challenge p nonce] -> o_state (m_ota m1) = WaitAuth).
  { revert E1. cbn [step]. unfold on_rx, boot, ota_begin. cbn [m_ota o_state o_pass]. destruct (_ && _); [|intros E1; injection E1 as <- <-; discriminate].
    cbv zeta. cbn [m_ota o_pass m_cfg o_port o_calls]. destruct (md5 (text OtaAuth c)); intros E1; injection E1 as <- <-; [discriminate|reflexivity]. }
  destruct (step md5 (Comes q _ n) m1) as [m2 o2] eqn:E2. destruct (step md5 (Handles true true image) m2) as [m3 o3] eqn:E3.
  injection R as <- -> -> ->. rewrite run_app, (idle_handles md5 between m1) by (try exact FT; rewrite (S1 eq_refl); discriminate).
  cbn [run]. rewrite E2, E3. reflexivity.
Qed.

(** While the callbacks are not installed *)
Lemma window_step : forall md5 e m m' o, StartupSpec.in_window e -> o_calls (m_ota m) = false -> step md5 e m = (m', o) ->
  o_calls (m_ota m') = false /\ (In Restart o -> exists cmd image, o = [Written cmd image; Restart]).
Proof.
  intros md5 e m m' o W C. destruct e as [|  | |p d nonce|b c image]; try destruct W; cbn [step].
  - unfold on_rx, on_error. destruct (o_state (m_ota m)); destruct d as [cmd port size sum|cn r|];
      repeat match goal with |- context [if ?x then _ else _] => destruct x eqn:?; try congruence end; cbv zeta;
      try (destruct (o_pass (m_ota m)));
      intros E; injection E as <- <-; cbn [m_ota in_state o_calls m_cfg]; (split; [first [exact C|reflexivity|congruence]|]); cbn [In app]; intros I;
      repeat (destruct I as [I|I]; try discriminate); try destruct I.
  - unfold handle, on_error. destruct (o_state (m_ota m)).
    + intros E. injection E as <- <-. split; [exact C|intros []].
    + intros E. injection E as <- <-. split; [exact C|intros []].
    + destruct (_ && beq _ _).
      * intros E. injection E as <- <-. split; [reflexivity|]. intros _. eauto.
      * rewrite C. intros E. injection E as <- <-. split; [exact C|intros []].
Qed.
Lemma c114_calm : forall md5 c es m os, Forall StartupSpec.in_window es -> run md5 es (boot md5 c) = (m, os) -> In Restart (concat os) ->
  exists cmd image, In (Written cmd image) (concat os).
Proof.
  intros md5 c es. assert (G : o_calls (m_ota (boot md5 c)) = false) by reflexivity. revert G. generalize (boot md5 c) as m0.
  induction es as [|e es IH]; intros m0 G m os F; cbn [run].
  - intros E. injection E as <- <-. intros [].
  - destruct (step md5 e m0) as [m1 o] eqn:E1. destruct (run md5 es m1) as [m2 os2] eqn:E2. intros E. injection E as <- <-. cbn [concat].
    destruct (window_step md5 e m0 m1 o (Forall_inv F) G E1) as [G1 W]. intros I. apply in_app_or in I. destruct I as [I|I].
    + destruct (W I) as (cmd & image & ->). exists cmd, image. apply in_or_app. left. left. reflexivity.
    + destruct (IH m1 G1 m2 os2 (Forall_inv_tail F) E2 I) as (cmd & image & J). exists cmd, image. apply in_or_app. right. exact J.
Qed.
