(** Proofs about the command "led". *)
From Coq Require Import ZArith List Bool Lia.
From Verif Require Import Base BaseFacts Teleinfo TeleinfoSpec Publish HistorySpec Config ConfigSpec Tic TicSpec Sse Cpu Web WebSpec WebProofs Wifi WifiSpec Device
  DeviceProofs DeviceMain DeviceFinal DevicePages RequestProofs Led LedSpec LedProofs Blink BlinkSpec.
Import ListNotations.
Open Scope Z_scope.

(** ** The LED does not act on the rest *)
Definition same_but_led (a b : board) : Prop := b_dev a = b_dev b /\ b_tick a = b_tick b.
Lemma rest_app : forall a b, rest (a ++ b) = rest a ++ rest b.
Proof. intros. apply flat_map_app. Qed.
Lemma rest_other : forall os, rest (map Other os) = map Other os.
Proof. induction os as [|o os IH]; [reflexivity|]. cbn [map]. change (Other o :: map Other os) with ([Other o] ++ map Other os). rewrite rest_app, IH. reflexivity. Qed.
Lemma rest_flash : forall sgn e d os, rest (flash sgn e d (map Other os)) = map Other os.
Proof.
  intros. unfold flash. destruct (_ && _); [|apply rest_other].
  change (Lamp true :: map Other os ++ [Lamp false]) with ([Lamp true] ++ map Other os ++ [Lamp false]).
  rewrite !rest_app, rest_other. cbn. apply app_nil_r.
Qed.
Definition alike (x y : res (option board * list bout)) : Prop :=
  match x, y with
  | Done (Some a, o), Done (Some b, p) => same_but_led a b /\ rest o = rest p
  | Done (None, o), Done (None, p) => rest o = rest p
  | Undefined, Undefined => True
  | OutOfFuel, OutOfFuel => True
  | _, _ => False
  end.
Lemma bstep_alike : forall fuel sgn e a b, same_but_led a b -> alike (bstep fuel sgn e a) (bstep fuel sgn e b).
Proof.
  intros fuel sgn e a b (D & T). destruct e as [|e]; cbn [bstep].
  - unfold pass. rewrite T. destruct (b_tick b) eqn:X; [|destruct (_ <=? _)|destruct (_ <=? _)]; cbn; unfold same_but_led; cbn; intuition congruence.
  - rewrite D. destruct (dstep fuel sgn e (b_dev b)) as [[d os]| |]; try exact Logic.I. destruct (existsb restart_now os); [reflexivity|].
    destruct e; try (cbn [alike]; unfold same_but_led; cbn [b_dev b_tick]; rewrite T, ?rest_flash, ?rest_other; auto; fail).
    destruct (upload_ticker u) as [[| |]|]; cbn [alike]; unfold same_but_led; cbn [b_dev b_tick]; rewrite ?T; auto.
Qed.
Lemma brun_alike : forall fuel sgn es a b, same_but_led a b ->
  match brun fuel sgn es a, brun fuel sgn es b with
  | Done (Some x, o), Done (Some y, p) => same_but_led x y /\ map rest o = map rest p
  | Done (None, o), Done (None, p) => map rest o = map rest p
  | Undefined, Undefined => True
  | OutOfFuel, OutOfFuel => True
  | _, _ => False
  end.
Proof.
  intros fuel sgn. induction es as [|e es IH]; intros a b S; cbn [brun]; [auto|].
  assert (A := bstep_alike fuel sgn e a b S). destruct (bstep fuel sgn e a) as [[[a1|] o]| |], (bstep fuel sgn e b) as [[[b1|] p]| |]; cbn [alike] in A; try contradiction; auto.
  - destruct A as (S1 & R). specialize (IH a1 b1 S1).
    destruct (brun fuel sgn es a1) as [[[a2|] os]| |], (brun fuel sgn es b1) as [[[b2|] ps]| |]; try contradiction; auto; cbn [map]; rewrite R.
    + destruct IH as (S2 & ->). auto.
    + rewrite IH. reflexivity.
  - cbn. rewrite A. reflexivity.
Qed.
(** With the commands: the effects other than those on the LED are those of the same history without them. *)
Lemma no_command : forall k, (let k' := fst (blink_turn k) in same_but_led (k_board k') (k_board k)) /\ rest (snd (blink_turn k)) = [].
Proof. intros k. unfold blink_turn. destruct (tm_expired (k_now k) (k_blink k)) as [[|] t]; cbn; unfold same_but_led; auto. Qed.
Lemma led_same : forall w k, same_but_led (k_board (fst (led_command w k))) (k_board k) /\ rest (snd (led_command w k)) = [].
Proof.
  intros w k. unfold led_command. destruct (beq w (str "off")); [|destruct (beq w (str "on")); [|destruct (beq w (str "blink"))]]; cbn; unfold same_but_led; auto.
Qed.
Ltac board_step fuel sgn es k b S IH x :=
  fold (as_board es); cbn [brun]; let A := fresh in assert (A := bstep_alike fuel sgn x _ _ S);
  destruct (bstep fuel sgn x (k_board k)) as [[[?a1|] ?o]| |], (bstep fuel sgn x b) as [[[?b1|] ?p]| |]; cbn [alike on_board] in *; try contradiction; auto;
  [ destruct A as (?S1 & ?R);
    match goal with
    | S1 : same_but_led ?a1 ?b1, R : rest _ = rest _ |- context [krun fuel sgn es ?y] => specialize (IH y b1 S1); destruct (krun fuel sgn es y) as [[[?a2|] ?os]| |],
        (brun fuel sgn (as_board es) b1) as [[[?b2|] ?ps]| |]; try contradiction; auto; cbn [concat]; rewrite !rest_app, R;
        [let S2 := fresh in destruct IH as (S2 & ->); auto|rewrite IH; reflexivity]
    end
  | cbn [concat]; rewrite !app_nil_r; exact A ].
Lemma krun_alike : forall fuel sgn es k b, same_but_led (k_board k) b ->
  match krun fuel sgn es k, brun fuel sgn (as_board es) b with
  | Done (Some x, o), Done (Some y, p) => same_but_led (k_board x) y /\ rest (concat o) = rest (concat p)
  | Done (None, o), Done (None, p) => rest (concat o) = rest (concat p)
  | Undefined, Undefined => True
  | OutOfFuel, OutOfFuel => True
  | _, _ => False
  end.
Proof.
  intros fuel sgn. induction es as [|e es IH]; intros k b S; cbn [krun as_board flat_map]; [cbn [brun]; auto|].
  destruct e as [|e| |w]; cbn [app kstep].
  - board_step fuel sgn es k b S IH Ms.
  - board_step fuel sgn es k b S IH (Meets e).
  - fold (as_board es). destruct (no_command k) as (S1 & R). destruct (blink_turn k) as [k1 o]. cbn [fst snd] in *.
    assert (S2 : same_but_led (k_board k1) b) by (unfold same_but_led in *; split; etransitivity; [apply S1|apply S|apply S1|apply S]).
    specialize (IH k1 b S2). destruct (krun fuel sgn es k1) as [[[a2|] os]| |], (brun fuel sgn (as_board es) b) as [[[b2|] ps]| |]; try contradiction; auto;
      cbn [concat]; rewrite rest_app, R; exact IH.
  - fold (as_board es). destruct (led_same w k) as (S1 & R). destruct (led_command w k) as [k1 o]. cbn [fst snd] in *.
    assert (S2 : same_but_led (k_board k1) b) by (unfold same_but_led in *; split; etransitivity; [apply S1|apply S|apply S1|apply S]).
    specialize (IH k1 b S2). destruct (krun fuel sgn es k1) as [[[a2|] os]| |], (brun fuel sgn (as_board es) b) as [[[b2|] ps]| |]; try contradiction; auto;
      cbn [concat]; rewrite rest_app, R; exact IH.
Qed.
Lemma c105_only_led : forall fuel sgn es d now r os, krun fuel sgn es (keyed_of d now) = Done (r, os) ->
  exists r' os', brun fuel sgn (as_board es) (board_of d) = Done (r', os') /\ rest (concat os) = rest (concat os') /\
    match r, r' with Some k, Some b => b_dev (k_board k) = b_dev b /\ b_tick (k_board k) = b_tick b | None, None => True | _, _ => False end.
Proof.
  intros fuel sgn es d now r os H. assert (A := krun_alike fuel sgn es (keyed_of d now) (board_of d) (conj eq_refl eq_refl)). rewrite H in A.
  destruct (brun fuel sgn (as_board es) (board_of d)) as [[[b|] os']| |]; [| | destruct r; contradiction|destruct r; contradiction].
  - destruct r as [k|]; [|contradiction]. destruct A as ((A1 & A2) & A3). exists (Some b), os'. auto.
  - destruct r as [k|]; [contradiction|]. exists None, os'. auto.
Qed.

(** ** Never typed *)
Ltac never_step fuel sgn es k N P K' IH x :=
  cbn [brun]; destruct (bstep fuel sgn x (k_board k)) as [[[?b1|] ?o]| |]; cbn [on_board]; auto;
  match goal with |- context [krun fuel sgn es ?y] => specialize (IH y N P K'); cbn [k_board] in IH; destruct (krun fuel sgn es y) as [[[?a2|] ?os]| |] end;
  match goal with |- context [brun fuel sgn (as_board es) ?y] => destruct (brun fuel sgn (as_board es) y) as [[[?b2|] ?ps]| |] end;
  try contradiction; auto; cbn [concat]; [destruct IH as (-> & ->); auto|rewrite IH; reflexivity].
Lemma krun_never : forall fuel sgn es k, tm_never (k_blink k) = true -> tm_period (k_blink k) <> 0 -> (forall w, ~ In (KLed w) es) ->
  match krun fuel sgn es k, brun fuel sgn (as_board es) (k_board k) with
  | Done (Some x, o), Done (Some y, p) => k_board x = y /\ concat o = concat p
  | Done (None, o), Done (None, p) => concat o = concat p
  | Undefined, Undefined => True
  | OutOfFuel, OutOfFuel => True
  | _, _ => False
  end.
Proof.
  intros fuel sgn. induction es as [|e es IH]; intros k N P K; cbn [krun as_board flat_map]; [cbn [brun]; auto|].
  assert (K' : forall w, ~ In (KLed w) es) by (intros w I; apply (K w); right; exact I).
  destruct e as [|e| |w]; cbn [app kstep]; fold (as_board es).
  - never_step fuel sgn es k N P K' IH Ms.
  - never_step fuel sgn es k N P K' IH (Meets e).
  - unfold blink_turn, tm_expired. replace (tm_period (k_blink k) =? 0) with false by (symmetry; apply Z.eqb_neq; exact P). rewrite N.
    match goal with |- context [krun fuel sgn es ?x] => specialize (IH x N P K'); cbn [k_board] in IH; destruct (krun fuel sgn es x) as [[[a2|] os]| |],
      (brun fuel sgn (as_board es) (k_board k)) as [[[b2|] ps]| |] end; try contradiction; auto.
  - destruct (K w). left. reflexivity.
Qed.
Lemma c105_never : forall fuel sgn es d now r os, (forall w, ~ In (KLed w) es) -> krun fuel sgn es (keyed_of d now) = Done (r, os) ->
  exists os', brun fuel sgn (as_board es) (board_of d) = Done (option_map k_board r, os') /\ concat os = concat os'.
Proof.
  intros fuel sgn es d now r os K H. assert (A := krun_never fuel sgn es (keyed_of d now) eq_refl ltac:(discriminate) K). rewrite H in A. cbn [keyed_of k_board] in A.
  destruct (brun fuel sgn (as_board es) (board_of d)) as [[[b|] os']| |]; [| | destruct r; contradiction|destruct r; contradiction].
  - destruct r as [k|]; [|contradiction]. destruct A as (<- & A). exists os'. auto.
  - destruct r as [k|]; [contradiction|]. exists os'. auto.
Qed.

(** ** What is seen of the LED *)
Lemma kstep_cons : forall fuel sgn e es k k2 os, krun fuel sgn (e :: es) k = Done (Some k2, os) ->
  exists k1 o os1, kstep fuel sgn e k = Done (Some k1, o) /\ krun fuel sgn es k1 = Done (Some k2, os1) /\ os = o :: os1.
Proof.
  intros fuel sgn e es k k2 os H. cbn [krun] in H. destruct (kstep fuel sgn e k) as [[[k1|] o]| |] eqn:E; try discriminate.
  destruct (krun fuel sgn es k1) as [[r os1]| |] eqn:F; try discriminate. injection H as -> <-. eauto 8.
Qed.
Lemma krun_app : forall fuel sgn es1 es2 k k1 os1 k2 os2, krun fuel sgn es1 k = Done (Some k1, os1) -> krun fuel sgn es2 k1 = Done (Some k2, os2) ->
  krun fuel sgn (es1 ++ es2) k = Done (Some k2, os1 ++ os2).
Proof.
  intros fuel sgn. induction es1 as [|e es1 IH]; intros es2 k k1 os1 k2 os2 H1 H2.
  - injection H1 as <- <-. exact H2.
  - apply kstep_cons in H1. destruct H1 as (k3 & o & os3 & H & H1 & ->). cbn [app krun]. rewrite H, (IH _ _ _ _ _ _ H1 H2). reflexivity.
Qed.
Lemma krun_split : forall fuel sgn es1 es2 k k2 os, krun fuel sgn (es1 ++ es2) k = Done (Some k2, os) ->
  exists k1 os1 os2, krun fuel sgn es1 k = Done (Some k1, os1) /\ krun fuel sgn es2 k1 = Done (Some k2, os2) /\ os = os1 ++ os2.
Proof.
  intros fuel sgn. induction es1 as [|e es1 IH]; intros es2 k k2 os H; [exists k, [], os; auto|].
  cbn [app] in H. apply kstep_cons in H. destruct H as (k1 & o & os1 & H & H1 & ->). destruct (IH _ _ _ _ H1) as (k3 & os3 & os4 & H3 & H4 & ->).
  exists k3, (o :: os3), os4. cbn [krun]. rewrite H, H3. auto.
Qed.
Lemma bstep_lit : forall fuel sgn e b b' o, bstep fuel sgn e b = Done (Some b', o) -> b_lit b' = last (switched o) (b_lit b).
Proof.
  intros fuel sgn e b b' o H. destruct e as [|e].
  - cbn [bstep] in H. unfold pass in H. destruct (b_tick b) as [|n|n]; [|destruct (_ <=? _)|destruct (_ <=? _); [discriminate|]]; injection H as <- <-; reflexivity.
  - assert (H0 := H). apply bstep_dev in H0. destruct H0 as (os & D & N).
    destruct (match e with DUpload a u => Some (a, u) | _ => None end) as [[a u]|] eqn:Y.
    + destruct e; try discriminate. injection Y as -> ->. cbn [bstep] in H. rewrite D, N in H.
      destruct (upload_ticker u) as [[| |]|]; injection H as <- <-; cbn [b_lit]; rewrite ?switched_other; try reflexivity.
      change (Lamp false :: map Other os) with ([Lamp false] ++ map Other os). rewrite switched_app, switched_other. reflexivity.
    + assert (NU : forall a u, e <> DUpload a u) by (intros a u ->; discriminate).
      rewrite (bstep_calm _ _ _ _ _ _ D N NU) in H.
      match type of H with Done (Some ?x, ?y) = Done (Some ?x', ?y') => assert (E1 : x = x') by congruence; assert (E2 : y = y') by congruence end.
      rewrite <- E2, switched_flash, <- E1. cbn [b_lit]. destruct (_ && _); reflexivity.
Qed.
Lemma kstep_lit : forall fuel sgn e k k' o, kstep fuel sgn e k = Done (Some k', o) -> b_lit (k_board k') = last (switched o) (b_lit (k_board k)).
Proof.
  intros fuel sgn e k k' o H. destruct e as [|e| |w]; cbn [kstep] in H.
  - destruct (bstep fuel sgn Ms (k_board k)) as [[[b|] o']| |] eqn:E; try discriminate. injection H as <- <-. exact (bstep_lit _ _ _ _ _ _ E).
  - destruct (bstep fuel sgn (Meets e) (k_board k)) as [[[b|] o']| |] eqn:E; try discriminate. injection H as <- <-. exact (bstep_lit _ _ _ _ _ _ E).
  - unfold blink_turn in H. destruct (tm_expired _ _) as [[|] t]; injection H as <- <-; reflexivity.
  - unfold led_command in H. destruct (beq w (str "off")); [|destruct (beq w (str "on")); [|destruct (beq w (str "blink"))]]; injection H as <- <-; reflexivity.
Qed.
Lemma krun_lit : forall fuel sgn es k k' os, krun fuel sgn es k = Done (Some k', os) -> b_lit (k_board k') = last (switched (concat os)) (b_lit (k_board k)).
Proof.
  intros fuel sgn. induction es as [|e es IH]; intros k k' os H; [injection H as <- <-; reflexivity|].
  apply kstep_cons in H. destruct H as (k1 & o & os1 & H & H1 & ->). cbn [concat]. rewrite switched_app, last_app, <- (kstep_lit _ _ _ _ _ _ H). exact (IH _ _ _ H1).
Qed.

(** Outside uploads the timer of uploads is still. *)
Definition still (k : keyed) : Prop := forall n, b_tick (k_board k) <> Blinking n.
Lemma met_board : forall es, met (as_board es) = kmet es.
Proof. induction es as [|e es IH]; [reflexivity|]. unfold met, as_board, kmet in *. cbn [flat_map]. rewrite flat_map_app, IH. destruct e; reflexivity. Qed.
Lemma started_still : forall fuel sgn es d now k os, just_started d -> krun fuel sgn es (keyed_of d now) = Done (Some k, os) ->
  ~ suspended (uploads (kmet es)) -> still k.
Proof.
  intros fuel sgn es d now k os J H N n B. assert (P := started_unpaused _ J).
  destruct (c105_only_led _ _ _ _ _ _ _ H) as (r & os' & R & _ & S). destruct r as [b|]; [|contradiction]. destruct S as (S1 & S2).
  destruct (brun_ok _ _ _ _ _ _ (start_tick d P) R) as (T & _). destruct (brun_dev _ _ _ _ _ _ R) as (ds & D). cbn [board_of b_dev] in D.
  rewrite met_board in D. apply N. rewrite <- (drun_pause _ _ _ _ _ _ P D). unfold tick_ok in T. rewrite <- S2, B in T. apply T.
Qed.
Lemma still_step : forall fuel sgn e k k' o, kstep fuel sgn e k = Done (Some k', o) -> still k -> (forall w, e <> KLed w) -> (forall a u, e <> KMeets (DUpload a u)) ->
  still k' /\ match e with
  | KTurn => fst (tm_expired (k_now k) (k_blink k)) = match o with [] => false | _ => true end /\
      b_lit (k_board k') = xorb (b_lit (k_board k)) (fst (tm_expired (k_now k) (k_blink k))) /\ k_blink k' = snd (tm_expired (k_now k) (k_blink k)) /\ k_now k' = k_now k
  | KMs => b_lit (k_board k') = b_lit (k_board k) /\ k_blink k' = k_blink k /\ k_now k' = u32 (k_now k + 1)
  | _ => k_blink k' = k_blink k /\ k_now k' = k_now k /\
      b_lit (k_board k') = if Nat.eqb (length (switched o)) 0 then b_lit (k_board k) else false
  end.
Proof.
  intros fuel sgn e k k' o H S W U. destruct e as [|e| |w]; cbn [kstep] in H.
  - destruct (bstep fuel sgn Ms (k_board k)) as [[[b|] o']| |] eqn:E; try discriminate. injection H as <- <-. cbn [bstep] in E. unfold pass in E. unfold still in *. cbn [k_board k_blink k_now].
    destruct (b_tick (k_board k)) as [|n|n] eqn:T; [|destruct (S n); reflexivity|destruct (_ <=? _); [discriminate|]]; injection E as <- <-; cbn [b_tick b_lit]; rewrite ?T; auto.
    split; [intros m X; discriminate|auto].
  - destruct (bstep fuel sgn (Meets e) (k_board k)) as [[[b|] o']| |] eqn:E; try discriminate. injection H as <- <-. assert (H0 := E). apply bstep_dev in H0. destruct H0 as (os & D & N).
    assert (NU : forall a u, e <> DUpload a u) by (intros a u ->; destruct (U a u); reflexivity).
    rewrite (bstep_calm _ _ _ _ _ _ D N NU) in E.
    match type of E with Done (Some ?x, ?y) = Done (Some ?x', ?y') => assert (E1 : x = x') by congruence; assert (E2 : y = y') by congruence end.
    rewrite <- E2, switched_flash, <- E1. unfold still in *. cbn [k_board k_blink k_now b_tick b_lit]. split.
    + intros n. destruct (existsb restart_soon os); [discriminate|apply S].
    + destruct (_ && _); auto.
  - unfold blink_turn in H. destruct (tm_expired (k_now k) (k_blink k)) as [[|] t] eqn:E; injection H as <- <-; unfold still in *; cbn [k_board k_blink k_now with_lamp b_tick b_lit fst snd].
    + split; [exact S|]. rewrite xorb_true_r. auto.
    + split; [exact S|]. rewrite xorb_false_r. auto.
  - destruct (W w). reflexivity.
Qed.
Lemma alone_cons : forall e es, led_alone (e :: es) -> (forall w, e <> KLed w) /\ (forall a u, e <> KMeets (DUpload a u)) /\ led_alone es.
Proof.
  intros e es (A & B). split; [intros w ->; apply (A w); left; reflexivity|]. split; [intros a u ->; apply (B a u); left; reflexivity|].
  split; [intros w I; apply (A w); right; exact I|intros a u I; apply (B a u); right; exact I].
Qed.
Lemma flashed_cons : forall e es o os, flashed (e :: es) (o :: os) =
  (match e with KMeets _ => negb (Nat.eqb (length (switched o)) 0) | _ => false end || flashed es os)%bool.
Proof. reflexivity. Qed.

(** Timer stopped *)
Lemma held : forall fuel sgn es k k' os, krun fuel sgn es k = Done (Some k', os) -> still k -> tm_never (k_blink k) = true -> tm_period (k_blink k) <> 0 -> led_alone es ->
  b_lit (k_board k') = (b_lit (k_board k) && negb (flashed es os))%bool.
Proof.
  intros fuel sgn. induction es as [|e es IH]; intros k k' os H S N P L.
  - injection H as <- <-. cbn. rewrite andb_true_r. reflexivity.
  - apply kstep_cons in H. destruct H as (k1 & o & os1 & H & H1 & ->). apply alone_cons in L. destruct L as (L1 & L2 & L3).
    destruct (still_step _ _ _ _ _ _ H S L1 L2) as (S1 & K). rewrite flashed_cons.
    assert (X : fst (tm_expired (k_now k) (k_blink k)) = false /\ snd (tm_expired (k_now k) (k_blink k)) = k_blink k).
    { unfold tm_expired. rewrite N. replace (tm_period (k_blink k) =? 0) with false by (symmetry; apply Z.eqb_neq; exact P). auto. }
    destruct X as (X1 & X2). destruct e as [|e| |w].
    + destruct K as (K1 & K2 & K3). rewrite (IH _ _ _ H1 S1) by (rewrite ?K2; assumption). rewrite K1. reflexivity.
    + destruct K as (K1 & K2 & K3). rewrite (IH _ _ _ H1 S1) by (rewrite ?K1; assumption). rewrite K3.
      destruct (Nat.eqb (length (switched o)) 0); cbn [negb orb]; [reflexivity|rewrite andb_false_r; reflexivity].
    + destruct K as (_ & K1 & K2 & K3). rewrite X1, xorb_false_r in K1. rewrite (IH _ _ _ H1 S1) by (rewrite ?K2, ?X2; assumption). rewrite K1. reflexivity.
    + destruct (L1 w). reflexivity.
Qed.
Lemma lit_app : forall a b, lit (a ++ b) = last (switched (concat b)) (lit a).
Proof. intros. unfold lit. rewrite concat_app, switched_app, last_app. reflexivity. Qed.
Lemma lit_board : forall fuel sgn es d now k os, krun fuel sgn es (keyed_of d now) = Done (Some k, os) -> b_lit (k_board k) = lit os.
Proof. intros fuel sgn es d now k os H. rewrite (krun_lit _ _ _ _ _ _ H). reflexivity. Qed.
Lemma uploads_led : forall es w, kmet (es ++ [KLed w]) = kmet es.
Proof. intros. unfold kmet. rewrite flat_map_app. cbn. apply app_nil_r. Qed.
Lemma after_led : forall fuel sgn es w d now k1 os1, krun fuel sgn (es ++ [KLed w]) (keyed_of d now) = Done (Some k1, os1) -> just_started d -> ~ suspended (uploads (kmet es)) ->
  still k1 /\ exists k, k1 = fst (led_command w k) /\ b_lit (k_board k1) = lit os1 /\ exists os, krun fuel sgn es (keyed_of d now) = Done (Some k, os).
Proof.
  intros fuel sgn es w d now k1 os1 H J N. split; [apply (started_still _ _ _ _ _ _ _ J H); rewrite uploads_led; exact N|].
  assert (E := lit_board _ _ _ _ _ _ _ H). destruct (krun_split _ _ _ _ _ _ _ H) as (k & os & os2 & H1 & H2 & _). exists k. split; [|split; [exact E|eauto]].
  cbn [krun kstep] in H2. destruct (led_command w k) as [k2 o]. injection H2 as <- _. reflexivity.
Qed.
Lemma c105_held : forall fuel sgn es1 w d now k1 os1 es2 k2 os2 (on : bool), just_started d -> ~ suspended (uploads (kmet es1)) ->
  w = (if on then str "on" else str "off") -> krun fuel sgn (es1 ++ [KLed w]) (keyed_of d now) = Done (Some k1, os1) ->
  krun fuel sgn es2 k1 = Done (Some k2, os2) -> led_alone es2 -> lit (os1 ++ os2) = (on && negb (flashed es2 os2))%bool.
Proof.
  intros fuel sgn es1 w d now k1 os1 es2 k2 os2 on J N W H1 H2 L. destruct (after_led _ _ _ _ _ _ _ _ H1 J N) as (S & k & E & B & _).
  rewrite lit_app, <- B, <- (krun_lit _ _ _ _ _ _ H2).
  assert (X : b_lit (k_board k1) = on /\ tm_never (k_blink k1) = true /\ tm_period (k_blink k1) = 1) by (subst w k1; destruct on; cbn; auto).
  destruct X as (X1 & X2 & X3). rewrite (held _ _ _ _ _ _ H2 S X2 ltac:(lia) L), X1. reflexivity.
Qed.

(** Blinking *)
Lemma last_more : forall {A} (l : list A) (x y : A), last (x :: l) y = last l x.
Proof.
  intros A l x y. destruct l as [|z l]; [reflexivity|]. change (last (x :: z :: l) y) with (last (z :: l) y). revert z.
  induction l as [|w l IH]; intros z; [reflexivity|]. exact (IH w).
Qed.
Lemma beats : forall fuel sgn es k k' os a b t, krun fuel sgn es k = Done (Some k', os) -> still k -> led_alone es ->
  ticking a 200 b (k_blink k) -> k_now k = u32 (a + t) -> 0 <= b <= t -> spaced 200 b (turns t es) ->
  still k' /\ ticking a 200 (last (turns t es) b) (k_blink k') /\ k_now k' = u32 (a + (t + kelapsed es)) /\ last (turns t es) b <= t + kelapsed es /\ 0 <= last (turns t es) b /\
  (flashed es os = false -> b_lit (k_board k') = xorb (b_lit (k_board k)) (Z.odd (times (firings 200 b (turns t es))))).
Proof.
  intros fuel sgn. induction es as [|e es IH]; intros k k' os a b t H S L T N B SP.
  - injection H as <- <-. cbn [turns last kelapsed firings]. rewrite Z.add_0_r. repeat split; auto; try apply T; try lia. intros _. cbn. rewrite xorb_false_r. reflexivity.
  - apply kstep_cons in H. destruct H as (k1 & o & os1 & H & H1 & ->). apply alone_cons in L. destruct L as (L1 & L2 & L3).
    destruct (still_step _ _ _ _ _ _ H S L1 L2) as (S1 & K). rewrite flashed_cons. destruct e as [|e| |w]; cbn [turns kelapsed] in *.
    + destruct K as (K1 & K2 & K3). rewrite <- K2 in T.
      assert (N1 : k_now k1 = u32 (a + (t + 1))) by (rewrite K3, N; unfold u32; rewrite Zplus_mod_idemp_l; f_equal; lia).
      destruct (IH k1 k' os1 a b (t + 1) H1 S1 L3 T N1 ltac:(lia) SP) as (A1 & A2 & A3 & A4 & A5 & A6).
      rewrite <- K1. replace (t + (1 + kelapsed es)) with (t + 1 + kelapsed es) by lia. auto 10.
    + destruct K as (K1 & K2 & K3). rewrite <- K1 in T. rewrite <- K2 in N.
      destruct (IH k1 k' os1 a b t H1 S1 L3 T N B SP) as (A1 & A2 & A3 & A4 & A5 & A6). repeat split; auto; try apply A2.
      intros F. apply orb_false_iff in F. destruct F as (F1 & F2). rewrite (A6 F2), K3. apply negb_false_iff in F1. rewrite F1. reflexivity.
    + destruct K as (_ & K1 & K2 & K3). cbn [spaced] in SP. destruct SP as (P1 & P2 & P3).
      destruct (poll a 200 b t (k_blink k) ltac:(lia) B P2 T) as (Q1 & Q2). rewrite <- N in Q1, Q2. rewrite <- K2 in Q2. rewrite <- K3 in N.
      destruct (IH k1 k' os1 a t t H1 S1 L3 Q2 N ltac:(lia) P3) as (A1 & A2 & A3 & A4 & A5 & A6).
      assert (X : last (t :: turns t es) b = last (turns t es) t) by apply last_more.
      rewrite X. repeat split; auto; try apply A2. intros F. cbn [orb] in F. rewrite (A6 F), K1, Q1. cbn [firings].
      unfold times. cbn [filter]. destruct (slot_passed 200 b t); [|rewrite xorb_false_r; reflexivity].
      cbn [length]. rewrite Nat2Z.inj_succ, Z.odd_succ, <- Z.negb_odd. destruct (b_lit (k_board k)), (Z.odd _); reflexivity.
    + destruct (L1 w). reflexivity.
Qed.
Lemma now_word : forall fuel sgn es k k' os, krun fuel sgn es k = Done (Some k', os) -> 0 <= k_now k < 4294967296 -> 0 <= k_now k' < 4294967296.
Proof.
  intros fuel sgn. induction es as [|e es IH]; intros k k' os H R; [injection H as <- <-; exact R|].
  apply kstep_cons in H. destruct H as (k1 & o & os1 & H & H1 & ->). apply (IH _ _ _ H1). clear H1 IH. destruct e as [|e| |w]; cbn [kstep] in H.
  - destruct (bstep _ _ _ _) as [[[b|] o']| |]; try discriminate. injection H as <- <-. cbn [k_now]. apply Z.mod_pos_bound. lia.
  - destruct (bstep _ _ _ _) as [[[b|] o']| |]; try discriminate. injection H as <- <-. exact R.
  - unfold blink_turn in H. destruct (tm_expired _ _) as [[|] t]; injection H as <- <-; exact R.
  - unfold led_command in H. destruct (beq w (str "off")); [|destruct (beq w (str "on")); [|destruct (beq w (str "blink"))]]; injection H as <- <-; exact R.
Qed.
Lemma alone_app : forall a b, led_alone (a ++ b) -> led_alone a /\ led_alone b.
Proof.
  intros a b (A & B). split; split.
  - intros w I. apply (A w), in_or_app. auto.
  - intros x u I. apply (B x u), in_or_app. auto.
  - intros w I. apply (A w), in_or_app. auto.
  - intros x u I. apply (B x u), in_or_app. auto.
Qed.
Lemma turns_app : forall a b t, turns t (a ++ b) = turns t a ++ turns (t + kelapsed a) b.
Proof.
  induction a as [|e a IH]; intros b t; [cbn; rewrite Z.add_0_r; reflexivity|]. destruct e; cbn [app turns kelapsed]; rewrite IH; cbn [app]; rewrite ?Z.add_assoc; reflexivity.
Qed.
Lemma spaced_app : forall p a b c, spaced p c (a ++ b) -> spaced p c a /\ spaced p (last a c) b.
Proof.
  induction a as [|x a IH]; intros b c H; [split; [exact Logic.I|exact H]|]. cbn [app spaced] in H. destruct H as (H1 & H2 & H3).
  destruct (IH b x H3) as (A & B). split; [cbn [spaced]; auto|].
  rewrite last_more. exact B.
Qed.
Lemma c105_blink : forall fuel sgn es1 d now k1 os1 es2 k2 os2 es3 k3 os3, just_started d -> 0 <= now < 4294967296 -> ~ suspended (uploads (kmet es1)) ->
  krun fuel sgn (es1 ++ [KLed (str "blink")]) (keyed_of d now) = Done (Some k1, os1) ->
  krun fuel sgn es2 k1 = Done (Some k2, os2) -> krun fuel sgn es3 k2 = Done (Some k3, os3) -> led_alone (es2 ++ es3) ->
  spaced 200 0 (turns 0 (es2 ++ es3)) -> flashed es3 os3 = false ->
  lit (os1 ++ os2 ++ os3) = xorb (lit (os1 ++ os2)) (Z.odd (times (firings 200 (last (turns 0 es2) 0) (turns (kelapsed es2) es3)))).
Proof.
  intros fuel sgn es1 d now k1 os1 es2 k2 os2 es3 k3 os3 J R N H1 H2 H3 L SP F.
  destruct (after_led _ _ _ _ _ _ _ _ H1 J N) as (S & k & E & B & os & H0). assert (W := now_word _ _ _ _ _ _ H0 R).
  apply alone_app in L. destruct L as (La & Lb). rewrite turns_app in SP. apply spaced_app in SP. destruct SP as (Sa & Sb). cbn [Z.add] in Sb.
  assert (T : ticking (k_now k) 200 0 (k_blink k1)).
  { subst k1. unfold ticking. cbn. rewrite Z.add_0_r. unfold u32. rewrite Z.mod_small by exact W. auto. }
  assert (N1 : k_now k1 = u32 (k_now k + 0)) by (subst k1; cbn; rewrite Z.add_0_r; unfold u32; rewrite Z.mod_small by exact W; reflexivity).
  destruct (beats _ _ _ _ _ _ _ _ _ H2 S La T N1 ltac:(lia) Sa) as (S2 & T2 & N2 & B2 & B3 & _). cbn [Z.add] in N2, B2.
  destruct (beats _ _ _ _ _ _ _ _ _ H3 S2 Lb T2 N2 ltac:(lia) Sb) as (_ & _ & _ & _ & _ & X).
  rewrite app_assoc, lit_app. assert (Y : b_lit (k_board k2) = lit (os1 ++ os2)) by (apply (lit_board fuel sgn ((es1 ++ [KLed (str "blink")]) ++ es2) d now); exact (krun_app _ _ _ _ _ _ _ _ _ H1 H2)).
  rewrite <- Y, <- (krun_lit _ _ _ _ _ _ H3). exact (X F).
Qed.
Lemma slots_prompt : forall ds b, 0 <= b -> prompt 200 b ds -> times (firings 200 b ds) = last ds b / 200 - b / 200.
Proof.
  induction ds as [|x ds IH]; intros b B P; [cbn; lia|]. destruct P as (P1 & P2).
  assert (X : last (x :: ds) b = last ds x) by apply last_more.
  rewrite X. specialize (IH x ltac:(lia) P2). cbn [firings]. unfold times in *. cbn [filter]. unfold slot_passed.
  destruct (Z.ltb_spec (b / 200) (x / 200)) as [Lt|Ge].
  - assert (Y : x / 200 <= b / 200 + 1). { replace (b / 200 + 1) with ((b + 1 * 200) / 200) by (apply Z.div_add; lia). apply Z.div_le_mono; lia. }
    cbn [length]. lia.
  - assert (Y : b / 200 <= x / 200) by (apply Z.div_le_mono; lia). lia.
Qed.
Lemma prompt_spaced : forall ds b, prompt 200 b ds -> spaced 200 b ds.
Proof. induction ds as [|x ds IH]; intros b P; [exact Logic.I|]. destruct P as (P1 & P2). cbn [spaced]. split; [lia|]. split; [lia|auto]. Qed.
Lemma c105_prompt : forall fuel sgn es1 d now k1 os1 es2 k2 os2, just_started d -> 0 <= now < 4294967296 -> ~ suspended (uploads (kmet es1)) ->
  krun fuel sgn (es1 ++ [KLed (str "blink")]) (keyed_of d now) = Done (Some k1, os1) ->
  krun fuel sgn es2 k1 = Done (Some k2, os2) -> led_alone es2 -> prompt 200 0 (turns 0 es2) -> flashed es2 os2 = false ->
  lit (os1 ++ os2) = xorb (lit os1) (Z.odd (last (turns 0 es2) 0 / 200)).
Proof.
  intros fuel sgn es1 d now k1 os1 es2 k2 os2 J R N H1 H2 L P F.
  assert (X := c105_blink fuel sgn es1 d now k1 os1 [] k1 [] es2 k2 os2 J R N H1 eq_refl H2 L (prompt_spaced _ _ P) F).
  cbn [app turns last kelapsed] in X. rewrite app_nil_r in X. rewrite X, slots_prompt by (lia || exact P). rewrite Z.div_0_l, Z.sub_0_r by lia. reflexivity.
Qed.
