(** Proofs about the LED and the delayed restart. *)
From Coq Require Import ZArith List Bool Lia.
From Verif Require Import Base BaseFacts Teleinfo TeleinfoSpec Publish HistorySpec PublishProofs TeleinfoMain Config ConfigSpec JsonBuild Tic Pages Sse Cpu Web WebSpec
  WebProofs Wifi WifiSpec Device DeviceProofs DeviceMain DeviceFinal DevicePages Led LedSpec.
Import ListNotations.
Open Scope Z_scope.

Lemma brun_app : forall fuel sgn es1 es2 b,
  brun fuel sgn (es1 ++ es2) b =
  match brun fuel sgn es1 b with
  | Done (Some b1, o1) => match brun fuel sgn es2 b1 with Done (b2, o2) => Done (b2, o1 ++ o2) | Undefined => Undefined | OutOfFuel => OutOfFuel end
  | r => r
  end.
Proof.
  intros fuel sgn. induction es1 as [|e es1 IH]; intros es2 b; cbn [app brun].
  - destruct (brun fuel sgn es2 b) as [[b2 o2]| |]; reflexivity.
  - destruct (bstep fuel sgn e b) as [[[b1|] o]| |]; try reflexivity. rewrite IH.
    destruct (brun fuel sgn es1 b1) as [[[b2|] o1]| |]; try reflexivity.
    destruct (brun fuel sgn es2 b2) as [[b3 o3]| |]; reflexivity.
Qed.
Lemma brun_snoc : forall fuel sgn es e b b2 os, brun fuel sgn (es ++ [e]) b = Done (Some b2, os) ->
  exists b1 os1 o, brun fuel sgn es b = Done (Some b1, os1) /\ bstep fuel sgn e b1 = Done (Some b2, o) /\ os = os1 ++ [o].
Proof.
  intros fuel sgn es e b b2 os H. rewrite brun_app in H. destruct (brun fuel sgn es b) as [[[b1|] os1]| |]; try discriminate.
  cbn [brun] in H. destruct (bstep fuel sgn e b1) as [[[b3|] o]| |] eqn:E; try discriminate. injection H as <- <-.
  exists b1, os1, o. auto.
Qed.

Lemma bstep_dev : forall fuel sgn e b b' o, bstep fuel sgn (Meets e) b = Done (Some b', o) ->
  exists os, dstep fuel sgn e (b_dev b) = Done (b_dev b', os) /\ existsb restart_now os = false.
Proof.
  intros fuel sgn e b b' o H. cbn [bstep] in H. destruct (dstep fuel sgn e (b_dev b)) as [[d os]| |]; try discriminate.
  destruct (existsb restart_now os) eqn:E; [discriminate|]. exists os. split; [|exact E].
  destruct e; try (injection H as <- _; reflexivity).
  destruct (upload_ticker u) as [[| |]|]; injection H as <- _; reflexivity.
Qed.
Lemma brun_dev : forall fuel sgn es b b' os, brun fuel sgn es b = Done (Some b', os) ->
  exists ds, drun fuel sgn (met es) (b_dev b) = Done (b_dev b', ds).
Proof.
  intros fuel sgn es b. induction es as [|e es IH] using rev_ind; intros b' os H.
  - injection H as <- <-. exists []. reflexivity.
  - apply brun_snoc in H. destruct H as (b1 & os1 & o & H1 & H2 & ->). destruct (IH _ _ H1) as (ds & D).
    unfold met. rewrite flat_map_app. fold (met es). rewrite drun_app, D. destruct e as [|e]; cbn [flat_map app].
    + cbn [bstep] in H2. cbn [drun]. exists (ds ++ []). f_equal. f_equal. unfold pass in H2.
      destruct (b_tick b1); [|destruct (_ <=? _)|destruct (_ <=? _)]; injection H2 as <- _ || discriminate; reflexivity.
    + apply bstep_dev in H2. destruct H2 as (o2 & E & _). cbn [drun]. rewrite E. eauto.
Qed.

(** What an event does to the pause and to the flag of a good end *)
Lemma step_pause : forall fuel sgn e d d' os, dstep fuel sgn e d = Done (d', os) ->
  p_pause (d_pub d') = match e with DUpload _ u => if upload_over u then false else match u with UpStart _ _ _ _ => true | _ => p_pause (d_pub d) end | _ => p_pause (d_pub d) end.
Proof.
  intros fuel sgn e d d' os H2. assert (R := dstep_pub _ _ _ _ _ _ H2). destruct e; cbn [as_pub] in R.
  - injection R as <-. reflexivity.
  - cbn [pub_run pub_step] in R. destruct (tic_decode sgn tv c (d_pub d)) as [[p f]|] eqn:T; [|discriminate].
    injection R as <-. unfold tic_decode in T. destruct (p_pause (d_pub d)) eqn:Q.
    + injection T as <- <-. exact Q.
    + destruct (put sgn tv c (p_dec (d_pub d))) as [x|]; [|discriminate]. destruct (ready x).
      * destruct (copy_from _ _ _ _); [|discriminate]. injection T as <- <-. reflexivity.
      * injection T as <- <-. reflexivity.
  - injection R as <-. reflexivity.
  - cbn [dstep] in H2. injection H2 as H2. destruct u as [name len [|] ended|data [|] ended|ended|ended]; cbn in H2; injection H2 as <- _; reflexivity.
  - injection R as <-. reflexivity.
Qed.
Lemma paused_silent : forall sgn e d, p_pause (d_pub d) = true -> published_now sgn e d = false.
Proof. intros sgn e d P. destruct e; try reflexivity. cbn [published_now]. unfold tic_decode. rewrite P. reflexivity. Qed.

Definition tick_ok (b : board) : Prop :=
  match b_tick b with
  | Blinking n => p_pause (d_pub (b_dev b)) = true /\ d_upd (b_dev b) = false /\ 0 < n <= 333
  | Stopped => p_pause (d_pub (b_dev b)) = false /\ b_lit b = false
  | Restarting n => p_pause (d_pub (b_dev b)) = false /\ b_lit b = false /\ 0 < n <= 500
  end.

Lemma switched_app : forall a b, switched (a ++ b) = switched a ++ switched b.
Proof. intros. unfold switched. apply flat_map_app. Qed.
Lemma switched_other : forall os, switched (map Other os) = [].
Proof. induction os; auto. Qed.
Lemma switched_flash : forall sgn e d os, switched (flash sgn e d (map Other os)) =
  if published_now sgn e d && bit 0 Options (cfg_of d) then [true; false] else [].
Proof.
  intros. unfold flash. destruct (published_now sgn e d && bit 0 Options (cfg_of d)); [|apply switched_other].
  change (Lamp true :: map Other os ++ [Lamp false]) with ([Lamp true] ++ map Other os ++ [Lamp false]).
  rewrite !switched_app, switched_other. reflexivity.
Qed.

Lemma soon_flag : forall fuel sgn e d d' os, dstep fuel sgn e d = Done (d', os) -> existsb restart_soon os = true ->
  d_upd d = true /\ (exists a q, e = DHttp a q /\ q_uri q = str "/update").
Proof.
  intros fuel sgn e d d' os H X. apply existsb_exists in X. destruct X as (o & I & Y). destruct o; try discriminate.
  destruct (only_requests_restart _ _ _ _ _ _ H (or_introl I)) as (a & q & ->). cbn [dstep] in H.
  destruct (handle_restart _ _ _ _ _ _ H) as (A & _). destruct (A I) as (U & _ & _ & D). eauto.
Qed.


(** One step, seen from outside: how the lamp and the timer move *)
Lemma calm_ok : forall fuel sgn e b d os, tick_ok b -> dstep fuel sgn e (b_dev b) = Done (d, os) -> (forall a u, e <> DUpload a u) ->
  let flashes := published_now sgn e (b_dev b) && bit 0 Options (cfg_of (b_dev b)) in
  let b' := mk_board d (if flashes then false else b_lit b) (if existsb restart_soon os then Restarting 500 else b_tick b) in
  tick_ok b' /\ b_lit b' = last (if flashes then [true; false] else []) (b_lit b).
Proof.
  intros fuel sgn e b d os T D NU. cbv zeta.
  assert (P := step_pause _ _ _ _ _ _ D). assert (U := dstep_upd _ _ _ _ _ _ D).
  assert (P' : p_pause (d_pub d) = p_pause (d_pub (b_dev b))) by (destruct e; auto; exfalso; eapply NU; reflexivity).
  assert (U' : d_upd d = d_upd (b_dev b)) by (destruct e; auto; exfalso; eapply NU; reflexivity).
  split; [|cbn [b_lit]; destruct (_ && _); reflexivity].
  unfold tick_ok in *. cbn [b_tick b_dev b_lit]. rewrite P', U'.
  destruct (existsb restart_soon os) eqn:X.
  - destruct (soon_flag _ _ _ _ _ _ D X) as (Y & a & q & -> & _). cbn [published_now andb].
    destruct (b_tick b) as [|n|n]; [| |]; intuition (congruence || lia).
  - destruct (published_now sgn e (b_dev b) && bit 0 Options (cfg_of (b_dev b))); [|exact T].
    destruct (b_tick b) as [|n|n]; tauto.
Qed.
Lemma bstep_calm : forall fuel sgn e b d os, dstep fuel sgn e (b_dev b) = Done (d, os) -> existsb restart_now os = false ->
  (forall a u, e <> DUpload a u) ->
  bstep fuel sgn (Meets e) b = Done (Some (mk_board d (if published_now sgn e (b_dev b) && bit 0 Options (cfg_of (b_dev b)) then false else b_lit b)
    (if existsb restart_soon os then Restarting 500 else b_tick b)), flash sgn e (b_dev b) (map Other os)).
Proof. intros fuel sgn e b d os D N NU. cbn [bstep]. rewrite D, N. destruct e; try reflexivity. exfalso. eapply NU. reflexivity. Qed.

Lemma bstep_ok : forall fuel sgn e b b' o, tick_ok b -> bstep fuel sgn e b = Done (Some b', o) ->
  tick_ok b' /\ b_lit b' = last (switched o) (b_lit b).
Proof.
  intros fuel sgn e b b' o T H. destruct e as [|e].
  - cbn [bstep] in H. unfold pass in H. unfold tick_ok in *. destruct (b_tick b) as [|n|n] eqn:K.
    + injection H as <- <-. rewrite K. auto.
    + destruct (n - 1 <=? 0) eqn:L; injection H as <- <-; cbn; repeat split; try tauto; lia.
    + destruct (n - 1 <=? 0) eqn:L; [discriminate|]. injection H as <- <-; cbn; repeat split; try tauto; lia.
  - assert (H0 := H). apply bstep_dev in H0. destruct H0 as (os & D & N).
    destruct (match e with DUpload a u => Some (a, u) | _ => None end) as [[a u]|] eqn:Y.
    + destruct e; try discriminate. injection Y as -> ->. cbn [bstep] in H. rewrite D, N in H.
      assert (P := step_pause _ _ _ _ _ _ D). assert (U := dstep_upd _ _ _ _ _ _ D). cbn in P, U.
      unfold tick_ok in *. destruct u as [name len [|] ended|data [|] ended|ended|ended]; cbn [upload_ticker] in H; injection H as <- <-;
        cbn [b_dev b_lit b_tick] in *; cbn in P, U; cbn [upload_over] in *; rewrite ?switched_other;
        change (Lamp false :: map Other os) with ([Lamp false] ++ map Other os); rewrite ?switched_app, ?switched_other; cbn [switched flat_map app last];
        (split; [|reflexivity]); try (rewrite P, ?U; repeat split; auto; lia).
    + assert (NU : forall a u, e <> DUpload a u) by (intros a u ->; discriminate).
      rewrite (bstep_calm _ _ _ _ _ _ D N NU) in H. destruct (calm_ok fuel sgn e b _ os T D NU) as (A & B).
      match type of H with Done (Some ?x, ?y) = Done (Some ?x', ?y') => assert (E1 : x = x') by congruence; assert (E2 : y = y') by congruence end.
      rewrite <- E2, switched_flash, <- E1. exact (conj A B).
Qed.

Lemma last_app : forall {A} (l l' : list A) d, last (l ++ l') d = last l' (last l d).
Proof.
  intros A l l' d. induction l' as [|x l' IH] using rev_ind; [rewrite app_nil_r; reflexivity|].
  rewrite app_assoc, !last_last. reflexivity.
Qed.
Lemma brun_ok : forall fuel sgn es b b' os, tick_ok b -> brun fuel sgn es b = Done (Some b', os) ->
  tick_ok b' /\ b_lit b' = last (switched (concat os)) (b_lit b).
Proof.
  intros fuel sgn es b. induction es as [|e es IH] using rev_ind; intros b' os T H.
  - injection H as <- <-. auto.
  - apply brun_snoc in H. destruct H as (b1 & os1 & o & H1 & H2 & ->). destruct (IH _ _ T H1) as (T1 & L1).
    destruct (bstep_ok _ _ _ _ _ _ T1 H2) as (T2 & L2). split; [exact T2|].
    rewrite concat_app, switched_app, last_app, <- L1, L2. cbn [concat]. rewrite app_nil_r. reflexivity.
Qed.
Lemma start_tick : forall d, p_pause (d_pub d) = false -> tick_ok (board_of d).
Proof. intros d P. split; auto. Qed.

(** C86: lit only during uploads *)
Lemma c86_rest : forall fuel sgn d es b os, p_pause (d_pub d) = false -> brun fuel sgn es (board_of d) = Done (Some b, os) ->
  lit os = true -> suspended (uploads (met es)).
Proof.
  intros fuel sgn d es b os P H L. destruct (brun_ok _ _ _ _ _ _ (start_tick d P) H) as (T & E). unfold lit in L. cbn [board_of b_lit] in E.
  rewrite L in E. destruct (brun_dev _ _ _ _ _ _ H) as (ds & D). cbn [board_of b_dev] in D. rewrite <- (drun_pause _ _ _ _ _ _ P D).
  unfold tick_ok in T. rewrite E in T. destruct (b_tick b); [| |]; tauto || (exfalso; intuition discriminate).
Qed.

(** C86: the blinking *)
Lemma blink_step : forall fuel sgn es b b' os n, brun fuel sgn es b = Done (Some b', os) -> tick_ok b -> b_tick b = Blinking n ->
  uploads_go_on es ->
  b_tick b' = Blinking (333 - (333 - n + elapsed es) mod 333) /\
  b_lit b' = xorb (b_lit b) (Z.odd ((333 - n + elapsed es) / 333)).
Proof.
  intros fuel sgn es b. induction es as [|e es IH] using rev_ind; intros b' os n H T K G.
  - injection H as <- <-. assert (N : 0 < n <= 333) by (unfold tick_ok in T; rewrite K in T; tauto). cbn [elapsed].
    rewrite Z.add_0_r, Z.mod_small, Z.div_small, xorb_false_r by lia. split; [|reflexivity]. rewrite K. f_equal. lia.
  - apply brun_snoc in H. destruct H as (b1 & os1 & o & H1 & H2 & ->).
    assert (G1 : uploads_go_on es) by (intros a u I; apply (G a u), in_or_app; auto).
    destruct (IH _ _ _ H1 T K G1) as (K1 & L1). destruct (brun_ok _ _ _ _ _ _ T H1) as (T1 & _).
    assert (E0 : elapsed (es ++ [e]) = elapsed es + match e with Ms => 1 | _ => 0 end).
    { clear. induction es as [|x es IH]; [destruct e; reflexivity|]. cbn [app elapsed]. rewrite IH. destruct x; lia. }
    rewrite E0. set (m := 333 - n + elapsed es) in *.
    replace (333 - n + (elapsed es + match e with Ms => 1 | _ => 0 end)) with (m + match e with Ms => 1 | _ => 0 end) by (unfold m; lia).
    clearbody m. destruct e as [|e].
    + cbn [bstep] in H2. unfold pass in H2. rewrite K1 in H2. destruct (333 - m mod 333 - 1 <=? 0) eqn:Q.
      * apply Z.leb_le in Q. assert (X : (m + 1) mod 333 = 0 /\ (m + 1) / 333 = m / 333 + 1) by (clear - Q; split; Z.div_mod_to_equations; lia).
        destruct X as [-> ->]. injection H2 as <- _. split; [reflexivity|]. cbn [b_lit]. rewrite L1, Z.odd_add.
        destruct (b_lit b), (Z.odd (m / 333)); reflexivity.
      * apply Z.leb_gt in Q. assert (X : (m + 1) mod 333 = m mod 333 + 1 /\ (m + 1) / 333 = m / 333) by (clear - Q; split; Z.div_mod_to_equations; lia).
        destruct X as [-> ->]. 
        match type of H2 with Done (Some ?x, ?y) = Done (Some ?x', ?y') => assert (E1 : x = x') by congruence end. rewrite <- E1.
        cbn [b_tick b_lit]. split; [apply (f_equal Blinking); lia|exact L1].
    + rewrite Z.add_0_r. assert (H3 := H2). apply bstep_dev in H3. destruct H3 as (oo & D & N).
      destruct (match e with DUpload a u => Some (a, u) | _ => None end) as [[a u]|] eqn:Y.
      * destruct e; try discriminate. injection Y as -> ->. destruct (G a u) as (data & ended & ->); [apply in_or_app; right; left; reflexivity|].
        cbn [bstep] in H2. rewrite D, N in H2. cbn [upload_ticker] in H2. injection H2 as <- _. auto.
      * assert (NU : forall a u, e <> DUpload a u) by (intros a u ->; discriminate).
        rewrite (bstep_calm _ _ _ _ _ _ D N NU) in H2. injection H2 as <- _. unfold tick_ok in T1. rewrite K1 in T1.
        destruct T1 as (P1 & U1 & _). rewrite (paused_silent sgn e _ P1). cbn [andb b_lit b_tick].
        destruct (existsb restart_soon oo) eqn:X; [destruct (soon_flag _ _ _ _ _ _ D X) as (Z1 & _); congruence|]. auto.
Qed.
Lemma c86_blinks : forall fuel sgn d es1 a name len ended es2 b os, p_pause (d_pub d) = false ->
  ~ suspended (uploads (met es1)) -> uploads_go_on es2 ->
  brun fuel sgn (es1 ++ Meets (DUpload a (UpStart name len true ended)) :: es2) (board_of d) = Done (Some b, os) ->
  lit os = Z.odd (elapsed es2 / 333).
Proof.
  intros fuel sgn d es1 a name len ended es2 b os P NS G H. destruct (brun_ok _ _ _ _ _ _ (start_tick d P) H) as (_ & E). cbn [board_of b_lit] in E.
  unfold lit. rewrite <- E. clear E. rewrite brun_app in H. destruct (brun fuel sgn es1 (board_of d)) as [[[b1|] os1]| |] eqn:H1; try discriminate.
  destruct (brun_ok _ _ _ _ _ _ (start_tick d P) H1) as (T1 & L1). cbn [brun] in H.
  assert (Q : b_lit b1 = false).
  { destruct (b_lit b1) eqn:X; auto. exfalso. apply NS, (c86_rest _ _ _ _ _ _ P H1). unfold lit. symmetry. exact L1. }
  destruct (bstep fuel sgn (Meets (DUpload a (UpStart name len true ended))) b1) as [[[b2|] o]| |] eqn:H2; try discriminate.
  destruct (brun fuel sgn es2 b2) as [[b3 os2]| |] eqn:H3; try discriminate. injection H as -> _.
  destruct (bstep_ok _ _ _ _ _ _ T1 H2) as (T2 & _).
  assert (K : b_tick b2 = Blinking 333 /\ b_lit b2 = b_lit b1).
  { cbn [bstep] in H2. destruct (dstep fuel sgn _ (b_dev b1)) as [[x y]| |]; try discriminate. destruct (existsb restart_now y); [discriminate|].
    cbn [upload_ticker] in H2. injection H2 as <- _. auto. }
  destruct K as [K L2]. destruct (blink_step _ _ _ _ _ _ _ H3 T2 K G) as (_ & ->). rewrite L2, Q. replace (333 - 333 + elapsed es2) with (elapsed es2) by lia. destruct (Z.odd _); reflexivity.
Qed.

(** C86: frames *)
Lemma fed_off : forall es off, fed off (es ++ []) = fed off es.
Proof. intros. rewrite app_nil_r. reflexivity. Qed.
Lemma heard_snoc : forall es off e, heard off (es ++ [e]) = heard off es ++ heard (fold_left (fun o x => match x with DUpload _ u => if upload_over u then false else match u with UpStart _ _ _ _ => true | _ => o end | _ => o end) es off) [e].
Proof.
  induction es as [|x es IH]; intros off e; [reflexivity|]. cbn [app fold_left]. destruct x; cbn [heard]; try apply IH.
  destruct off; [apply IH|]. cbn [app]. f_equal. apply IH.
Qed.
Lemma pause_fold : forall fuel sgn es d d' os, drun fuel sgn es d = Done (d', os) ->
  p_pause (d_pub d') = fold_left (fun o x => match x with DUpload _ u => if upload_over u then false else match u with UpStart _ _ _ _ => true | _ => o end | _ => o end) es (p_pause (d_pub d)).
Proof.
  intros fuel sgn. induction es as [|e es IH]; intros d d' os H; cbn [drun] in H.
  - injection H as <- _. reflexivity.
  - destruct (dstep fuel sgn e d) as [[d1 o]| |] eqn:E; try discriminate. destruct (drun fuel sgn es d1) as [[d2 o2]| |] eqn:F; try discriminate.
    injection H as <- _. cbn [fold_left]. rewrite (IH _ _ _ F), (step_pause _ _ _ _ _ _ E). reflexivity.
Qed.

Lemma byte_publishes : forall fuel sgn d0 es d os a up tv c, just_started d0 -> is_byte c ->
  Forall is_byte (map snd (heard false es)) -> drun fuel sgn es d0 = Done (d, os) -> p_pause (d_pub d) = false ->
  (published_now sgn (DByte a up tv c) d = true <-> exists t0 bodies, frame_ends (heard false es ++ [(tv, c)]) t0 bodies /\ valid_frame bodies).
Proof.
  intros fuel sgn d0 es d os a up tv c (g1 & g2 & G1 & G2 & Q) Bc B H P.
  assert (R := drun_pub _ _ _ _ _ _ H). rewrite Q in R.
  destruct (pub_run_inv sgn g1 (flat_map as_pub es) [] (pub_init g1 g2) G1) as (p & R' & I).
  { cbn [app pub_init p_pause]. rewrite fed_heard. exact B. }
  { apply pub_init_inv; assumption. }
  rewrite R in R'. injection R' as <-. cbn [app pub_init p_pause] in I. rewrite fed_heard in I. destruct I as (I & J & H2).

  destruct (pub_step_inv sgn g1 (heard false es) (d_pub d) tv c G1 B Bc P (conj I (conj J H2))) as (p' & Ep & _ & I' & _).
  cbn [pub_step] in Ep. destruct (tic_decode sgn tv c (d_pub d)) as [[p1 f]|] eqn:T; [|discriminate]. injection Ep as ->.
  destruct (c01 sgn g1 (heard false es ++ [(tv, c)]) G1) as (x & X & Y & _).
  { rewrite map_app. apply Forall_app. split; auto. constructor; auto. }
  rewrite <- Y. clear Y. assert (XE : Some x = Some (p_dec p')) by (rewrite <- X; exact I'). injection XE as ->.
  cbn [published_now]. rewrite T. unfold tic_decode in T. rewrite P in T.
  destruct (put sgn tv c (p_dec (d_pub d))) as [dd|]; [|discriminate]. destruct (ready dd) eqn:Rd.
  - destruct (copy_from _ _ _ _); [|discriminate]. injection T as <- <-. cbn [p_dec]. rewrite Rd. tauto.
  - injection T as <- <-. cbn [p_dec]. rewrite Rd. tauto.
Qed.

Lemma heard_on : forall fuel sgn d0 es d os tv c a up, just_started d0 -> drun fuel sgn es d0 = Done (d, os) ->
  heard false (es ++ [DByte a up tv c]) = heard false es ++ if p_pause (d_pub d) then [] else [(tv, c)].
Proof.
  intros fuel sgn d0 es d os tv c a up (g1 & g2 & _ & _ & Q) H. rewrite heard_snoc. f_equal.
  assert (X := pause_fold _ _ _ _ _ _ H). rewrite Q in X. cbn [pub_init p_pause] in X. rewrite <- X. cbn [heard].
  destruct (p_pause (d_pub d)); reflexivity.
Qed.

Lemma started_unpaused : forall d0, just_started d0 -> p_pause (d_pub d0) = false.
Proof. intros d0 (g1 & g2 & _ & _ & Q). rewrite Q. reflexivity. Qed.
Lemma boot_started : forall b d0 acts, start_ok b -> boot b = Some (d0, acts) -> just_started d0.
Proof.
  intros b d0 acts S E. destruct (boot_pub b d0 acts S E) as (Q & _). destruct S as (_ & _ & _ & _ & _ & G1 & G2). exists (b_g1 b), (b_g2 b). auto.
Qed.

Lemma met_app : forall a b, met (a ++ b) = met a ++ met b.
Proof. intros. unfold met. apply flat_map_app. Qed.

(** Each event that is not an upload: two switches if it publishes a frame and the option is set, none otherwise *)
Lemma c86_frames : forall fuel sgn d0 es e bd os, just_started d0 ->
  Forall is_byte (map snd (heard false (met es ++ [e]))) ->
  brun fuel sgn (es ++ [Meets e]) (board_of d0) = Done (Some bd, os) -> (forall a u, e <> DUpload a u) ->
  exists b1 os1, brun fuel sgn es (board_of d0) = Done (Some b1, os1) /\
  (switched (last os []) = [true; false] \/ switched (last os []) = []) /\
  (switched (last os []) <> [] <-> bit 0 Options (cfg_of (b_dev b1)) = true /\ (exists a up tv c, e = DByte a up tv c) /\
    ~ suspended (uploads (met es)) /\
    exists t0 bodies, frame_ends (heard false (met es ++ [e])) t0 bodies /\ valid_frame bodies).
Proof.
  intros fuel sgn d0 es e bd os S B H NU. apply brun_snoc in H. destruct H as (b1 & os1 & o & H1 & H2 & ->).
  exists b1, os1. split; [exact H1|]. rewrite last_last. assert (H3 := H2). apply bstep_dev in H3. destruct H3 as (oo & D & N).
  rewrite (bstep_calm _ _ _ _ _ _ D N NU) in H2.
  match type of H2 with Done (Some ?x, ?y) = Done (Some ?x', ?y') => assert (E2 : y = y') by congruence end. rewrite <- E2, switched_flash. clear E2.
  split; [destruct (_ && _); auto|].
  assert (P := started_unpaused _ S). destruct (brun_dev _ _ _ _ _ _ H1) as (ds & R). cbn [board_of b_dev] in R.
  assert (SU := drun_pause _ _ _ _ _ _ P R).
  assert (X : published_now sgn e (b_dev b1) = true <-> (exists a up tv c, e = DByte a up tv c) /\ ~ suspended (uploads (met es)) /\
     exists t0 bodies, frame_ends (heard false (met es ++ [e])) t0 bodies /\ valid_frame bodies).
  { destruct e as [a|a up tv c|a q|a u|up].
    1,3,4,5: split; [discriminate|intros ((? & ? & ? & ? & ?) & _); discriminate].
    rewrite (heard_on _ _ _ _ _ _ tv c a up S R) in *.
    rewrite <- SU. destruct (p_pause (d_pub (b_dev b1))) eqn:Q.
    - rewrite (paused_silent _ _ _ Q). split; [discriminate|intros (_ & X & _); exfalso; apply X; reflexivity].
    - rewrite map_app in B. apply Forall_app in B. destruct B as [B1 B2]. inversion B2; subst.
      rewrite (byte_publishes fuel sgn d0 (met es) (b_dev b1) ds a up tv c S H3 B1 R Q).
      split; [intros X; split; [eauto 6|]; split; [discriminate|exact X]|tauto]. }
  destruct (published_now sgn e (b_dev b1)); cbn [andb].
  - destruct (bit 0 Options (cfg_of (b_dev b1))); split; intros Y; try tauto; try discriminate; destruct Y; discriminate.
  - split; [congruence|]. intros (_ & Y). assert (false = true) by (apply X; exact Y). discriminate.
Qed.

(** C87 *)
Lemma elapsed_app : forall a b, elapsed (a ++ b) = elapsed a + elapsed b.
Proof. induction a as [|x a IH]; intros b; [reflexivity|]. cbn [app elapsed]. rewrite IH. destruct x; lia. Qed.
Lemma elapsed_nonneg : forall a, 0 <= elapsed a.
Proof. induction a as [|x a IH]; cbn [elapsed]; [|destruct x]; lia. Qed.

Lemma quiet_step : forall fuel sgn e b r o, bstep fuel sgn (Meets e) b = Done (r, o) -> uploads_go_on [Meets e] -> no_order [Meets e] ->
  exists b', r = Some b' /\ b_tick b' = b_tick b /\ ~ In Restarted o.
Proof.
  intros fuel sgn e b r o H G Q. cbn [bstep] in H. destruct (dstep fuel sgn e (b_dev b)) as [[d os]| |] eqn:D; try discriminate.
  assert (NR : ~ In Restarted (map Other os)) by (intros I; apply in_map_iff in I; destruct I as (? & ? & _); discriminate).
  assert (N : existsb restart_now os = false /\ existsb restart_soon os = false).
  { split.
    - destruct (existsb restart_now os) eqn:X; auto. apply existsb_exists in X. destruct X as (o1 & I & Y). destruct o1; try discriminate.
      destruct (only_requests_restart _ _ _ _ _ _ D (or_intror (or_introl I))) as (a & q & ->).
      cbn [dstep] in D. destruct (handle_restart _ _ _ _ _ _ D) as (_ & B & _). destruct (Q a q (or_introl eq_refl)) as (Q1 & Q2 & Q3).
      destruct (B I) as [[B1 _]|[B1 _]]; contradiction.
    - destruct (existsb restart_soon os) eqn:X; auto. destruct (soon_flag _ _ _ _ _ _ D X) as (_ & a & q & -> & U).
      destruct (Q a q (or_introl eq_refl)) as (Q1 & _). contradiction. }
  destruct N as [N1 N2]. rewrite N1 in H.
  destruct (match e with DUpload a u => Some (a, u) | _ => None end) as [[a u]|] eqn:Y.
  - destruct e; try discriminate. injection Y as -> ->. destruct (G a u (or_introl eq_refl)) as (data & ended & ->). cbn [upload_ticker] in H.
    injection H as <- <-. eexists. split; [reflexivity|]. split; [reflexivity|exact NR].
  - assert (NU : forall a u, e <> DUpload a u) by (intros a u ->; discriminate).
    assert (H' := bstep_calm fuel sgn e b d os D N1 NU). cbn [bstep] in H'. rewrite D, N1 in H'. rewrite H' in H. rewrite N2 in H.
    match type of H with Done (?x, ?y) = Done (?x', ?y') => assert (E1 : x = x') by congruence; assert (E2 : y = y') by congruence end.
    rewrite <- E1, <- E2. eexists. split; [reflexivity|]. split; [reflexivity|]. unfold flash. destruct (_ && _); [|exact NR].
    intros [I|I]; [discriminate|]. apply in_app_or in I. destruct I as [I|[I|[]]]; [contradiction|discriminate].
Qed.

Lemma waiting : forall fuel sgn es b n r os, b_tick b = Restarting n -> 0 < n -> uploads_go_on es -> no_order es ->
  brun fuel sgn es b = Done (r, os) -> elapsed es < n ->
  exists b', r = Some b' /\ b_tick b' = Restarting (n - elapsed es) /\ ~ In Restarted (concat os).
Proof.
  intros fuel sgn. induction es as [|e es IH]; intros b n r os K N G Q H L.
  - injection H as <- <-. exists b. cbn [elapsed]. rewrite Z.sub_0_r. auto.
  - assert (G1 : uploads_go_on es) by (intros a u I; apply (G a u); right; exact I).
    assert (Q1 : no_order es) by (intros a q I; apply (Q a q); right; exact I). cbn [brun] in H. destruct e as [|e].
    + cbn [bstep] in H. unfold pass in H. rewrite K in H. cbn [elapsed] in *. assert (E := elapsed_nonneg es).
      destruct (n - 1 <=? 0) eqn:X; [apply Z.leb_le in X; lia|]. 
      destruct (brun fuel sgn es _) as [[r1 os1]| |] eqn:R; try discriminate. injection H as <- <-.
      destruct (IH (mk_board (b_dev b) (b_lit b) (Restarting (n - 1))) (n - 1) _ _ eq_refl ltac:(apply Z.leb_gt in X; lia) G1 Q1 R ltac:(lia)) as (b' & -> & K' & NI).
      exists b'. split; [reflexivity|]. split; [rewrite K'; apply (f_equal Restarting); lia|exact NI].
    + destruct (bstep fuel sgn (Meets e) b) as [[r1 o]| |] eqn:S; try discriminate.
      destruct (quiet_step _ _ _ _ _ _ S) as (b1 & -> & K1 & NI).
      { intros a u [I|[]]. apply (G a u). left. exact I. } { intros a q [I|[]]. apply (Q a q). left. exact I. }
      destruct (brun fuel sgn es b1) as [[r2 os2]| |] eqn:R; try discriminate. injection H as <- <-. cbn [elapsed] in *.
      destruct (IH b1 n _ _ ltac:(congruence) N G1 Q1 R L) as (b' & -> & K' & NI').
      exists b'. split; [reflexivity|]. split; [exact K'|]. cbn [concat]. intros I. apply in_app_or in I. tauto.
Qed.

Lemma soon_tick : forall fuel sgn a q b b' o, bstep fuel sgn (Meets (DHttp a q)) b = Done (Some b', o) -> In (Other RestartSoon) o ->
  b_tick b' = Restarting 500.
Proof.
  intros fuel sgn a q b b' o H I. assert (H3 := H). apply bstep_dev in H3. destruct H3 as (oo & D & N).
  rewrite (bstep_calm _ _ _ _ _ _ D N) in H by discriminate. unfold flash in H. cbn [published_now andb] in H.
  assert (J : In RestartSoon oo).
  { assert (E : map Other oo = o) by congruence. rewrite <- E in I. apply in_map_iff in I. destruct I as (x & X & Y). congruence. }
  assert (X : existsb restart_soon oo = true) by (apply existsb_exists; exists RestartSoon; auto). rewrite X in H.
  injection H as <- _. reflexivity.
Qed.

(** The restart comes 500 ms after the request *)
Lemma c87_restart : forall fuel sgn es1 a q es2 d r os, uploads_go_on es2 -> no_order es2 ->
  brun fuel sgn (es1 ++ Meets (DHttp a q) :: es2) (board_of d) = Done (r, os) ->
  In (Other RestartSoon) (nth (length es1) os []) ->
  (elapsed es2 < 500 -> r <> None) /\
  (forall e3 e4, es2 = e3 ++ Ms :: e4 -> elapsed e3 = 499 ->
     r = None /\ length os = length (es1 ++ Meets (DHttp a q) :: e3 ++ [Ms]) /\ last os [] = [Restarted]).
Proof.
  intros fuel sgn es1 a q es2 d r os G Q H I. rewrite brun_app in H.
  destruct (brun fuel sgn es1 (board_of d)) as [[[b1|] os1]| |] eqn:H1; try discriminate.
  2: { injection H as <- <-. exfalso. 
       assert (X : forall es b o, brun fuel sgn es b = Done (None, o) -> (length o <= length es)%nat).
       { clear. induction es as [|e es IH]; intros b o H; [discriminate|]. cbn [brun] in H. destruct (bstep fuel sgn e b) as [[[b1|] o1]| |]; try discriminate.
         - destruct (brun fuel sgn es b1) as [[r2 o2]| |] eqn:R; try discriminate. injection H as -> <-. cbn [length]. apply IH in R. lia.
         - injection H as <-. cbn [length]. lia. }
       rewrite nth_overflow in I by eauto. exact I. }
  assert (LE : length os1 = length es1).
  { revert H1. generalize (board_of d). clear. intros b. revert b b1 os1. induction es1 as [|e es IH]; intros b b1 os1 H; cbn [brun] in H; [injection H as _ <-; reflexivity|].
    destruct (bstep fuel sgn e b) as [[[b2|] o1]| |]; try discriminate. destruct (brun fuel sgn es b2) as [[r2 o2]| |] eqn:R; try discriminate.
    injection H as -> <-. cbn [length]. f_equal. eauto. }
  cbn [brun] in H. destruct (bstep fuel sgn (Meets (DHttp a q)) b1) as [[[b2|] o]| |] eqn:H2; try discriminate.
  2: { injection H as <- <-. exfalso. rewrite app_nth2, LE, Nat.sub_diag in I by lia. cbn [nth] in I.
       cbn [bstep] in H2. destruct (dstep fuel sgn (DHttp a q) (b_dev b1)) as [[x y]| |] eqn:D; try discriminate.
       destruct (existsb restart_now y) eqn:N; [|discriminate]. injection H2 as <-. apply in_app_or in I. destruct I as [I|[I|[]]]; [|discriminate].
       assert (J : In RestartSoon y) by (apply in_map_iff in I; destruct I as (z & Z1 & Z2); congruence).
       apply existsb_exists in N. destruct N as (z & Z1 & Z2). destruct z; try discriminate. cbn [dstep] in D.
       destruct (handle_restart _ _ _ _ _ _ D) as (A & B & _). destruct (A J) as (A1 & _). destruct (B Z1) as [[B1 _]|[B1 _]]; rewrite A1 in B1; discriminate. }
  assert (I' : In (Other RestartSoon) o).
  { destruct (brun fuel sgn es2 b2) as [[b3 o2]| |]; try discriminate. injection H as <- <-. rewrite app_nth2, LE, Nat.sub_diag in I by lia. exact I. }
  assert (K := soon_tick _ _ _ _ _ _ _ H2 I').
  destruct (brun fuel sgn es2 b2) as [[b3 o2]| |] eqn:H3; try discriminate. injection H as <- <-. split.
  - intros L. destruct (waiting _ _ _ _ 500 _ _ K ltac:(lia) G Q H3 L) as (b' & -> & _). discriminate.
  - intros e3 e4 -> L. rewrite brun_app in H3. 
    assert (G3 : uploads_go_on e3) by (intros x u J; apply (G x u), in_or_app; auto).
    assert (Q3 : no_order e3) by (intros x u J; apply (Q x u), in_or_app; auto).
    destruct (brun fuel sgn e3 b2) as [[r3 o3]| |] eqn:H4; try discriminate.
    destruct (waiting _ _ _ _ 500 _ _ K ltac:(lia) G3 Q3 H4 ltac:(lia)) as (b4 & -> & K4 & _). rewrite L in K4.
    cbn [brun bstep] in H3. unfold pass in H3. rewrite K4 in H3. cbn in H3. injection H3 as <- <-. split; [reflexivity|].
    assert (LE3 : length o3 = length e3).
    { revert H4. clear. revert b2 b4 o3. induction e3 as [|e es IH]; intros b b1 os1 H; cbn [brun] in H; [injection H as _ <-; reflexivity|].
      destruct (bstep fuel sgn e b) as [[[b2|] o1]| |]; try discriminate. destruct (brun fuel sgn es b2) as [[r2 o2]| |] eqn:R; try discriminate.
      injection H as -> <-. cbn [length]. f_equal. eauto. }
    split.
    + rewrite !app_length. cbn [length]. rewrite !app_length. cbn [length]. lia.
    + rewrite last_app. change (o :: o3 ++ [[Restarted]]) with ((o :: o3) ++ [[Restarted]]). apply last_last.
Qed.

(** The timer restarts the module only 500 ms after such a request *)
Definition armed (es : list bevent) (os : list (list bout)) (n : Z) : Prop :=
  exists e1 a q e2, es = e1 ++ Meets (DHttp a q) :: e2 /\ In (Other RestartSoon) (nth (length e1) os []) /\ elapsed e2 = n /\
    (forall x u, In (Meets (DUpload x u)) e2 -> exists data ended, u = UpWrite data true ended).
Lemma brun_length : forall fuel sgn es b b1 os, brun fuel sgn es b = Done (Some b1, os) -> length os = length es.
Proof.
  intros fuel sgn. induction es as [|e es IH]; intros b b1 os1 H; cbn [brun] in H; [injection H as _ <-; reflexivity|].
  destruct (bstep fuel sgn e b) as [[[b2|] o1]| |]; try discriminate. destruct (brun fuel sgn es b2) as [[r2 o2]| |] eqn:R; try discriminate.
  injection H as -> <-. cbn [length]. f_equal. eauto.
Qed.
Lemma armed_inv : forall fuel sgn d es b os n, brun fuel sgn es (board_of d) = Done (Some b, os) -> b_tick b = Restarting n ->
  armed es os (500 - n).
Proof.
  intros fuel sgn d es. induction es as [|e es IH] using rev_ind; intros b os n H K; [injection H as <- <-; discriminate|].
  apply brun_snoc in H. destruct H as (b1 & os1 & o & H1 & H2 & ->). assert (LE := brun_length _ _ _ _ _ _ H1).
  assert (KEEP : forall n1, b_tick b1 = Restarting n1 -> 500 - n = 500 - n1 + elapsed [e] ->
    (forall x u, e = Meets (DUpload x u) -> exists data ended, u = UpWrite data true ended) -> armed (es ++ [e]) (os1 ++ [o]) (500 - n)).
  { intros n1 K1 E U. destruct (IH _ _ _ H1 K1) as (e1 & a & q & e2 & -> & I & L & V). exists e1, a, q, (e2 ++ [e]).
    split; [rewrite <- app_assoc; reflexivity|]. split.
    - rewrite app_nth1; [exact I|]. rewrite LE, app_length. cbn [length]. lia.
    - split; [rewrite elapsed_app; lia|]. intros x u J. apply in_app_or in J. destruct J as [J|[J|[]]]; eauto. }
  destruct e as [|e].
  - cbn [bstep] in H2. unfold pass in H2. destruct (b_tick b1) as [|m|m] eqn:K1.
    + injection H2 as <- _. congruence.
    + destruct (m - 1 <=? 0); injection H2 as <- _; discriminate.
    + destruct (m - 1 <=? 0); [discriminate|].
      assert (E1 : mk_board (b_dev b1) (b_lit b1) (Restarting (m - 1)) = b) by congruence. subst b. cbn [b_tick] in K.
      assert (m - 1 = n) by congruence. apply (KEEP m); [reflexivity|cbn [elapsed]; lia|discriminate].
  - assert (H3 := H2). apply bstep_dev in H3. destruct H3 as (oo & D & N).
    destruct (match e with DUpload a u => Some (a, u) | _ => None end) as [[a u]|] eqn:Y.
    + destruct e; try discriminate. injection Y as -> ->. cbn [bstep] in H2. rewrite D, N in H2.
      destruct u as [name len [|] ended|data [|] ended|ended|ended]; cbn [upload_ticker] in H2;
        match type of H2 with Done (Some ?x, _) = Done (Some ?x', _) => assert (E1 : b_tick x = b_tick x') by congruence end;
        rewrite <- E1 in K; cbn [b_tick] in K; try discriminate.
      apply (KEEP n); [exact K|cbn [elapsed]; lia|]. intros x u E. injection E as _ <-. eauto.
    + assert (NU : forall a u, e <> DUpload a u) by (intros a u ->; discriminate).
      rewrite (bstep_calm _ _ _ _ _ _ D N NU) in H2.
      match type of H2 with Done (Some ?x, ?y) = Done (Some ?x', ?y') => assert (E1 : x = x') by congruence; assert (E2 : y = y') by congruence end.
      rewrite <- E1 in K. cbn [b_tick] in K. destruct (existsb restart_soon oo) eqn:X.
      * assert (n = 500) by congruence. destruct (soon_flag _ _ _ _ _ _ D X) as (_ & a & q & -> & _).
        apply existsb_exists in X. destruct X as (z & Z1 & Z2). destruct z; try discriminate.
        exists es, a, q, []. split; [reflexivity|]. split; [|split; [cbn [elapsed]; lia|intros x u []]].
        rewrite app_nth2, LE, Nat.sub_diag by lia. cbn [nth]. rewrite <- E2. unfold flash. cbn [published_now andb]. apply in_map. exact Z1.
      * apply (KEEP n); [exact K|cbn [elapsed]; lia|]. intros x u E. injection E as ->. exfalso. eapply NU. reflexivity.
Qed.
Lemma c87_only : forall fuel sgn d es b os os', brun fuel sgn es (board_of d) = Done (Some b, os) ->
  p_pause (d_pub d) = false -> brun fuel sgn (es ++ [Ms]) (board_of d) = Done (None, os') ->
  exists e1 a q e2, es = e1 ++ Meets (DHttp a q) :: e2 /\ In (Other RestartSoon) (nth (length e1) os []) /\ elapsed e2 = 499 /\
    (forall x u, In (Meets (DUpload x u)) e2 -> exists data ended, u = UpWrite data true ended).
Proof.
  intros fuel sgn d es b os os' H P H2. rewrite brun_app, H in H2. cbn [brun bstep] in H2. unfold pass in H2.
  destruct (brun_ok _ _ _ _ _ _ (start_tick d P) H) as (T & _). unfold tick_ok in T.
  destruct (b_tick b) as [|n|n] eqn:K; [discriminate| |].
  - destruct (n - 1 <=? 0); discriminate.
  - destruct (n - 1 <=? 0) eqn:X; [|discriminate]. apply Z.leb_le in X. assert (n = 1) by lia. subst n. exact (armed_inv _ _ _ _ _ _ _ H K).
Qed.

Lemma idle : forall fuel sgn n b, b_tick b = Stopped -> brun fuel sgn (repeat Ms n) b = Done (Some b, repeat [] n).
Proof.
  intros fuel sgn n b K. induction n as [|n IH]; [reflexivity|]. cbn [repeat brun bstep]. unfold pass. rewrite K, IH. reflexivity.
Qed.
