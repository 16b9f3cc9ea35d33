(** Exactly what brings the module down, over its whole life (C65). *)
From Coq Require Import ZArith List Bool Lia ZifyBool.
From Verif Require Import Base BaseFacts Teleinfo TeleinfoSpec Publish Config ConfigSpec ConfigProofs ConfigHist
  Tic TicSpec TemplateProofs Pages Sse SseSpec SseProofs Cpu Web Wifi Device WebSpec WebProofs
  DeviceProofs DeviceMain DeviceSafe RequestSafe Cli CliSpec CliProofs Life LifeSpec LifeProofs FatalSpec FatalProofs.
Import ListNotations.
Open Scope Z_scope.

Lemma some_snd : forall A B (x x' : A) (y y' : B), Some (x, y) = Some (x', y') -> y = y'.
Proof. congruence. Qed.
Lemma nil_sent : forall w r, ~ In (Did (Sent w r)) [].
Proof. intros w r []. Qed.
Lemma print_sent : forall w r t, ~ In (Did (Sent w r)) [Printed t].
Proof. intros w r t [I|[]]. discriminate. Qed.
Lemma restart_sent : forall w r, ~ In (Did (Sent w r)) [Did RestartNow].
Proof. intros w r [I|[]]. discriminate. Qed.
Lemma erase_sent : forall w r, ~ In (Did (Sent w r)) [Did EraseSdk; Did RestartNow].
Proof. intros w r [I|[I|[]]]; discriminate. Qed.
Lemma stream_sent : forall w r o, ~ In (Did (Sent w r)) (map (fun e => Did (Streaming e)) o).
Proof. intros w r o I. apply in_map_iff in I. destruct I as (x & I & _). discriminate. Qed.
Lemma command_sent : forall a up raw c d d' o w r, run_command a up raw c d = Some (d', o) -> ~ In (Did (Sent w r)) o.
Proof.
  intros a up raw c d d' o w r. destruct c; cbn [run_command]; intros H.
  - apply some_snd in H. subst o. apply nil_sent.
  - destruct (handle_clients _ _ _) as [[s1 o1]|]; [|discriminate]. apply some_snd in H. subst o. apply stream_sent.
  - apply some_snd in H. subst o. apply nil_sent.
  - apply some_snd in H. subst o. apply print_sent.
  - apply some_snd in H. subst o. apply print_sent.
  - destruct (cli_dump _); [|discriminate]. apply some_snd in H. subst o. apply print_sent.
  - destruct (tic_dump _ _ _); [|discriminate]. apply some_snd in H. subst o. apply print_sent.
  - destruct args as [|what args]; [apply some_snd in H; subst o; apply print_sent|].
    destruct (beq what (str "timers")); [apply some_snd in H; subst o; apply nil_sent|].
    destruct (beq what (str "wifi")).
    { destruct (cli_wifi _ _ _ _); [|discriminate]. apply some_snd in H. subst o. apply restart_sent. }
    destruct (beq what (str "ap")).
    { destruct (cli_ap _ _ _ _); [|discriminate]. apply some_snd in H. subst o. apply restart_sent. }
    apply some_snd in H. subst o. apply nil_sent.
  - destruct args as [|what args]; apply some_snd in H; subst o; [apply print_sent|].
    destruct (has_prefix (str "ver") what); [apply print_sent|apply nil_sent].
  - destruct (beq arg (str "restart")); [apply some_snd in H; subst o; apply restart_sent|].
    destruct (beq arg (str "reset")); [|apply some_snd in H; subst o; apply nil_sent].
    destruct (cli_erase _ _); [|discriminate]. apply some_snd in H. subst o. apply erase_sent.
  - apply some_snd in H. subst o. apply nil_sent.
Qed.
Lemma did_sent : forall w r o, In (Did (Sent w r)) (map Did o) <-> In (Sent w r) o.
Proof.
  intros w r o. rewrite in_map_iff. split; [|eauto]. intros (x & X & I). injection X as ->. exact I.
Qed.
Lemma receive_kept : forall sgn a up tv c d d' o, dev_ok sgn d -> is_byte c -> receive sgn a up tv c d = Some (d', o) -> dev_ok sgn d'.
Proof.
  intros sgn a up tv c d d' o H Hc E. apply (dstep_keeps 256 sgn (DByte a up tv c) d d' o H Hc). cbn [dstep]. rewrite E. reflexivity.
Qed.
Lemma serial_exact : forall bd a up tv c raw d cl, build_ok bd -> dev_ok (bd_signed bd) d -> Forall is_byte (cl_input cl) -> is_byte c ->
  length raw = 350%nat ->
  (serial_byte bd a up tv c raw d cl = None <-> fatal_serial bd a up tv c raw d cl) /\
  (forall d' cl' o, serial_byte bd a up tv c raw d cl = Some (d', cl', o) -> dev_ok (bd_signed bd) d' /\ Forall is_byte (cl_input cl')).
Proof.
  intros bd a up tv c raw d cl K H Hi Hc L. unfold fatal_serial, serial_byte.
  assert (RX := receive_exact (bd_signed bd) a up tv c d H Hc). unfold fatal_byte in RX.
  destruct (bd_cli bd).
  - destruct (cli_loop_read c cl) as ((cl1, r1), line) eqn:E. destruct (read_input _ _ _ _ _ Hc Hi E) as (Hi' & Hr & Hl).
    destruct line as [l|].
    + destruct (command_some _ a up raw (bd_parse bd l) d H (K l Hl) L) as (d1 & o1 & -> & H1 & _).
      destruct Hr as [-> |[_ X]]; [|discriminate]. cbn [Z.eqb negb]. split.
      * split; [discriminate|]. intros (_ & d' & cl' & o & w & r & X & I & _).
        destruct (run_command a up raw (bd_parse bd l) (no_url d)) as [[d3 o3]|] eqn:R; [|discriminate].
        injection X as <- <- <-. cbn [map] in I. rewrite app_nil_r in I. destruct I as [I|I]; [discriminate|].
        destruct (command_sent _ _ _ _ _ _ _ _ _ R I).
      * intros d' cl' o X. injection X as <- <- <-. auto.
    + destruct Hr as [-> |[-> _]].
      * cbn [Z.eqb negb]. split.
        -- split; [discriminate|]. intros (_ & d' & cl' & o & w & r & X & I & _). injection X as <- <- <-. destruct I.
        -- intros d' cl' o X. injection X as <- <- <-. auto.
      * replace (negb (c =? -1)) with true by (unfold is_byte in Hc; lia). split.
        -- split.
           ++ intros N. destruct (receive (bd_signed bd) a up tv c d) as [[d2 o2]|]; [discriminate|].
              destruct (proj1 RX eq_refl) as (R & d3 & o3 & w & r & X & I & O). split; [exact R|]. rewrite X. cbn [app].
              exists d3, cl1, (map Did o3), w, r. split; [reflexivity|]. split; [apply did_sent; exact I|exact O].
           ++ intros (R & d3 & cl3 & o3 & w & r & X & I & O). cbn [app] in *.
              destruct (receive (bd_signed bd) a up tv c (no_url d)) as [[d4 o4]|]; [|discriminate]. injection X as <- <- <-.
              rewrite (proj2 RX); [reflexivity|]. split; [exact R|]. exists d4, o4, w, r. split; [reflexivity|]. split; [apply did_sent; exact I|exact O].
        -- intros d' cl' o X. destruct (receive (bd_signed bd) a up tv c d) as [[d2 o2]|] eqn:R; [|discriminate]. injection X as <- <- <-.
           split; [eapply receive_kept; eauto|exact Hi'].
  - split.
    + split.
      * intros N. destruct (receive (bd_signed bd) a up tv c d) as [[d2 o2]|]; [discriminate|].
        destruct (proj1 RX eq_refl) as (R & d3 & o3 & w & r & X & I & O). split; [exact R|]. rewrite X.
        exists d3, cl, (map Did o3), w, r. split; [reflexivity|]. split; [apply did_sent; exact I|exact O].
      * intros (R & d3 & cl3 & o3 & w & r & X & I & O).
        destruct (receive (bd_signed bd) a up tv c (no_url d)) as [[d4 o4]|]; [|discriminate]. injection X as <- <- <-.
        rewrite (proj2 RX); [reflexivity|]. split; [exact R|]. exists d4, o4, w, r. split; [reflexivity|]. split; [apply did_sent; exact I|exact O].
    + intros d' cl' o X. destruct (receive (bd_signed bd) a up tv c d) as [[d2 o2]|] eqn:R; [|discriminate]. injection X as <- <- <-.
      split; [eapply receive_kept; eauto|exact Hi].
Qed.

Lemma lstep_exact : forall fuel bd e m, build_ok bd -> mod_ok (bd_signed bd) m -> any_life e -> (256 <= fuel)%nat ->
  (lstep fuel bd e m = Undefined <-> fatal_in_life bd e m) /\ (lstep fuel bd e m = OutOfFuel <-> endless_in_life fuel e m) /\
  (forall m' o, lstep fuel bd e m = Done (m', o) -> mod_ok (bd_signed bd) m').
Proof.
  intros fuel bd e m K H O F. destruct e as [b|e raw]; cbn [lstep].
  - fold (with_flash (flash_of m) b). destruct (boot_dev_ok (bd_signed bd) (with_flash (flash_of m) b)) as (d & acts & -> & D).
    { apply with_flash_ok; [exact O|eapply mod_flash; eauto]. }
    cbn [lift fatal_in_life endless_in_life]. split; [split; [discriminate|intros []]|]. split; [split; [discriminate|intros []]|].
    intros m' o X. injection X as <- _. split; [exact D|constructor].
  - destruct m as [f|d cl].
    { replace (fatal_in_life bd (Event e raw) (Off f)) with False by (destruct e; reflexivity).
      replace (endless_in_life fuel (Event e raw) (Off f)) with False by (destruct e; reflexivity).
      split; [split; [discriminate|intros []]|]. split; [split; [discriminate|intros []]|]. intros m' o X. injection X as <- _. exact H. }
    destruct O as (O & L). destruct H as (H & Hi).
    assert (A : forall d' cl' o x y, dev_ok (bd_signed bd) d' -> Forall is_byte (cl_input cl') -> Done (after d' cl' o) = Done (x, y) -> mod_ok (bd_signed bd) x).
    { intros d' cl' o x y D' I' X. injection X as X. change x with (fst (x, y)). rewrite <- X. apply after_ok; auto. }
    destruct (dstep_exact fuel (bd_signed bd) e d H O F) as (DU & DE).
    assert (X : match e with DByte _ _ _ _ => True | _ =>
      let r := match dstep fuel (bd_signed bd) e d with
        | Done (d', o) => Done (after d' cl (map Did o)) | Undefined => Undefined | OutOfFuel => OutOfFuel end in
      (r = Undefined <-> fatal (bd_signed bd) e d) /\ (r = OutOfFuel <-> endless fuel e d) /\ (forall m' o, r = Done (m', o) -> mod_ok (bd_signed bd) m') end).
    { destruct (dstep fuel (bd_signed bd) e d) as [[d' o]| |] eqn:S.
      - assert (H' := dstep_keeps _ _ _ _ _ _ H O S).
        destruct e; try exact Logic.I; cbv zeta; rewrite <- DU, <- DE; (split; [split; discriminate|]); (split; [split; discriminate|]); intros m' o' Y; eapply A; eauto.
      - destruct e; try exact Logic.I; cbv zeta; rewrite <- DU, <- DE; (split; [split; reflexivity|]); (split; [split; discriminate|]); discriminate.
      - destruct e; try exact Logic.I; cbv zeta; rewrite <- DU, <- DE; (split; [split; discriminate|]); (split; [split; reflexivity|]); discriminate. }
    destruct e; try exact X. cbn [fatal_in_life endless_in_life].
    destruct (serial_exact bd a up tv c raw d cl K H Hi O L) as (SX & SK).
    rewrite <- SX. destruct (serial_byte bd a up tv c raw d cl) as [[[d' cl'] o]|]; cbn [lift].
    + split; [split; discriminate|]. split; [split; [discriminate|intros []]|]. intros m' o' Y. destruct (SK _ _ _ eq_refl). eapply A; eauto.
    + split; [split; reflexivity|]. split; [split; [discriminate|intros []]|]. discriminate.
Qed.
Lemma lrun_exact : forall fuel bd es m0, build_ok bd -> mod_ok (bd_signed bd) m0 -> Forall any_life es -> (256 <= fuel)%nat ->
  (lrun fuel bd es m0 = Undefined <->
   exists es1 e es2 m os, es = es1 ++ e :: es2 /\ lrun fuel bd es1 m0 = Done (m, os) /\ fatal_in_life bd e m) /\
  (lrun fuel bd es m0 = OutOfFuel <->
   exists es1 e es2 m os, es = es1 ++ e :: es2 /\ lrun fuel bd es1 m0 = Done (m, os) /\ endless_in_life fuel e m).
Proof.
  intros fuel bd es m0 B. revert m0. induction es as [|e es IH]; intros m0 H K F.
  { cbn [lrun]. split; (split; [discriminate|]); intros ([|x es1] & y & es2 & d & os & X & _); discriminate. }
  apply Forall_cons_iff in K. destruct K as [K Ks]. destruct (lstep_exact fuel bd e m0 B H K F) as (DU & DE & DK). cbn [lrun].
  destruct (lstep fuel bd e m0) as [[d1 o1]| |] eqn:S.
  - destruct (IH d1 (DK _ _ eq_refl) Ks F) as (IU & IE).
    assert (G : forall P : levent -> module -> Prop, ~ P e m0 ->
      ((exists es1 y es2 d os, es = es1 ++ y :: es2 /\ lrun fuel bd es1 d1 = Done (d, os) /\ P y d) <->
       exists es1 y es2 d os, e :: es = es1 ++ y :: es2 /\ lrun fuel bd es1 m0 = Done (d, os) /\ P y d)).
    { intros P N. split.
      - intros (es1 & y & es2 & d & os & -> & R & X). exists (e :: es1), y, es2, d, (o1 :: os). cbn [lrun app]. rewrite S, R. auto.
      - intros ([|x es1] & y & es2 & d & os & X & R & Y); cbn [app lrun] in *.
        + injection X as <- <-. injection R as <- _. contradiction.
        + injection X as <- ->. rewrite S in R. destruct (lrun fuel bd es1 d1) as [[d2 os2]| |] eqn:R1; try discriminate.
          injection R as <- _. exists es1, y, es2, d2, os2. auto. }
    rewrite <- (G (fatal_in_life bd)) by (intros X; apply DU in X; discriminate).
    rewrite <- (G (endless_in_life fuel)) by (intros X; apply DE in X; discriminate).
    rewrite <- IU, <- IE. destruct (lrun fuel bd es d1) as [[d2 os2]| |]; split; split; congruence.
  - split; split; try discriminate; try reflexivity.
    + intros _. exists [], e, es, m0, []. split; [reflexivity|]. split; [reflexivity|]. now apply DU.
    + intros ([|x es1] & y & es2 & d & os & X & R & Y); cbn [app lrun] in *.
      * injection X as <- <-. injection R as <- _. apply DE in Y. discriminate.
      * injection X as <- ->. rewrite S in R. discriminate.
  - split; split; try discriminate; try reflexivity.
    + intros ([|x es1] & y & es2 & d & os & X & R & Y); cbn [app lrun] in *.
      * injection X as <- <-. injection R as <- _. apply DU in Y. discriminate.
      * injection X as <- ->. rewrite S in R. discriminate.
    + intros _. exists [], e, es, m0, []. split; [reflexivity|]. split; [reflexivity|]. now apply DE.
Qed.
Lemma c65_exact : forall fuel bd flash es, build_ok bd -> flash_ok flash -> Forall any_life es -> (256 <= fuel)%nat ->
  (lrun fuel bd es (Off flash) = Undefined <->
   exists es1 e es2 m os, es = es1 ++ e :: es2 /\ lrun fuel bd es1 (Off flash) = Done (m, os) /\ fatal_in_life bd e m) /\
  (lrun fuel bd es (Off flash) = OutOfFuel <->
   exists es1 e es2 m os, es = es1 ++ e :: es2 /\ lrun fuel bd es1 (Off flash) = Done (m, os) /\ endless_in_life fuel e m).
Proof. intros. apply lrun_exact; auto. Qed.

(** ** The URL field, as the program fills it *)
Lemma c57_url : forall url, Forall (fun c => c <> 0) url -> (length url <= 150)%nat ->
  (runs_out (url ++ repeat 0 (151 - length url)) <-> length url = 150%nat /\ unterminated url = true).
Proof.
  intros url N L. split.
  - intros R. destruct (runs_dec_data) as (e & t & P). specialize (R e t [] P).
    destruct (Nat.eq_dec (length url) 150) as [E|E].
    + split; [exact E|]. destruct (unterminated url) eqn:U; [reflexivity|]. rewrite E in R. cbn [Nat.sub repeat] in R.
      destruct (c18 e t [] url [] P N) as (A & _ & _). destruct (A U) as [u X]. congruence.
    + destruct (c18 e t [] url (repeat 0 (150 - length url)) P N) as (_ & B & _).
      replace (151 - length url)%nat with (S (150 - length url)) in R by lia. cbn [repeat] in R.
      destruct (B (repeat 0 (149 - length url))) as [u X]; [|congruence].
      replace (150 - length url)%nat with (S (149 - length url)) by lia. reflexivity.
  - intros (E & U) e t n P. rewrite E. cbn [Nat.sub repeat]. destruct (c18 e t n url [] P N) as (_ & _ & C). auto.
Qed.
