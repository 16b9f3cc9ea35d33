(** Proofs: a login keeps strangers out. *)
From Coq Require Import ZArith List Bool Lia.
From Verif Require Import Base BaseFacts Config ConfigSpec ConfigProofs ConfigMain ConfigHist ConfigFinal Tic Pages Sse Web Device WebSpec WebProofs WebSamples
  DeviceProofs DeviceMain Cli CliSpec Life LifeSpec LifeProofs LifeMain LifeFinal LoginSpec.
Import ListNotations.
Open Scope Z_scope.

Lemma only_response_on : forall d cl o, Forall only_response o -> after d cl (map Did o) = (On d cl, map Did o).
Proof.
  intros d cl o H. unfold after. assert (X : existsb restarts (map Did o) = false).
  { induction H as [|x o X H IH]; [reflexivity|]. cbn [map existsb]. rewrite IH. destruct x; try destruct X; reflexivity. }
  rewrite X. reflexivity.
Qed.
Lemma demanded : forall fuel bd d cl, (256 <= fuel)%nat -> text Username (cfg_of d) <> [] ->
  demands fuel bd (text Username (cfg_of d)) (text Password (cfg_of d)) (On d cl).
Proof.
  intros fuel bd d cl F U. split.
  - intros a q raw R (_ & L & _). assert (X : refused q d) by (split; assumption).
    destruct (c32 fuel a a q d d X X (fun p => eq_refl) L F) as (o & E & _ & O). exists o.
    split; [cbn [lstep dstep]; rewrite E, only_response_on by exact O; reflexivity|]. split; [exact O|]. split.
    + intros P. rewrite (c32_challenge _ _ _ _ X P) in E. congruence.
    + intros a' d' cl' S X'. destruct (c32 fuel a a' q d d' X X' S L F) as (o' & E1 & E2 & _).
      assert (o' = o) by congruence. subst o'. cbn [lstep dstep]. rewrite E2, only_response_on by exact O. reflexivity.
  - intros q A. split; [intros (_ & X); congruence|]. intros P. right. auto.
Qed.

Lemma nobody_step : forall fuel bd r flash e m m' o, mod_ok (bd_signed bd) m -> ordinary_life e ->
  (forall chip, settings_at_start chip flash r) -> s_ssid r <> [] -> s_username r <> [] -> nobody_changes (s_username r) (s_password r) e ->
  (forall line, In (Command line) o -> ~ writer (bd_parse bd line)) ->
  keeps_using r flash m -> lstep fuel bd e m = Done (m', o) -> keeps_using r flash m'.
Proof.
  intros fuel bd r flash e m m' o H O S N U L W (K1 & K2) E. destruct e as [b|e raw].
  - apply (keeps_step fuel bd r flash (PowerOn b) m m' o); try assumption; split; auto.
  - destruct m as [f|d cl]; [injection E as <- <-; split; auto|]. destruct O as (O & O').
    destruct (event_effect _ _ _ _ _ _ _ _ O E) as (d' & cl' & A & [C|[(a & q & -> & C)|(l & I & C)]]).
    + destruct (after_cases _ _ _ _ _ A) as (_ & [-> | ->]); (split; [cbn [flash_of] in *; congruence|]); [|exact Logic.I].
      unfold cfg_of in *. rewrite C. exact K2.
    + cbn [nobody_changes] in L. destruct (view_texts _ _ K2) as (_ & V1 & _ & _ & _ & V2). exfalso.
      destruct L as [L|(L1 & L2)].
      * rewrite <- V1, <- V2 in L. rewrite <- V1 in U. destruct C as [(_ & C)|(_ & [C|(C & _)])]; [apply C; split; auto|congruence|congruence].
      * destruct C as [(C & _)|(C & _)]; contradiction.
    + destruct (W l I C).
Qed.
Lemma nobody_run : forall fuel bd r flash, build_ok bd -> (forall chip, settings_at_start chip flash r) -> s_ssid r <> [] -> s_username r <> [] ->
  forall es m m' os, mod_ok (bd_signed bd) m -> Forall ordinary_life es -> Forall (nobody_changes (s_username r) (s_password r)) es ->
  (forall line, In (Command line) (concat os) -> ~ writer (bd_parse bd line)) ->
  keeps_using r flash m -> lrun fuel bd es m = Done (m', os) -> keeps_using r flash m'.
Proof.
  intros fuel bd r flash B S N U. induction es as [|e es IH]; intros m m' os H O L W K E; cbn [lrun] in E; [injection E as <- <-; exact K|].
  apply Forall_cons_iff in O. destruct O as (O & Os). apply Forall_cons_iff in L. destruct L as (L & Ls).
  destruct (lstep fuel bd e m) as [[m1 o]| |] eqn:E1; try discriminate.
  destruct (lrun fuel bd es m1) as [[m2 os2]| |] eqn:R; try discriminate. injection E as <- <-. cbn [concat] in W.
  assert (W1 : forall line, In (Command line) o -> ~ writer (bd_parse bd line)) by (intros l J; apply W, in_or_app; auto).
  assert (W2 : forall line, In (Command line) (concat os2) -> ~ writer (bd_parse bd line)) by (intros l J; apply W, in_or_app; auto).
  apply (IH m1 m2 os2); [apply (lstep_ok fuel bd e m m1 o); assumption|exact Os|exact Ls|exact W2| |exact R].
  apply (nobody_step fuel bd r flash e m m1 o); assumption.
Qed.
Lemma demands_kept : forall fuel bd r flash m, (256 <= fuel)%nat -> s_username r <> [] -> keeps_using r flash m ->
  demands fuel bd (s_username r) (s_password r) m.
Proof.
  intros fuel bd r flash m F U (_ & K). destruct m as [f|d cl]; [exact I|].
  destruct (view_texts _ _ K) as (_ & V1 & _ & _ & _ & V2). rewrite <- V1, <- V2 in *. apply demanded; assumption.
Qed.

Lemma c104_strangers : forall fuel bd flash es1 d cl os1 es2 m os2, (256 <= fuel)%nat -> build_ok bd -> flash_ok flash ->
  Forall ordinary_life (es1 ++ es2) -> lrun fuel bd es1 (Off flash) = Done (On d cl, os1) ->
  let s := view (cfg_of d) in (forall chip, settings_at_start chip (flash_of (On d cl)) s) -> s_username s <> [] -> s_ssid s <> [] ->
  Forall (nobody_changes (s_username s) (s_password s)) es2 -> lrun fuel bd es2 (On d cl) = Done (m, os2) ->
  (forall line, In (Command line) (concat os2) -> ~ writer (bd_parse bd line)) ->
  flash_of m = flash_of (On d cl) /\ demands fuel bd (s_username s) (s_password s) m.
Proof.
  intros fuel bd flash es1 d cl os1 es2 m os2 F B K O E1 s S U N L E2 W. apply Forall_app in O. destruct O as (O1 & O2).
  assert (H : mod_ok (bd_signed bd) (On d cl)) by (eapply lrun_ok; [exact B| |exact O1|exact E1]; exact K).
  assert (X : keeps_using s (flash_of (On d cl)) m).
  { eapply (nobody_run fuel bd s _ B S N U es2 (On d cl)); eauto. split; reflexivity. }
  split; [apply X|]. eapply demands_kept; eauto.
Qed.
Lemma fits_cut : forall v, Forall (fun c => c <> 0) v -> (length v <= 31)%nat -> cut 31 v = v.
Proof.
  intros v H L. unfold cut. rewrite firstn_all2.
  - clear L. induction H as [|c v C H IH]; [reflexivity|]. cbn [cstr]. destruct (Z.eqb_spec c 0); [contradiction|]. f_equal. exact IH.
  - clear H. assert (X : (length (cstr v) <= length v)%nat); [|lia]. clear L.
    induction v as [|c v IH]; cbn [cstr]; [lia|]. destruct (c =? 0); cbn [length]; lia.
Qed.
Lemma c104_saved : forall fuel bd flash es1 d cl os1 a q raw es2 m o os2 u p, (256 <= fuel)%nat -> build_ok bd -> flash_ok flash ->
  Forall ordinary_life (es1 ++ Event (DHttp a q) raw :: es2) -> lrun fuel bd es1 (Off flash) = Done (On d cl, os1) ->
  q_uri q = str "/config_form.json" -> fully_allowed q d -> ticked (q_args q) "save" = true -> a_flash a = Stored ->
  ConfigSpec.posted (q_args q) "username" = u -> ConfigSpec.posted (q_args q) "password" = p -> u <> [] ->
  Forall (fun c => c <> 0) (u ++ p) -> (length u <= 31)%nat -> (length p <= 31)%nat ->
  cstr (ConfigSpec.posted (q_args q) "ssid") <> [] ->
  lrun fuel bd (Event (DHttp a q) raw :: es2) (On d cl) = Done (m, o :: os2) ->
  Forall (nobody_changes u p) es2 -> (forall line, In (Command line) (concat os2) -> ~ writer (bd_parse bd line)) ->
  o = [Did (Reply 200 Text (str "OK"))] /\ demands fuel bd u p m.
Proof.
  intros fuel bd flash es1 d cl os1 a q raw es2 m o os2 u p Fu B F O E1 Q R T S Pu Pp N Z Lu Lp Ns E2 L W.
  apply Forall_app in O. destruct O as (O1 & O2). apply Forall_cons_iff in O2. destruct O2 as (O & O2).
  assert (H : mod_ok (bd_signed bd) (On d cl)) by (eapply lrun_ok; [exact B| |exact O1|exact E1]; exact F).
  cbn [lrun] in E2. destruct (lstep fuel bd (Event (DHttp a q) raw) (On d cl)) as [[m1 o1]| |] eqn:E; try discriminate.
  destruct (lrun fuel bd es2 m1) as [[m2 os]| |] eqn:E3; try discriminate. injection E2 as <- <- <-.
  assert (R' : ~ refused q d) by (intros (X & Y); destruct R as [R|(R & _)]; congruence).
  destruct (form_step fuel bd a q raw d cl m1 o1 (proj1 H) (proj1 O) Q R' T S E) as (r & fl & G & -> & X & K).
  assert (Rf : r = false).
  { destruct r; [|reflexivity]. destruct (proj1 G eq_refl) as (Y1 & Y2 & Y3). destruct R as [R|(_ & R)]; congruence. }
  subst r. split; [reflexivity|]. apply Forall_app in Z. destruct Z as (Zu & Zp).
  assert (V : s_username (after_form false (q_args q) (view (cfg_of d))) = u /\ s_password (after_form false (q_args q) (view (cfg_of d))) = p).
  { cbn [after_form s_username s_password]. rewrite Pu, Pp, !fits_cut by assumption. auto. }
  assert (Vs : s_ssid (after_form false (q_args q) (view (cfg_of d))) <> []).
  { cbn [after_form s_ssid]. unfold cut. destruct (cstr (ConfigSpec.posted (q_args q) "ssid")); [congruence|discriminate]. }
  revert X K V Vs. generalize (after_form false (q_args q) (view (cfg_of d))). intros s X K (V1 & V2) Vs. subst u p. rewrite <- V1, <- V2 in *.
  apply (demands_kept fuel bd s fl); try assumption.
  apply (nobody_run fuel bd s fl B X Vs N es2 m1 m2 os); auto. eapply lstep_ok; eauto.
Qed.
