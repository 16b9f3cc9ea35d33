(** Proofs about the life of a module. *)
From Coq Require Import ZArith List Bool Lia ZifyBool.
From Verif Require Import Base BaseFacts Teleinfo TeleinfoSpec Publish HistorySpec PublishProofs Config ConfigSpec ConfigProofs ConfigMain ConfigHist
  DumpProofs JsonBuild JsonBuildFacts Tic TicSpec PageProofs TemplateProofs RequestProofs Pages PagesSpec PagesProofs Sse SseSpec SseProofs Cpu Web Wifi Device WebSpec WebProofs
  DeviceProofs DeviceMain DeviceSafe Cli CliSpec CliProofs CliDumpProofs EraseProofs Life LifeSpec.
Import ListNotations.
Open Scope Z_scope.

Definition with_flash (f : list Z) (b : start) : start :=
  mk_start (b_chip b) (b_mem b) f (b_o1 b) (b_o2 b) (b_o3 b) (b_status b) (b_ssid b) (b_psk b) (b_now b) (b_g1 b) (b_g2 b).
Lemma with_flash_ok : forall f b, start_ok b -> flash_ok f -> start_ok (with_flash f b).
Proof. intros f b (A & B & C & D & E & F & G) H. unfold start_ok, with_flash. cbn. split; [exact A|split; [exact B|split; [exact H|split; [exact D|split; [exact E|split; [exact F|exact G]]]]]]. Qed.

(** ** Safety *)
Definition mod_ok (sgn : bool) (m : module) : Prop :=
  match m with Off f => flash_ok f | On d cl => dev_ok sgn d /\ Forall is_byte (cl_input cl) end.
Lemma dev_flash : forall sgn d, dev_ok sgn d -> flash_ok (e_flash (c_ee (d_cs d))).
Proof. intros sgn d [A _ _ _ _]. destruct (reachable_inv _ A) as (_ & _ & _ & F & _). exact F. Qed.
Lemma mod_flash : forall sgn m, mod_ok sgn m -> flash_ok (flash_of m).
Proof. intros sgn [f|d cl] H; [exact H|]. destruct H as [H _]. eapply dev_flash; eauto. Qed.

Lemma after_ok : forall sgn d cl o, dev_ok sgn d -> Forall is_byte (cl_input cl) -> mod_ok sgn (fst (after d cl o)).
Proof. intros sgn d cl o A B. unfold after. destruct (existsb restarts o); cbn; [eapply dev_flash; eauto|auto]. Qed.

Lemma dev_cs : forall sgn d s, dev_ok sgn d -> reachable s -> dev_ok sgn (with_cs s d).
Proof. intros sgn d s [A B C D E] H. constructor; auto. Qed.
Lemma dev_sse : forall sgn d s, dev_ok sgn d -> sse_ok s -> dev_ok sgn (with_sse s d).
Proof. intros sgn d s [A B C D E] H. constructor; auto. Qed.
Lemma nth_bytes : forall n args, Forall bytes args -> bytes (nth n args []).
Proof.
  intros n args H. destruct (Nat.lt_ge_cases n (length args)) as [L|L].
  - rewrite Forall_forall in H. apply H, nth_In, L.
  - rewrite nth_overflow by exact L. constructor.
Qed.
Lemma dump_some : forall sgn e raw d, dev_ok sgn d -> length raw = 350%nat -> exists t, tic_dump e raw (ti_of d) = Some t.
Proof.
  intros sgn e raw d H L. destruct H as [_ (g1 & g2 & es & A & B & C & D) _ _ _].
  destruct (TeleinfoMain.c09 sgn g1 g2 es (d_pub d) raw A B C D) as (dst' & j & gs & k & E & _); [lia|].
  unfold tic_dump, ti_of. rewrite E. eauto.
Qed.
Lemma command_some : forall sgn a up raw c d, dev_ok sgn d -> command_bytes c -> length raw = 350%nat ->
  exists d' o, run_command a up raw c d = Some (d', o) /\ dev_ok sgn d' /\ d_pub d' = d_pub d /\
    (text HUrl (cfg_of d') = text HUrl (cfg_of d) \/ existsb restarts o = true).
Proof.
  intros sgn a up raw c d H B L. assert (R := do_cs _ _ H). assert (I := reachable_inv _ R).
  destruct c; cbn [run_command].
  1, 3, 11: do 2 eexists; split; [reflexivity|split; [exact H|auto]].
  - destruct (clients_some up (Some data) (d_sse d) (do_sse _ _ H)) as (s & o & -> & S). do 2 eexists. split; [reflexivity|].
    split; [apply dev_sse; auto|auto].
  - do 2 eexists; split; [reflexivity|split; [exact H|auto]].
  - do 2 eexists; split; [reflexivity|split; [exact H|auto]].
  - destruct (c62 _ R) as (lines & -> & _). do 2 eexists; split; [reflexivity|split; [exact H|auto]].
  - destruct (dump_some _ (a_env a) raw d H L) as (t & ->). do 2 eexists; split; [reflexivity|split; [exact H|auto]].
  - destruct args as [|what args]; [do 2 eexists; split; [reflexivity|split; [exact H|auto]]|].
    destruct (beq what (str "timers")).
    { do 2 eexists. split; [reflexivity|]. split; [|auto]. destruct H as [X1 X2 X3 X4 X5]. constructor; auto. }
    destruct (beq what (str "wifi")).
    { set (x := nth 1 (what :: args) []). set (y := nth 2 (what :: args) []).
      destruct (step_inv (CliWifi (a_flash a) x y) (d_cs d)) as (s & E & _); [split; apply nth_bytes; exact B|exact I|].
      assert (E' := E). cbn [cstep] in E'. rewrite E'. do 2 eexists. split; [reflexivity|]. split; [|split; [reflexivity|right; reflexivity]].
      apply dev_cs; auto. eapply reachable_step; [exact R| |exact E]. split; apply nth_bytes; exact B. }
    destruct (beq what (str "ap")).
    { set (x := nth 1 (what :: args) []). set (y := nth 2 (what :: args) []).
      destruct (step_inv (CliAp (a_flash a) x y) (d_cs d)) as (s & E & _); [split; apply nth_bytes; exact B|exact I|].
      assert (E' := E). cbn [cstep] in E'. rewrite E'. do 2 eexists. split; [reflexivity|]. split; [|split; [reflexivity|right; reflexivity]].
      apply dev_cs; auto. eapply reachable_step; [exact R| |exact E]. split; apply nth_bytes; exact B. }
    do 2 eexists; split; [reflexivity|split; [exact H|auto]].
  - destruct args as [|what args]; do 2 eexists; (split; [reflexivity|split; [exact H|auto]]).
  - destruct (beq arg (str "restart")); [do 2 eexists; split; [reflexivity|split; [exact H|auto]]|].
    destruct (beq arg (str "reset")); [|do 2 eexists; split; [reflexivity|split; [exact H|auto]]].
    destruct (step_inv (CliErase (a_flash a)) (d_cs d) Logic.I I) as (s & E & _). assert (E' := E). cbn [cstep] in E'. rewrite E'.
    do 2 eexists. split; [reflexivity|]. split; [|split; [reflexivity|right; reflexivity]].
    apply dev_cs; auto. eapply reachable_step; [exact R| |exact E]. exact Logic.I.
Qed.

Lemma read_input : forall c cl cl' r line, is_byte c -> Forall is_byte (cl_input cl) -> cli_loop_read c cl = (cl', r, line) ->
  Forall is_byte (cl_input cl') /\ (r = -1 \/ r = c /\ line = None) /\ match line with Some l => bytes l | None => True end.
Proof.
  intros c cl cl' r line Hc H E. unfold cli_loop_read in E.
  destruct (_ || _ || _); [injection E as <- <- <-; auto|].
  destruct (_ && _ && _); [|injection E as <- <- <-; auto].
  destruct (_ || _ || _); injection E as <- <- <-; cbn [cl_input].
  - split; [constructor|]. split; [auto|]. apply Forall_app. auto.
  - split; [|auto]. apply Forall_app. auto.
Qed.
Lemma serial_some : forall bd a up tv c raw d cl, build_ok bd -> dev_ok (bd_signed bd) d -> Forall is_byte (cl_input cl) -> is_byte c ->
  length raw = 350%nat -> unterminated (text HUrl (cfg_of d)) = false ->
  exists d' cl' o, serial_byte bd a up tv c raw d cl = Some (d', cl', o) /\ dev_ok (bd_signed bd) d' /\ Forall is_byte (cl_input cl').
Proof.
  intros bd a up tv c raw d cl K H Hi Hc L U. unfold serial_byte. destruct (bd_cli bd).
  - destruct (cli_loop_read c cl) as ((cl', r), line) eqn:E. destruct (read_input _ _ _ _ _ Hc Hi E) as (Hi' & Hr & Hl).
    destruct line as [l|].
    + destruct (command_some _ a up raw (bd_parse bd l) d H (K l Hl) L) as (d1 & o1 & -> & H1 & _).
      destruct Hr as [-> |[_ X]]; [|discriminate]. cbn [Z.eqb negb]. do 3 eexists. split; [reflexivity|auto].
    + destruct Hr as [-> |[-> _]].
      * cbn [Z.eqb negb]. do 3 eexists. split; [reflexivity|auto].
      * replace (negb (c =? -1)) with true by (unfold is_byte in Hc; lia).
        destruct (receive_some _ a up tv c d H Hc U) as (d2 & o2 & -> & H2). do 3 eexists. split; [reflexivity|auto].
  - destruct (receive_some _ a up tv c d H Hc U) as (d2 & o2 & -> & H2). do 3 eexists. split; [reflexivity|auto].
Qed.

Definition url_ok (m : module) : Prop := match m with Off _ => True | On d _ => unterminated (text HUrl (cfg_of d)) = false end.
Lemma url_dec : forall m, url_ok m \/ exists d cl, m = On d cl /\ unterminated (text HUrl (cfg_of d)) = true.
Proof. intros [f|d cl]; cbn; [auto|]. destruct (unterminated _) eqn:E; eauto. Qed.
Lemma lstep_some : forall fuel bd e m, build_ok bd -> mod_ok (bd_signed bd) m -> ordinary_life e -> (256 <= fuel)%nat -> url_ok m ->
  exists m' o, lstep fuel bd e m = Done (m', o) /\ mod_ok (bd_signed bd) m'.
Proof.
  intros fuel bd e m K H O F U. destruct e as [b|e raw]; cbn [lstep].
  - fold (with_flash (flash_of m) b). destruct (boot_dev_ok (bd_signed bd) (with_flash (flash_of m) b)) as (d & acts & -> & D).
    { apply with_flash_ok; [exact O|eapply mod_flash; eauto]. }
    cbn [lift]. do 2 eexists. split; [reflexivity|]. split; [exact D|constructor].
  - destruct m as [f|d cl]; [do 2 eexists; split; [reflexivity|exact H]|]. destruct O as (O & L). destruct H as (H & Hi). cbn [url_ok] in U.
    assert (X : match e with DByte _ _ _ _ => True | _ =>
      exists m' o, match dstep fuel (bd_signed bd) e d with
        | Done (d', o) => Done (after d' cl (map Did o)) | Undefined => Undefined | OutOfFuel => OutOfFuel end = Done (m', o) /\ mod_ok (bd_signed bd) m' end).
    { destruct (dstep_some fuel (bd_signed bd) e d H O F U) as (d' & o & -> & H').
      destruct e; try exact Logic.I; (destruct (after d' cl (map Did o)) as (m' & o') eqn:E; do 2 eexists; split; [reflexivity|];
        change m' with (fst (m', o')); rewrite <- E; apply after_ok; auto). }
    destruct e; try exact X.
    destruct O as (O & _). destruct (serial_some bd a up tv c raw d cl K H Hi O L U) as (d' & cl' & o & -> & H' & Hi').
    cbn [lift]. destruct (after d' cl' o) as (m' & o') eqn:E. do 2 eexists. split; [reflexivity|].
    change m' with (fst (m', o')). rewrite <- E. apply after_ok; auto.
Qed.
Lemma lrun_some : forall fuel bd es m, build_ok bd -> mod_ok (bd_signed bd) m -> Forall ordinary_life es -> (256 <= fuel)%nat ->
  (exists m' os, lrun fuel bd es m = Done (m', os) /\ mod_ok (bd_signed bd) m') \/
  exists es1 es2 d cl os, es = es1 ++ es2 /\ lrun fuel bd es1 m = Done (On d cl, os) /\ unterminated (text HUrl (cfg_of d)) = true.
Proof.
  intros fuel bd es m K. revert m. induction es as [|e es IH]; intros m H O F; [left; exists m, []; auto|].
  apply Forall_cons_iff in O. destruct O as [O Os]. destruct (url_dec m) as [U|(d & cl & -> & U)].
  - destruct (lstep_some fuel bd e m K H O F U) as (m1 & o & E & H1).
    destruct (IH m1 H1 Os F) as [(m' & os & X & Y)|(es1 & es2 & d & cl & os & -> & X & Y)].
    + left. exists m', (o :: os). cbn [lrun]. rewrite E, X. auto.
    + right. exists (e :: es1), es2, d, cl, (o :: os). cbn [lrun app]. rewrite E, X. auto.
  - right. exists [], (e :: es), d, cl, []. auto.
Qed.
Lemma c65 : forall fuel bd flash es, build_ok bd -> flash_ok flash -> Forall ordinary_life es -> (256 <= fuel)%nat ->
  (exists m os, lrun fuel bd es (Off flash) = Done (m, os)) \/
  exists es1 es2 d cl os, es = es1 ++ es2 /\ lrun fuel bd es1 (Off flash) = Done (On d cl, os) /\
    unterminated (text HUrl (cfg_of d)) = true.
Proof.
  intros fuel bd flash es K H O F. destruct (lrun_some fuel bd es (Off flash) K H O F) as [(m & os & E & _)|R]; eauto.
Qed.
