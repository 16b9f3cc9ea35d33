(** Proofs about the terminal. *)
From Coq Require Import ZArith List Bool Lia ZifyBool ZifyNat.
From Verif Require Import Base BaseFacts Teleinfo TeleinfoSpec DecoderProofs Publish HistorySpec PublishProofs TeleinfoMain Config ConfigSpec Cli CliSpec CliProofs
  Simu SimuSpec SimuProofs Console ConsoleSpec.
Import ListNotations.
Open Scope Z_scope.

(** ** The meter of the terminal *)
Definition same_number (m : simu) : Prop := sim_ok m /\ sm_adco m = str "012345678123".
Lemma bascule_ok : forall w m, same_number m -> same_number (bascule w m).
Proof.
  intros w m [(H1 & H2 & H3 & H4 & H5 & H6 & H7 & H8) A].
  assert (B : forall v, 0 <= adps_value v < 10 ^ Z.of_nat 3).
  { intros v. unfold adps_value, ISOUSC. change (10 ^ Z.of_nat 3) with 1000. destruct ((30 <=? v) && (v <=? 999)) eqn:E; cbn [negb]; lia. }
  assert (SA : forall v, same_number (set_adps v m)) by (intros v; split; [exact (conj H1 (conj H2 (conj H3 (conj H4 (conj H5 (conj (B v) (conj H7 H8)))))))|exact A]).
  destruct w; cbn [bascule].
  - split; [exact (conj H1 (conj H2 (conj H3 (conj H4 (conj H5 (conj H6 (conj H7 H8)))))))|exact A].
  - destruct (negb (sm_adps m =? 0)); apply SA.
  - split; [|exact A]. split; [exact H1|]. split; [exact H2|]. split; [exact H3|]. split; [exact H4|]. split; [cbn [sm_pseuil]; lia|]. exact (conj H6 (conj H7 H8)).
Qed.
Lemma measures_ok : forall c p i a m, measured c p i a -> same_number m -> same_number (with_measures c p i a m).
Proof.
  intros c p i a m (C & P & I & Q) [(H1 & H2 & H3 & H4 & H5 & H6 & H7 & H8) A]. split; [|exact A]. split; [cbn; lia|]. split; [cbn; lia|]. split; [cbn; lia|]. split; [exact Q|].
  exact (conj H5 (conj H6 (conj H7 H8))).
Qed.
Lemma init_number : same_number sim_init.
Proof. split; [exact (history_ok [] (Forall_nil _))|reflexivity]. Qed.

(** ** The bytes of a frame *)
Lemma trame_ok : forall m, sim_ok m -> trame m = Some (sim_text m).
Proof.
  intros m K. unfold trame. replace (forallb _ (sim_text m)) with true; [reflexivity|]. symmetry.
  rewrite sim_text_eq by exact K. unfold frame_bytes.
  apply forallb_forall. intros x [<-|Hx]; [reflexivity|]. apply in_app_iff in Hx. destruct Hx as [Hx|[<-|[]]]; [|reflexivity].
  apply in_concat in Hx. destruct Hx as (b & Hb & Hx). apply in_map_iff in Hb. destruct Hb as (b' & <- & Hb).
  apply in_map_iff in Hb. destruct Hb as (g & <- & Hgr). assert (Q := sent_good m K). rewrite Forall_forall in Q. specialize (Q g Hgr).
  destruct Q as (_ & Q1 & Q2 & _). rewrite Forall_forall in Q1, Q2.
  destruct Hx as [<-|Hx]; [reflexivity|]. apply in_app_iff in Hx. destruct Hx as [Hx|[<-|[]]]; [|reflexivity].
  unfold enc_t, enc_group in Hx. cbn [fst snd] in Hx. apply in_app_iff in Hx. destruct Hx as [Hx|[<-|[<-|[]]]].
  + apply in_app_iff in Hx. destruct Hx as [Hx|[<-|Hx]]; [specialize (Q1 _ Hx); destruct Q1; lia|reflexivity|specialize (Q2 _ Hx); destruct Q2; lia].
  + reflexivity.
  + unfold checksum. match goal with |- context [?t mod 64] => assert (B := Z.mod_pos_bound t 64 ltac:(lia)); generalize dependent (t mod 64) end. intros. lia.
Qed.

(** A byte of the frame that is neither the first nor the last: not ETX, opens no command *)
Definition middle (c : Z) : Prop := is_byte c /\ c <> 3 /\ opens c = false.
Definition clear_char (c : Z) : bool := (33 <=? c) && (c <? 96).
Lemma clear_middle : forall l, forallb clear_char l = true -> Forall middle l.
Proof. intros l H. apply Forall_forall. intros c I. rewrite forallb_forall in H. specialize (H c I). unfold clear_char in H. unfold middle, is_byte, opens. lia. Qed.
Lemma middle_group : forall l v, forallb clear_char l = true -> forallb clear_char v = true -> Forall middle (sim_group l v).
Proof.
  intros l v L V. unfold sim_group. cbv zeta. repeat (apply Forall_app; split); try (apply clear_middle; assumption);
    (constructor; [|constructor]); unfold middle, is_byte, opens; try lia.
  match goal with |- context [Z.land ?a 63] => assert (B : 0 <= Z.land a 63 < 64) end.
  { change 63 with (Z.ones 6). rewrite Z.land_ones by lia. change (2 ^ 6) with 64. apply Z.mod_pos_bound. lia. }
  lia.
Qed.
Lemma clear_digits : forall k v, forallb clear_char (digits k v) = true.
Proof.
  intros k v. apply forallb_forall. intros c I. assert (D := digits_isdigit k v). rewrite forallb_forall in D. specialize (D c I). unfold isdigit in D. unfold clear_char. lia.
Qed.
Local Opaque sim_group.
Lemma text_shape : forall m, same_number m -> exists mid, sim_text m = 2 :: mid ++ [3] /\ Forall middle mid.
Proof.
  intros m [(H1 & H2 & H3 & H4 & H5 & H6 & H7 & H8) A]. unfold sim_text. rewrite A.
  rewrite (fmt_digits 9 (sm_hchc m)), (fmt_digits 9 (sm_hchp m)), (fmt_digits 3 (sm_iinst m)) by (auto; lia).
  rewrite (fmt_digits 5) by (change (10 ^ Z.of_nat 5) with 100000; lia). rewrite (fmt_digits 3 (sm_adps m)) by (auto; lia).
  eexists. split.
  - cbn [app]. f_equal. rewrite !app_assoc. reflexivity.
  - repeat (apply Forall_app; split); try (apply middle_group; [reflexivity|first [reflexivity|apply clear_digits]]).
    + apply middle_group; [reflexivity|]. destruct (sm_creuses m); reflexivity.
    + destruct (negb (sm_adps m =? 0)); [apply middle_group; [reflexivity|apply clear_digits]|constructor].
Qed.

Local Transparent sim_group.

(** ** Listening *)
Lemma listen_meter_byte : forall (t : timeval) c r, is_byte c -> opens c = false ->
  cli_listen ((t, c) :: r) cli_init = let '(s, data, cmds) := cli_listen r cli_init in (s, (t, c) :: data, cmds).
Proof.
  intros t c r B O. cbn [cli_listen]. unfold cli_loop_read. rewrite opens_eq, O. cbn [cl_mode cl_input cli_init andb].
  change (mk_cli false []) with cli_init. destruct (cli_listen r cli_init) as [[s data] cmds]. replace (c =? -1) with false by (unfold is_byte in B; lia). reflexivity.
Qed.
Lemma listen_chunk : forall (a : list event) r, Forall (fun c => is_byte c /\ opens c = false) (map snd a) ->
  cli_listen (a ++ r) cli_init = let '(s, data, cmds) := cli_listen r cli_init in (s, a ++ data, cmds).
Proof.
  induction a as [|[t c] a IH]; intros r F.
  - cbn [app]. destruct (cli_listen r cli_init) as [[s data] cmds]. reflexivity.
  - inversion F as [|x l [B O] Fa]; subst. cbn [app]. rewrite (listen_meter_byte t c _ B O), IH by exact Fa.
    destruct (cli_listen r cli_init) as [[s data] cmds]. reflexivity.
Qed.
Lemma listen_line : forall (t : timeval) o (b : list event) t' r, opens o = true -> Forall printable (map snd b) -> (length b < 127)%nat ->
  cli_listen ((t, o) :: b ++ (t', 13) :: r) cli_init = let '(s, data, cmds) := cli_listen r cli_init in (s, data, (map snd b ++ [13]) :: cmds).
Proof.
  intros t o b t' r O P L. unfold cli_init at 1. rewrite (listen_open false [] t o _ O).
  assert (BY : Forall is_byte (map snd b)) by (eapply Forall_impl; [|exact P]; intros c [C _]; unfold is_byte; lia).
  assert (TY : typed b = map snd b).
  { apply typed_id. intros c I. rewrite Forall_forall in P. destruct (P c I) as [C D]. unfold opens. lia. }
  assert (U : unfinished ([] ++ typed b)).
  { rewrite TY. cbn [app]. split; [rewrite map_length; exact (Nat.lt_lt_succ_r _ _ L)|]. apply forallb_forall. intros c I. rewrite Forall_forall in P. destruct (P c I) as [C D]. unfold closes. lia. }
  rewrite (listen_body b [] _ BY U). cbn [app]. rewrite TY. cbn [cli_listen]. unfold cli_loop_read.
  change ((13 =? 9) || (13 =? 27) || (13 =? 96)) with false. cbn [cl_mode cl_input andb]. change ((0 <=? 13) && (13 <=? 255)) with true. cbv iota.
  change ((13 =? 10) || (13 =? 13)) with true. cbn [orb]. change (mk_cli false []) with cli_init. destruct (cli_listen r cli_init) as [[s data] cmds]. reflexivity.
Qed.
Lemma listen_unfinished : forall (t : timeval) o (b : list event), opens o = true -> Forall printable (map snd b) -> (length b < 127)%nat ->
  exists s, cli_listen ((t, o) :: b) cli_init = (s, [], []).
Proof.
  intros t o b O P L. unfold cli_init at 1. rewrite (listen_open false [] t o _ O).
  assert (BY : Forall is_byte (map snd b)) by (eapply Forall_impl; [|exact P]; intros c [C _]; unfold is_byte; lia).
  assert (TY : typed b = map snd b).
  { apply typed_id. intros c I. rewrite Forall_forall in P. destruct (P c I) as [C D]. unfold opens. lia. }
  assert (U : unfinished ([] ++ typed b)).
  { rewrite TY. cbn [app]. split; [rewrite map_length; exact (Nat.lt_lt_succ_r _ _ L)|]. apply forallb_forall. intros c I. rewrite Forall_forall in P. destruct (P c I) as [C D]. unfold closes. lia. }
  rewrite <- (app_nil_r b). rewrite (listen_body b [] _ BY U). cbn [cli_listen]. eexists. reflexivity.
Qed.

(** ** Decoding *)
Section Decode.
  Context (sgn : bool) (garbage : list Z) (G : length garbage = 350%nat).
  Definition at_ (pre : list event) (d : decoder) : Prop := Forall is_byte (map snd pre) /\ run sgn pre (dec_init garbage) = Some d.
  Lemma at_app : forall pre a d d', at_ pre d -> Forall is_byte (map snd a) -> run sgn a d = Some d' -> at_ (pre ++ a) d'.
  Proof using. intros pre a d d' [B R] A E. split; [rewrite map_app; apply Forall_app; split; assumption|]. rewrite (run_app _ _ _ _ _ R). exact E. Qed.
  Lemma at_next : forall pre a d, at_ pre d -> Forall is_byte (map snd a) -> exists d', run sgn a d = Some d' /\ at_ (pre ++ a) d'.
  Proof using G.
    intros pre a d [B R] A. assert (BA : Forall is_byte (map snd (pre ++ a))) by (rewrite map_app; apply Forall_app; split; assumption).
    destruct (decoder_exact sgn garbage (pre ++ a) G BA) as (d' & E & _). pose proof E as E'. rewrite (run_app _ _ _ _ _ R) in E'. exists d'. split; [exact E'|]. split; assumption.
  Qed.
  Lemma ready_etx : forall pre t c d, at_ (pre ++ [(t, c)]) d -> ready d = true -> c = 3.
  Proof using G.
    intros pre t c d [B R] RD. destruct (decoder_exact sgn garbage _ G B) as (d' & E & _ & H & _). rewrite R in E. injection E as <-.
    apply H in RD. destruct RD as (t0 & bodies & (p & rest & E & F) & _). assert (L : map snd (pre ++ [(t, c)]) = map snd p ++ frame_bytes bodies) by (rewrite E, map_app, F; reflexivity).
    unfold frame_bytes in L. rewrite map_app in L. cbn [map snd] in L. change (2 :: concat (map enc_body bodies) ++ [3]) with ((2 :: concat (map enc_body bodies)) ++ [3]) in L.
    rewrite app_assoc in L. apply app_inj_tail in L. apply L.
  Qed.
  Lemma accepted_quiet : forall a pre d, at_ pre d -> Forall is_byte (map snd a) -> ~ In 3 (map snd a) -> accepted sgn a d = Some [].
  Proof using G.
    induction a as [|[t c] a IH]; intros pre d A B N; [reflexivity|]. inversion B as [|x l Bc Ba]; subst. cbn [snd] in Bc.
    destruct (at_next pre [(t, c)] d A) as (d' & R & A'); [constructor; [exact Bc|constructor]|]. cbn [run] in R. cbn [accepted].
    destruct (put sgn t c d) as [d1|] eqn:P; [|discriminate]. injection R as ->.
    rewrite (IH (pre ++ [(t, c)]) d' A' Ba) by (intro X; apply N; right; exact X).
    destruct (ready d') eqn:RD; [|reflexivity]. exfalso. apply N. left. exact (ready_etx pre t c d' A' RD).
  Qed.
  Lemma accepted_app : forall a b d d1, run sgn a d = Some d1 ->
    accepted sgn (a ++ b) d = match accepted sgn a d with Some x => match accepted sgn b d1 with Some y => Some (x ++ y) | None => None end | None => None end.
  Proof using.
    induction a as [|[t c] a IH]; intros b d d1 R.
    - injection R as ->. cbn [app accepted]. destruct (accepted sgn b d1); reflexivity.
    - cbn [run] in R. cbn [app accepted]. destruct (put sgn t c d) as [d'|] eqn:P; [|discriminate]. rewrite (IH b d' d1 R).
      destruct (accepted sgn a d') as [x|]; [|reflexivity]. destruct (accepted sgn b d1) as [y|]; [|reflexivity]. destruct (ready d'); reflexivity.
  Qed.
  Lemma frame_decodes : forall m t0 rest pre, sim_ok m -> Forall is_byte (map snd pre) -> map snd ((t0, 2) :: rest) = sim_text m ->
    exists d, run sgn (pre ++ (t0, 2) :: rest) (dec_init garbage) = Some d /\ ready d = true /\ all_pairs (d_frame d) (d_size d) = Some (expected m).
  Proof using G.
    intros m t0 rest pre K Hp E. rewrite sim_text_eq in E by exact K.
    assert (GD : Forall good_t (map (fun g => (32, g)) (sent m))) by (apply Forall_map; apply sent_good; exact K).
    assert (F : fits 0 (map enc_t (map (fun g => (32, g)) (sent m)))).
    { apply c02_short; [exact GD|]. rewrite map_map. apply sent_short. exact K. }
    destruct (c02 sgn garbage pre t0 rest (map (fun g => (32, g)) (sent m))) as (d & R & Rd & T & P); auto.
    - unfold sent. cbn [map app]. discriminate.
    - rewrite map_map. exact E.
    - exists d. split; [exact R|]. split; [exact Rd|]. rewrite P. rewrite map_map. cbn [snd]. f_equal. apply sent_shown.
  Qed.
  Lemma accepted_frame : forall m a pre d, same_number m -> at_ pre d -> map snd a = sim_text m -> accepted sgn a d = Some [Some (expected m)].
  Proof using G.
    intros m a pre d K A E. destruct (text_shape m K) as (mid & S & M). destruct a as [|[t0 c0] a]; [rewrite S in E; discriminate|].
    assert (c0 = 2) by (rewrite S in E; cbn [map snd] in E; congruence). subst c0.
    destruct (exists_last (l := a)) as (a' & [t3 c3] & ->); [intros ->; rewrite S in E; destruct mid; discriminate|].
    assert (E' := E). rewrite S in E'. cbn [map snd] in E'. rewrite map_app in E'. cbn [map snd] in E'.
    assert (X : map snd a' ++ [c3] = mid ++ [3]) by congruence. apply app_inj_tail in X. destruct X as [X ->].
    assert (BM : Forall is_byte (map snd ((t0, 2) :: a'))).
    { cbn [map snd]. constructor; [unfold is_byte; lia|]. rewrite X. eapply Forall_impl; [|exact M]. intros c C. apply C. }
    assert (NM : ~ In 3 (map snd ((t0, 2) :: a'))).
    { cbn [map snd]. intros [Y|Y]; [discriminate|]. rewrite X in Y. rewrite Forall_forall in M. destruct (M 3 Y) as (_ & Z & _). congruence. }
    destruct (at_next pre ((t0, 2) :: a') d A BM) as (d1 & R1 & A1).
    change ((t0, 2) :: a' ++ [(t3, 3)]) with (((t0, 2) :: a') ++ [(t3, 3)]). rewrite (accepted_app _ _ _ _ R1), (accepted_quiet _ pre d A BM NM).
    destruct (frame_decodes m t0 (a' ++ [(t3, 3)]) pre (proj1 K) (proj1 A) E) as (d2 & R2 & RD & AP).
    change ((t0, 2) :: a' ++ [(t3, 3)]) with (((t0, 2) :: a') ++ [(t3, 3)]) in R2. rewrite app_assoc in R2. rewrite (run_app _ _ _ _ _ (proj2 A1)) in R2.
    cbn [run] in R2. cbn [accepted]. destruct (put sgn t3 3 d1) as [d3|]; [|discriminate]. injection R2 as ->. rewrite RD, AP. reflexivity.
  Qed.
End Decode.

(** ** The terminal *)
Lemma typing_run : forall p m body w m' r, typing p m body w m' -> same_number m ->
  same_number m' /\ con_run (body ++ r) (mk_con true p m) = let '(k, bs) := con_run r (mk_con true p m') in (k, w ++ bs).
Proof.
  intros p m body w m' r T. induction T as [m|m c r' w m' P T IH|m r' w m' P T IH|m c q i a r' w m' M T IH]; intros S.
  - split; [exact S|]. cbn [app]. destruct (con_run r (mk_con true p m)) as [k bs]. reflexivity.
  - destruct (IH S) as [S' E]. split; [exact S'|]. cbn [app con_run]. destruct P as [C D]. unfold con_step. cbn [con_alive]. unfold getkey.
    replace (c =? 127) with false by lia. replace (c =? 20) with false by lia. replace (c =? 25) with false by lia. replace (c =? 16) with false by lia.
    replace (c =? 1) with false by lia. replace (c =? 4) with false by lia. replace (c =? 3) with false by lia. rewrite E.
    destruct (con_run r (mk_con true p m')) as [k bs]. unfold tx. replace (c =? 10) with false by lia. replace (c <? 128) with true by lia. reflexivity.
  - destruct (IH S) as [S' E]. split; [exact S'|]. cbn [app con_run]. unfold con_step. cbn [con_alive con_pause]. rewrite P in *. rewrite E.
    destruct (con_run r (mk_con true true m')) as [k bs]. reflexivity.
  - destruct (IH (measures_ok c q i a m M S)) as [S' E]. split; [exact S'|]. cbn [app con_run]. unfold con_step. cbn [con_alive con_pause con_meter].
    unfold with_measures in E. rewrite E. destruct (con_run r (mk_con true p m')) as [k bs]. reflexivity.
Qed.
Lemma typing_printable : forall p m body w m', typing p m body w m' -> Forall printable w.
Proof. intros p m body w m' T. induction T; auto. Qed.
Lemma dead_run : forall es p m, con_run es (mk_con false p m) = (mk_con false p m, []).
Proof. induction es as [|e es IH]; intros p m; [reflexivity|]. cbn [con_run]. unfold con_step. cbn [con_alive]. rewrite IH. reflexivity. Qed.
Lemma opens_three : forall o, opens o = true -> o = 9 \/ o = 27 \/ o = 96.
Proof. intros o. unfold opens. lia. Qed.

Lemma step_open : forall o p m, opens o = true -> con_step (Key o) (mk_con true p m) = (mk_con true p m, [o]).
Proof. intros o p m O. destruct (opens_three o O) as [-> | [-> | ->]]; reflexivity. Qed.
Lemma step_enter : forall p m, con_step (Key 10) (mk_con true p m) = (mk_con true p m, [13; 10]).
Proof. reflexivity. Qed.

Definition result (p : bool) (m : simu) (es : list con_event) (cs : list (list Z)) (fs : list simu) : Prop :=
  forall st : list event, map snd st = snd (con_run es (mk_con true p m)) ->
  exists s data, cli_listen st cli_init = (s, data, map (fun w => w ++ [13]) cs) /\ Forall is_byte (map snd data) /\
    forall sgn garbage pre d, length garbage = 350%nat -> at_ sgn garbage pre d -> accepted sgn data d = Some (map (fun m => Some (expected m)) fs).
(** A chunk that gives nothing, or one frame, before the rest *)
Lemma result_quiet : forall p m es cs fs p' m' es' b, result p m es cs fs -> Forall middle b ->
  (forall k bs, con_run es (mk_con true p m) = (k, bs) -> snd (con_run es' (mk_con true p' m')) = b ++ bs) -> result p' m' es' cs fs.
Proof.
  intros p m es cs fs p' m' es' b R M E st ST. destruct (con_run es (mk_con true p m)) as [k bs] eqn:C. rewrite (E k bs eq_refl) in ST.
  apply map_eq_app in ST. destruct ST as (x & y & -> & X & Y). destruct (R y) as (s & data & L & B & A); [rewrite C; exact Y|].
  assert (MB : Forall is_byte (map snd x)) by (rewrite X; eapply Forall_impl; [|exact M]; intros c H; apply H).
  exists s, (x ++ data). split; [|split].
  - rewrite listen_chunk, L; [reflexivity|]. rewrite X. eapply Forall_impl; [|exact M]. intros c (H1 & _ & H2). split; assumption.
  - rewrite map_app. apply Forall_app. split; assumption.
  - intros sgn garbage pre d G AT. destruct (at_next sgn garbage G pre x d AT MB) as (d1 & R1 & A1). etransitivity; [apply (accepted_app sgn x data d d1 R1)|].
    rewrite (accepted_quiet sgn garbage G x pre d AT MB).
    + rewrite (A sgn garbage (pre ++ x) d1 G A1). reflexivity.
    + rewrite X. intro I. rewrite Forall_forall in M. destruct (M 3 I) as (_ & H & _). congruence.
Qed.
Lemma result_frame : forall p m es cs fs p' m' es', result p m es cs fs -> same_number m ->
  (forall k bs, con_run es (mk_con true p m) = (k, bs) -> snd (con_run es' (mk_con true p' m')) = sim_text m ++ bs) -> result p' m' es' cs (m :: fs).
Proof.
  intros p m es cs fs p' m' es' R N E st ST. destruct (con_run es (mk_con true p m)) as [k bs] eqn:C. rewrite (E k bs eq_refl) in ST.
  apply map_eq_app in ST. destruct ST as (x & y & -> & X & Y). destruct (R y) as (s & data & L & B & A); [rewrite C; exact Y|].
  destruct (text_shape m N) as (mid & S & M).
  assert (MB : Forall (fun c => is_byte c /\ opens c = false) (map snd x)).
  { rewrite X, S. constructor; [unfold is_byte, opens; lia|]. apply Forall_app. split; [|constructor; [unfold is_byte, opens; lia|constructor]].
    eapply Forall_impl; [|exact M]. intros c (H1 & _ & H2). split; assumption. }
  assert (MB' : Forall is_byte (map snd x)) by (eapply Forall_impl; [|exact MB]; intros c H; apply H).
  exists s, (x ++ data). split; [|split].
  - rewrite listen_chunk, L; [reflexivity|exact MB].
  - rewrite map_app. apply Forall_app. split; assumption.
  - intros sgn garbage pre d G AT. destruct (at_next sgn garbage G pre x d AT MB') as (d1 & R1 & A1). etransitivity; [apply (accepted_app sgn x data d d1 R1)|].
    rewrite (accepted_frame sgn garbage G m x pre d N AT X), (A sgn garbage (pre ++ x) d1 G A1). reflexivity.
Qed.
Lemma result_nothing : forall p m es b, Forall middle b -> snd (con_run es (mk_con true p m)) = b -> result p m es [] [].
Proof.
  intros p m es b M E st ST. rewrite E in ST.
  assert (MB : Forall is_byte (map snd st)) by (rewrite ST; eapply Forall_impl; [|exact M]; intros c H; apply H).
  destruct (listen_plain (T := timeval) st MB) as (s & L).
  { rewrite ST. intros c I. rewrite Forall_forall in M. destruct (M c I) as (_ & _ & O). unfold opens in O. lia. }
  exists s, st. split; [exact L|]. split; [exact MB|]. intros sgn garbage pre d G AT. apply (accepted_quiet sgn garbage G st pre d AT MB).
  rewrite ST. intro I. rewrite Forall_forall in M. destruct (M 3 I) as (_ & H & _). congruence.
Qed.
Lemma dialogue_result : forall p m es cs fs, dialogue p m es cs fs -> same_number m -> result p m es cs fs.
Proof.
  intros p m es cs fs D. induction D as [p m|p m o body w m' r cs fs O T L D IH|p m o body w m' O T L|p m r cs fs D IH|p m key w r cs fs K D IH|m r cs fs D IH|m r cs fs D IH|p m r cs fs D IH
    |p m c q i a r cs fs M D IH|p m c r cs fs C O N D IH|p m r|p m r]; intros S.
  - apply (result_nothing p m [] []); [constructor|reflexivity].
  - destruct (typing_run p m body w m' (Key 10 :: r) T S) as [S' E]. specialize (IH S'). pose proof (typing_printable _ _ _ _ _ T) as P. intros st ST.
    cbn [con_run] in ST. rewrite (step_open o p m O), E in ST. cbn [con_run] in ST. rewrite step_enter in ST.
    destruct (con_run r (mk_con true p m')) as [k bs] eqn:CR. cbn [snd app] in ST.
    destruct st as [|[t o'] st]; [discriminate|]. cbn [map snd] in ST. assert (o' = o) by congruence. subst o'.
    assert (ST' : map snd st = w ++ 13 :: 10 :: bs) by congruence. clear ST. apply map_eq_app in ST'. destruct ST' as (x & y & -> & X & Y).
    destruct y as [|[t1 c1] y]; [discriminate|]. destruct y as [|[t2 c2] y]; [discriminate|]. cbn [map snd] in Y.
    assert (c1 = 13 /\ c2 = 10 /\ map snd y = bs) as (-> & -> & Y') by (split; [congruence|split; congruence]). clear Y.
    destruct (IH y) as (s & data & LI & B & A); [rewrite CR; exact Y'|].
    exists s, ((t2, 10) :: data). split; [|split].
    + assert (LX : (length x < 127)%nat) by (rewrite <- (map_length snd x), X; exact L).
      etransitivity; [apply (listen_line t o x t1 ((t2, 10) :: y) O); [rewrite X; exact P|exact LX]|].
      rewrite (listen_meter_byte t2 10 y) by (unfold is_byte, opens; lia). rewrite LI, X. reflexivity.
    + constructor; [cbn [snd]; unfold is_byte; lia|exact B].
    + intros sgn garbage pre d G AT.
      assert (B10 : Forall is_byte (map snd [(t2, 10)])) by (constructor; [cbn [snd]; unfold is_byte; lia|constructor]).
      destruct (at_next sgn garbage G pre [(t2, 10)] d AT B10) as (d1 & R1 & A1). change ((t2, 10) :: data) with ([(t2, 10)] ++ data).
      etransitivity; [apply (accepted_app sgn _ data d d1 R1)|]. rewrite (accepted_quiet sgn garbage G _ pre d AT B10) by (cbn [map snd]; intros [X0|[]]; discriminate).
      rewrite (A sgn garbage _ d1 G A1). reflexivity.
  - destruct (typing_run p m body w m' [] T S) as [S' E]. rewrite app_nil_r in E. pose proof (typing_printable _ _ _ _ _ T) as P. intros st ST.
    cbn [con_run] in ST. rewrite (step_open o p m O), E in ST. cbn [con_run snd app] in ST. rewrite app_nil_r in ST.
    destruct st as [|[t o'] st]; [discriminate|]. cbn [map snd] in ST. assert (o' = o) by congruence. subst o'. assert (ST' : map snd st = w) by congruence.
    assert (LX : (length st < 127)%nat) by (pose proof (map_length snd st) as ML; rewrite ST' in ML; unfold event in *; rewrite <- ML; exact L).
    destruct (listen_unfinished t o st O) as (s & LI); [rewrite ST'; exact P|exact LX|].
    exists s, []. split; [exact LI|]. split; [constructor|]. reflexivity.
  - apply (result_frame p m r cs fs p m (Key 20 :: r) (IH S) S). intros k bs C. cbn [con_run]. change (con_step (Key 20) (mk_con true p m)) with (send_tic (mk_con true p m)).
    unfold send_tic. cbn [con_meter]. rewrite (trame_ok m (proj1 S)), C. reflexivity.
  - pose proof (bascule_ok w m S) as S'. apply (result_frame p (bascule w m) r cs fs p m (Key key :: r) (IH S') S'). intros k bs C. cbn [con_run].
    assert (E : con_step (Key key) (mk_con true p m) = send_tic (mk_con true p (bascule w m))) by (destruct K as [K|[K|K]]; injection K as -> ->; reflexivity).
    rewrite E. unfold send_tic. cbn [con_meter]. rewrite (trame_ok _ (proj1 S')), C. reflexivity.
  - apply (result_frame false m r cs fs false m (Tick :: r) (IH S) S). intros k bs C. cbn [con_run]. change (con_step Tick (mk_con true false m)) with (send_tic (mk_con true false m)).
    unfold send_tic. cbn [con_meter]. rewrite (trame_ok m (proj1 S)), C. reflexivity.
  - apply (result_quiet true m r cs fs true m (Tick :: r) [] (IH S)); [constructor|]. intros k bs C. cbn [con_run]. change (con_step Tick (mk_con true true m)) with (mk_con true true m, @nil Z). cbv beta iota. rewrite C. reflexivity.
  - apply (result_quiet (negb p) m r cs fs p m (Key 25 :: r) [] (IH S)); [constructor|]. intros k bs C. cbn [con_run]. change (con_step (Key 25) (mk_con true p m)) with (mk_con true (negb p) m, @nil Z). cbv beta iota. rewrite C. reflexivity.
  - apply (result_quiet p (with_measures c q i a m) r cs fs p m (Measures c q i a :: r) [] (IH (measures_ok c q i a m M S))); [constructor|]. intros k bs C. cbn [con_run].
    change (con_step (Measures c q i a) (mk_con true p m)) with (mk_con true p (with_measures c q i a m), @nil Z). cbv beta iota. rewrite C. reflexivity.
  - apply (result_quiet p m r cs fs p m (Key c :: r) (tx (getkey c)) (IH S)).
    + unfold tx, getkey. unfold own_key in N. destruct (c =? 127) eqn:E1; [change (if 8 =? 10 then [13; 10] else [if 8 <? 128 then 8 else 63]) with [8]; apply (Forall_cons (P := middle)); [unfold middle, is_byte, opens; lia|constructor]|].
      destruct (c =? 10) eqn:E2; [do 2 (apply (Forall_cons (P := middle)); [unfold middle, is_byte, opens; lia|]); constructor|].
      constructor; [|constructor]. destruct (c <? 128) eqn:E3; unfold middle, is_byte; [|unfold opens; lia]. split; [lia|]. split; [lia|exact O].
    + intros k bs CR. cbn [con_run].
      assert (E : con_step (Key c) (mk_con true p m) = (mk_con true p m, tx (getkey c))).
      { unfold con_step. cbn [con_alive]. cbv zeta. unfold own_key in N. unfold getkey. destruct (c =? 127) eqn:E1; [reflexivity|].
        replace (c =? 20) with false by lia. replace (c =? 25) with false by lia. replace (c =? 16) with false by lia.
        replace (c =? 1) with false by lia. replace (c =? 4) with false by lia. replace (c =? 3) with false by lia. reflexivity. }
      rewrite E, CR. reflexivity.
  - apply (result_nothing p m _ []); [constructor|]. cbn [con_run]. change (con_step (Key 3) (mk_con true p m)) with (mk_con false p m, @nil Z). cbv beta iota. rewrite dead_run. reflexivity.
  - apply (result_nothing p m _ []); [constructor|]. cbn [con_run]. change (con_step EndOfInput (mk_con true p m)) with (mk_con false p m, @nil Z). cbv beta iota. rewrite dead_run. reflexivity.
Qed.

Lemma c90 : forall automatic es commands frames sgn garbage stream, dialogue (negb automatic) sim_init es commands frames -> length garbage = 350%nat ->
  map snd stream = snd (con_run es (con_start automatic)) ->
  exists s data, cli_listen stream cli_init = (s, data, map (fun w => w ++ [13]) commands) /\
    accepted sgn data (dec_init garbage) = Some (map (fun m => Some (expected m)) frames).
Proof.
  intros automatic es commands frames sgn garbage stream D G E. destruct (dialogue_result _ _ _ _ _ D init_number stream E) as (s & data & L & B & A).
  exists s, data. split; [exact L|]. apply (A sgn garbage []); [exact G|]. split; [constructor|reflexivity].
Qed.
