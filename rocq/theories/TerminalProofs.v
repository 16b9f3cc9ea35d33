(** Proofs about the screen of the terminal. *)
From Coq Require Import ZArith List Bool Lia ZifyBool ZifyNat.
From Verif Require Import Base BaseFacts Teleinfo Config Cli CliSpec CliProofs Simu SimuSpec SimuProofs Console ConsoleSpec ConsoleProofs Terminal TerminalSpec.
Import ListNotations.
Open Scope Z_scope.

(** ** Colours *)
Lemma display_text : forall t k r, no_escape t -> display Outside k (t ++ r) = in_look k t ++ display Outside k r.
Proof.
  induction t as [|c t IH]; intros k r N; [reflexivity|]. inversion N as [|x l C T]; subst. cbn [app display in_look map].
  replace (c =? 27) with false by lia. f_equal. apply IH. exact T.
Qed.
Lemma display_cyan : forall k t, dim k = false -> display Outside k (input_color ++ t) = display Outside cyan t.
Proof. intros [c d] t D. cbn in D. subst d. reflexivity. Qed.
Lemma display_red : forall k t, dim k = false -> display Outside k (echo_color ++ t) = display Outside red t.
Proof. intros [c d] t D. cbn in D. subst d. reflexivity. Qed.
Lemma ascii_quiet : forall d, no_escape d -> no_escape (map ascii_char d).
Proof. intros d N. apply Forall_map. eapply Forall_impl; [|exact N]. intros c C. cbv beta in *. unfold ascii_char. destruct (c <? 128); lia. Qed.
Lemma ascii_seen : forall d, map ascii_char d = map seen_byte d.
Proof. intros d. apply map_ext. intros b. unfold ascii_char, seen_byte. destruct (b <? 128) eqn:E, (127 <? b) eqn:F; lia. Qed.
Lemma show_read : forall d k r, dim k = false -> no_escape d -> exists k', dim k' = false /\
  display Outside k (show_data d ++ r) = in_look cyan (map seen_byte d) ++ display Outside k' r.
Proof.
  intros d k r D N. destruct d as [|b d]; [exists k; split; [exact D|reflexivity]|]. exists cyan. split; [reflexivity|].
  unfold show_data. rewrite <- app_assoc, display_cyan by exact D. rewrite display_text by (apply ascii_quiet; exact N). rewrite ascii_seen. reflexivity.
Qed.
Lemma show_frame : forall stamp k r, dim k = false -> no_escape stamp -> exists k', dim k' = false /\
  display Outside k (show_sent stamp ++ r) = announced stamp ++ display Outside k' r.
Proof.
  intros stamp k r D N. exists red. split; [reflexivity|]. unfold show_sent. rewrite <- app_assoc, display_red by exact D.
  rewrite display_text; [reflexivity|]. apply Forall_app. split; [exact N|]. repeat constructor; discriminate.
Qed.
Lemma below_32 : forall c, 0 <= c < 32 -> In c (map Z.of_nat (seq 0 32)).
Proof. intros c C. apply in_map_iff. exists (Z.to_nat c). split; [lia|]. apply in_seq. lia. Qed.
Lemma show_bracketed : forall c k r, dim k = false -> 0 <= c < 32 ->
  display Outside k (show_control c ++ r) = bracketed c ++ display Outside plain_look r.
Proof.
  intros c [co d] r D C. cbn in D. subst d. pose proof (below_32 c C) as I. cbn [map seq] in I. cbn [In] in I.
  repeat (destruct I as [<-|I]; [reflexivity|]). destruct I.
Qed.

(** ** The program *)
Lemma dead_term : forall es k, con_alive k = false -> term_run es k = (k, []).
Proof. induction es as [|e es IH]; intros k D; [reflexivity|]. cbn [term_run]. unfold term_step. rewrite D, IH by exact D. reflexivity. Qed.
Lemma step_pause : forall e k, con_alive k = true ->
  con_pause (fst (con_step e k)) = match e with Key 25 => negb (con_pause k) | _ => con_pause k end.
Proof.
  intros e k A. unfold con_step. rewrite A. assert (S : forall k', con_pause (fst (send_tic k')) = con_pause k') by (intros k'; unfold send_tic; destruct (trame (con_meter k')); reflexivity).
  destruct e as [c| | |c p i a]; try reflexivity.
  - cbv zeta. destruct (c =? 25) eqn:E25; [apply Z.eqb_eq in E25; subst c; reflexivity|].
    assert (G : con_pause k = match c with 25 => negb (con_pause k) | _ => con_pause k end).
    { destruct c as [|p|p]; try reflexivity. do 5 (destruct p as [p|p|]; try reflexivity). discriminate. }
    rewrite <- G. unfold getkey. destruct (c =? 127) eqn:E; [reflexivity|]. rewrite E25.
    repeat match goal with |- context [if ?b then _ else _] => destruct b; [first [apply S|rewrite S; reflexivity|reflexivity]|] end. reflexivity.
  - destruct (con_pause k) eqn:P; cbn [fst]; [exact P|rewrite S; exact P].
Qed.
Lemma key25 : forall c (A : Type) (x y : A), c <> 25 -> match c with 25 => x | _ => y end = y.
Proof. intros c A x y N. destruct c as [|p|p]; try reflexivity. do 5 (destruct p as [p|p|]; try reflexivity). congruence. Qed.
Lemma seen_key : forall p stamp c r, c <> 25 -> to_be_seen p (Local stamp (Key c) :: r) =
  (if existsb (Z.eqb c) [1; 4; 16; 20] then announced stamp else if c =? 127 then bracketed 8 else if c <? 32 then bracketed c else []) ++ to_be_seen p r.
Proof. intros p stamp c r N. cbn [to_be_seen]. apply key25. exact N. Qed.
Lemma key_alive : forall k c, con_alive k = true -> con_alive (fst (con_step (Key c) k)) = true -> c <> 3.
Proof. intros k c A L ->. unfold con_step in L. rewrite A in L. discriminate. Qed.

Lemma screen_run : forall es k l, dim l = false -> con_alive (fst (term_run es k)) = true -> Forall quiet es ->
  display Outside l (snd (term_run es k)) = to_be_seen (con_pause k) es.
Proof.
  induction es as [|e es IH]; intros k l D L Q; [reflexivity|]. inversion Q as [|x y Qe Qs]; subst.
  destruct (con_alive k) eqn:A; [|rewrite (dead_term _ k A) in L; cbn [fst] in L; congruence].
  cbn [term_run] in *. unfold term_step in *. rewrite A in *. destruct e as [d|stamp e].
  - specialize (IH k). destruct (term_run es k) as [k2 ts]. cbn [fst snd] in *. destruct (show_read d l ts D Qe) as (l' & D' & E). rewrite E, (IH l' D' L Qs). reflexivity.
  - pose proof (step_pause e k A) as P. assert (A1 : con_alive (fst (con_step e k)) = true).
    { destruct (con_alive (fst (con_step e k))) eqn:B; [reflexivity|]. rewrite (dead_term _ _ B) in L. cbn [fst] in L. congruence. }
    specialize (IH (fst (con_step e k))). destruct (term_run es (fst (con_step e k))) as [k2 ts]. cbn [fst snd] in *. rewrite P in IH. clear P.
    destruct e as [c| | |c q i a].
    + destruct Qe as [Qs' C]. pose proof (key_alive k c A A1) as N3. clear A1.
      destruct (Z.eq_dec c 25) as [->|N25]; [exact (IH l D L Qs)|]. rewrite (key25 c _ _ _ N25) in IH. rewrite (seen_key _ _ _ _ N25).
      unfold show_local. cbv zeta. unfold getkey. destruct (c =? 127) eqn:E127.
      * apply Z.eqb_eq in E127. subst c. cbn [Z.eqb existsb orb Pos.eqb Z.ltb Z.compare Pos.compare Pos.compare_cont]. rewrite (show_bracketed 8 l ts D) by lia. rewrite (IH plain_look eq_refl L Qs). reflexivity.
      * destruct ((c =? 20) || (c =? 16) || (c =? 1) || (c =? 4)) eqn:F.
        -- replace (existsb (Z.eqb c) [1; 4; 16; 20]) with true by (cbn [existsb]; lia). destruct (show_frame stamp l ts D Qs') as (l' & D' & E). rewrite E, (IH l' D' L Qs). reflexivity.
        -- replace (existsb (Z.eqb c) [1; 4; 16; 20]) with false by (cbn [existsb]; lia). replace ((c =? 25) || (c =? 3)) with false by lia.
           destruct (c <? 32) eqn:G; [rewrite (show_bracketed c l ts D) by lia; rewrite (IH plain_look eq_refl L Qs); reflexivity|]. cbn [app]. exact (IH l D L Qs).
    + unfold con_step in A1. rewrite A in A1. discriminate.
    + cbn [show_local to_be_seen]. destruct (con_pause k); [exact (IH l D L Qs)|]. destruct (show_frame stamp l ts D Qe) as (l' & D' & E). rewrite E, (IH l' D' L Qs). reflexivity.
    + exact (IH l D L Qs).
Qed.
Lemma c112_screen : forall es automatic k t, term_run es (con_start automatic) = (k, t) -> con_alive k = true -> Forall quiet es ->
  screen t = to_be_seen (negb automatic) es.
Proof.
  intros es automatic k t E A Q. assert (S := screen_run es (con_start automatic) plain_look eq_refl). rewrite E in S. exact (S A Q).
Qed.
(** ** By colours *)
Lemma written_app : forall k a b, written_in k (a ++ b) = written_in k a ++ written_in k b.
Proof. intros k a b. unfold written_in. rewrite filter_app, map_app. reflexivity. Qed.
Lemma written_same : forall k t, same_look k k = true -> written_in k (in_look k t) = t.
Proof.
  intros k t S. unfold written_in, in_look. induction t as [|c t IH]; [reflexivity|]. cbn [map filter snd]. rewrite S. cbn [map fst]. f_equal. exact IH.
Qed.
Lemma written_other : forall k l t, same_look k l = false -> written_in k (in_look l t) = [].
Proof. intros k l t S. unfold written_in, in_look. induction t as [|c t IH]; [reflexivity|]. cbn [map filter snd]. rewrite S. exact IH. Qed.
Lemma cyan_seen : forall es p, written_in cyan (to_be_seen p es) = map seen_byte (bytes_read es).
Proof.
  assert (AN : forall st, written_in cyan (announced st) = []) by (intros st; apply written_other; reflexivity).
  assert (BR : forall c, written_in cyan (bracketed c) = []) by (intros c; unfold bracketed; rewrite written_app, !written_other by reflexivity; reflexivity).
  induction es as [|e es IH]; intros p; [reflexivity|]. destruct e as [d|stamp e].
  - cbn [to_be_seen]. rewrite written_app, (written_same cyan) by reflexivity. rewrite IH. unfold bytes_read. cbn [flat_map]. rewrite map_app. reflexivity.
  - unfold bytes_read. cbn [flat_map app]. fold (bytes_read es). destruct e as [c| | |c q i a].
    + destruct (Z.eq_dec c 25) as [->|N]; [apply IH|]. rewrite (seen_key _ _ _ _ N), written_app, IH.
      destruct (existsb (Z.eqb c) [1; 4; 16; 20]); [rewrite AN; reflexivity|]. destruct (c =? 127); [rewrite BR; reflexivity|]. destruct (c <? 32); [rewrite BR; reflexivity|reflexivity].
    + apply IH.
    + cbn [to_be_seen]. rewrite written_app, IH. destruct p; [reflexivity|]. rewrite AN. reflexivity.
    + apply IH.
Qed.
Lemma c112_cyan : forall es automatic k t, term_run es (con_start automatic) = (k, t) -> con_alive k = true -> Forall quiet es ->
  written_in cyan (screen t) = map seen_byte (bytes_read es).
Proof. intros es automatic k t E A Q. rewrite (c112_screen es automatic k t E A Q). apply cyan_seen. Qed.

(** ** The prompt and the echo *)
Section Says.
  Variable answer : nat -> list Z -> list Z.
  Lemma says_chunk : forall a r n, Forall (fun c => is_byte c /\ opens c = false) a -> cli_says answer n (a ++ r) cli_init = cli_says answer n r cli_init.
  Proof.
    induction a as [|c a IH]; intros r n F; [reflexivity|]. inversion F as [|x l [B O] Fa]; subst. cbn [app cli_says]. unfold cli_loop_read, cli_echo.
    rewrite opens_eq, O. cbn [cl_mode cli_init andb]. cbn [app]. apply IH. exact Fa.
  Qed.
  Lemma says_open : forall o r n, opens o = true -> cli_says answer n (o :: r) cli_init = str "$ " ++ cli_says answer n r (mk_cli true []).
  Proof. intros o r n O. cbn [cli_says]. unfold cli_loop_read, cli_echo. rewrite opens_eq, O. reflexivity. Qed.
  Lemma says_typed : forall w i r n, Forall printable w -> (length i + length w < 127)%nat ->
    cli_says answer n (w ++ r) (mk_cli true i) = w ++ cli_says answer n r (mk_cli true (i ++ w)).
  Proof.
    induction w as [|c w IH]; intros i r n P L; [rewrite app_nil_r; reflexivity|]. inversion P as [|x l [C D] Pw]; subst. cbn [length] in L. cbn [app cli_says]. unfold cli_loop_read, cli_echo.
    replace ((c =? 9) || (c =? 27) || (c =? 96)) with false by lia. cbn [cl_mode cl_input andb]. replace ((0 <=? c) && (c <=? 255)) with true by lia.
    replace ((c =? 10) || (c =? 13) || (128 <=? length (i ++ [c]))%nat) with false by (rewrite app_length; cbn [length]; lia).
    cbn [app]. rewrite IH; [|exact Pw|rewrite app_length; cbn [length]; lia]. rewrite <- app_assoc. reflexivity.
  Qed.
  Lemma says_enter : forall i r n, cli_says answer n (13 :: r) (mk_cli true i) = [13] ++ answer n (i ++ [13]) ++ [13; 10] ++ cli_says answer (S n) r cli_init.
  Proof. intros i r n. cbn [cli_says]. unfold cli_loop_read, cli_echo. cbn. rewrite <- ?app_assoc. reflexivity. Qed.
  Definition tail_of (t : list Z) : Prop := t = [] \/ exists w, t = str "$ " ++ w /\ Forall printable w.
  Definition told (p : bool) (m : simu) (es : list con_event) (cs : list (list Z)) : Prop :=
    forall n, exists tail, tail_of tail /\ cli_says answer n (snd (con_run es (mk_con true p m))) cli_init = conversation answer n cs ++ tail.
  Lemma told_chunk : forall p m es cs p' m' es' b, told p m es cs -> Forall (fun c => is_byte c /\ opens c = false) b ->
    (forall k bs, con_run es (mk_con true p m) = (k, bs) -> snd (con_run es' (mk_con true p' m')) = b ++ bs) -> told p' m' es' cs.
  Proof.
    intros p m es cs p' m' es' b T B E n. destruct (T n) as (tail & TO & EQ). exists tail. split; [exact TO|]. destruct (con_run es (mk_con true p m)) as [k bs] eqn:C.
    rewrite (E k bs eq_refl), says_chunk by exact B. exact EQ.
  Qed.
  Lemma told_nothing : forall p m es, snd (con_run es (mk_con true p m)) = [] -> told p m es [].
  Proof. intros p m es E n. exists []. split; [left; reflexivity|]. rewrite E. reflexivity. Qed.
  Lemma frame_chunk : forall m, same_number m -> Forall (fun c => is_byte c /\ opens c = false) (sim_text m).
  Proof.
    intros m N. destruct (text_shape m N) as (mid & S & M). rewrite S. constructor; [unfold is_byte, opens; lia|]. apply Forall_app. split; [|constructor; [unfold is_byte, opens; lia|constructor]].
    eapply Forall_impl; [|exact M]. intros c (H1 & _ & H2). split; assumption.
  Qed.
  Lemma dialogue_told : forall p m es cs fs, dialogue p m es cs fs -> same_number m -> told p m es cs.
  Proof.
    intros p m es cs fs D. induction D as [p m|p m o body w m' r cs fs O T L D IH|p m o body w m' O T L|p m r cs fs D IH|p m key w r cs fs K D IH|m r cs fs D IH|m r cs fs D IH|p m r cs fs D IH
      |p m c q i a r cs fs M D IH|p m c r cs fs C O N D IH|p m r|p m r]; intros S.
    - apply told_nothing. reflexivity.
    - destruct (typing_run p m body w m' (Key 10 :: r) T S) as [S' E]. specialize (IH S'). pose proof (typing_printable _ _ _ _ _ T) as P. intros n.
      destruct (IH (Datatypes.S n)) as (tail & TO & EQ). exists tail. split; [exact TO|]. cbn [con_run]. rewrite (step_open o p m O), E. cbn [con_run]. rewrite step_enter.
      destruct (con_run r (mk_con true p m')) as [k bs]. cbn [snd] in *. change ([o] ++ w ++ [13; 10] ++ bs) with (o :: w ++ 13 :: 10 :: bs). rewrite (says_open o _ n O), says_typed; [|exact P|exact L].
      rewrite says_enter. cbn [app]. change (10 :: bs) with ([10] ++ bs). rewrite says_chunk by (constructor; [unfold is_byte, opens; lia|constructor]). rewrite EQ.
      cbn [conversation]. rewrite <- !app_assoc. cbn [app]. rewrite <- ?app_assoc. cbn [app]. repeat f_equal.
    - destruct (typing_run p m body w m' [] T S) as [S' E]. rewrite app_nil_r in E. pose proof (typing_printable _ _ _ _ _ T) as P. intros n.
      exists (str "$ " ++ w). split; [right; exists w; split; [reflexivity|exact P]|]. cbn [con_run]. rewrite (step_open o p m O), E. cbn [con_run snd].
      change ([o] ++ w ++ []) with (o :: w ++ []). rewrite (says_open o _ n O), says_typed; [|exact P|exact L]. cbn [cli_says conversation app]. rewrite app_nil_r. reflexivity.
    - apply (told_chunk p m r cs p m (Key 20 :: r) (sim_text m) (IH S) (frame_chunk m S)). intros k bs C. cbn [con_run]. change (con_step (Key 20) (mk_con true p m)) with (send_tic (mk_con true p m)).
      unfold send_tic. cbn [con_meter]. rewrite (trame_ok m (proj1 S)), C. reflexivity.
    - pose proof (bascule_ok w m S) as S'. apply (told_chunk p (bascule w m) r cs p m (Key key :: r) (sim_text (bascule w m)) (IH S') (frame_chunk _ S')). intros k bs C. cbn [con_run].
      assert (E : con_step (Key key) (mk_con true p m) = send_tic (mk_con true p (bascule w m))) by (destruct K as [K|[K|K]]; injection K as -> ->; reflexivity).
      rewrite E. unfold send_tic. cbn [con_meter]. rewrite (trame_ok _ (proj1 S')), C. reflexivity.
    - apply (told_chunk false m r cs false m (Tick :: r) (sim_text m) (IH S) (frame_chunk m S)). intros k bs C. cbn [con_run]. change (con_step Tick (mk_con true false m)) with (send_tic (mk_con true false m)).
      unfold send_tic. cbn [con_meter]. rewrite (trame_ok m (proj1 S)), C. reflexivity.
    - apply (told_chunk true m r cs true m (Tick :: r) [] (IH S)); [constructor|]. intros k bs C. cbn [con_run]. change (con_step Tick (mk_con true true m)) with (mk_con true true m, @nil Z). cbv beta iota. rewrite C. reflexivity.
    - apply (told_chunk (negb p) m r cs p m (Key 25 :: r) [] (IH S)); [constructor|]. intros k bs C. cbn [con_run]. change (con_step (Key 25) (mk_con true p m)) with (mk_con true (negb p) m, @nil Z). cbv beta iota. rewrite C. reflexivity.
    - apply (told_chunk p (with_measures c q i a m) r cs p m (Measures c q i a :: r) [] (IH (measures_ok c q i a m M S))); [constructor|]. intros k bs C. cbn [con_run].
      change (con_step (Measures c q i a) (mk_con true p m)) with (mk_con true p (with_measures c q i a m), @nil Z). cbv beta iota. rewrite C. reflexivity.
    - apply (told_chunk p m r cs p m (Key c :: r) (tx (getkey c)) (IH S)).
      + unfold tx, getkey. unfold own_key in N. destruct (c =? 127) eqn:E1; [change (if 8 =? 10 then [13; 10] else [if 8 <? 128 then 8 else 63]) with [8]; constructor; [unfold is_byte, opens; lia|constructor]|].
        destruct (c =? 10) eqn:E2; [constructor; [unfold is_byte, opens; lia|constructor; [unfold is_byte, opens; lia|constructor]]|].
        constructor; [|constructor]. destruct (c <? 128) eqn:E3; unfold is_byte; [split; [lia|exact O]|unfold opens; lia].
      + intros k bs CR. cbn [con_run].
        assert (E : con_step (Key c) (mk_con true p m) = (mk_con true p m, tx (getkey c))).
        { unfold con_step. cbn [con_alive]. cbv zeta. unfold own_key in N. unfold getkey. destruct (c =? 127) eqn:E1; [reflexivity|].
          replace (c =? 20) with false by lia. replace (c =? 25) with false by lia. replace (c =? 16) with false by lia.
          replace (c =? 1) with false by lia. replace (c =? 4) with false by lia. replace (c =? 3) with false by lia. reflexivity. }
        rewrite E, CR. reflexivity.
    - apply told_nothing. cbn [con_run]. change (con_step (Key 3) (mk_con true p m)) with (mk_con false p m, @nil Z). cbv beta iota. rewrite dead_run. reflexivity.
    - apply told_nothing. cbn [con_run]. change (con_step EndOfInput (mk_con true p m)) with (mk_con false p m, @nil Z). cbv beta iota. rewrite dead_run. reflexivity.
  Qed.
End Says.

(** ** Both sides *)
Lemma printable_quiet : forall w, Forall printable w -> no_escape w.
Proof. intros w P. eapply Forall_impl; [|exact P]. intros c [C _]. cbv beta. lia. Qed.
Lemma c112_echo : forall answer automatic es cs fs, dialogue (negb automatic) sim_init es cs fs ->
  exists tail, (tail = [] \/ exists w, tail = str "$ " ++ w /\ Forall printable w) /\
    cli_says answer 0 (snd (con_run es (con_start automatic))) cli_init = conversation answer 0 cs ++ tail.
Proof. intros answer automatic es cs fs D. exact (dialogue_told answer _ _ _ _ _ D init_number 0%nat). Qed.
Lemma local_quiet_split : forall es, Forall (fun e => match e with Local stamp (Key c) => no_escape stamp /\ 0 <= c | Local stamp _ => no_escape stamp | Read _ => True end) es ->
  no_escape (bytes_read es) -> Forall quiet es.
Proof.
  induction es as [|e es IH]; intros L N; [constructor|]. inversion L as [|x l Le Ls]; subst. unfold bytes_read in N. cbn [flat_map] in N. apply Forall_app in N. destruct N as [N1 N2].
  constructor; [destruct e as [d|stamp e]; [exact N1|exact Le]|apply IH; assumption].
Qed.
Lemma conversation_quiet : forall answer cs n, (forall n l, no_escape (answer n l)) -> Forall no_escape cs -> no_escape (conversation answer n cs).
Proof.
  intros answer cs. induction cs as [|w cs IH]; intros n A F; [constructor|]. inversion F as [|x l W Fs]; subst. cbn [conversation]. unfold no_escape in *.
  constructor; [discriminate|]. constructor; [discriminate|]. apply Forall_app. split; [exact W|]. constructor; [discriminate|]. apply Forall_app. split; [apply A|].
  constructor; [discriminate|]. constructor; [discriminate|]. apply IH; assumption.
Qed.
Lemma dialogue_commands : forall p m es cs fs, dialogue p m es cs fs -> Forall no_escape cs.
Proof.
  intros p m es cs fs D. induction D; try assumption; try constructor; [|assumption]. apply printable_quiet. eapply typing_printable. eassumption.
Qed.
Lemma c112_conversation : forall answer automatic es cs fs tes k t,
  dialogue (negb automatic) sim_init es cs fs -> (forall n l, no_escape (answer n l)) ->
  Forall (fun e => match e with Local stamp (Key c) => no_escape stamp /\ 0 <= c | Local stamp _ => no_escape stamp | Read _ => True end) tes ->
  local_events tes = es -> bytes_read tes = cli_says answer 0 (snd (con_run es (con_start automatic))) cli_init ->
  term_run tes (con_start automatic) = (k, t) -> con_alive k = true ->
  exists tail, (tail = [] \/ exists w, tail = str "$ " ++ w /\ Forall printable w) /\
    written_in cyan (screen t) = map seen_byte (conversation answer 0 cs ++ tail).
Proof.
  intros answer automatic es cs fs tes k t D A Q LE BR E AL. destruct (c112_echo answer automatic es cs fs D) as (tail & TO & EQ). exists tail. split; [exact TO|].
  rewrite <- EQ, <- BR. apply (c112_cyan tes automatic k t E AL). apply local_quiet_split; [exact Q|]. rewrite BR, EQ. apply Forall_app. split.
  - apply conversation_quiet; [exact A|exact (dialogue_commands _ _ _ _ _ D)].
  - destruct TO as [->|(w & -> & P)]; [constructor|]. apply Forall_app. split; [repeat constructor; discriminate|apply printable_quiet; exact P].
Qed.
