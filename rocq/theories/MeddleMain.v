(** Proofs: what the commands typed on the serial port may change; the commands "sse" and "set timers". *)
From Coq Require Import ZArith List Bool Lia ZifyBool.
From Verif Require Import Base BaseFacts Teleinfo TeleinfoSpec Publish HistorySpec PublishProofs Config ConfigSpec ConfigProofs ConfigMain ConfigHist
  Json JsonBuild Tic TicSpec Pages PagesSpec Sse SseSpec SseProofs Cpu Web Wifi Device WebSpec WebProofs
  DeviceProofs DeviceMain DeviceSafe DeviceFinal DevicePages Cli CliSpec CliProofs Life LifeSpec LifeProofs LifeMain LifeFinal
  SlotSpec ChainSpec ChainProofs ChainMain SessionSpec SessionProofs MeddleSpec MeddleProofs.
Import ListNotations.
Open Scope Z_scope.

Lemma requests_essential : forall o, requests (filter essential o) = filter notification (requests o).
Proof.
  induction o as [|x o IH]; [reflexivity|]. unfold requests in *. cbn [filter flat_map]. rewrite filter_app, <- IH.
  destruct x; try reflexivity. cbn [essential app filter]. unfold notification at 1. cbn [fst]. destruct (periodic why); reflexivity.
Qed.
Lemma restart_essential : forall o, In RestartNow o <-> In RestartNow (filter essential o).
Proof. intros o. rewrite filter_In. cbn [essential]. intuition. Qed.
Lemma still_on : forall fuel bd evs d cl d' cl' os, lrun fuel bd (map (fun p => Event (fst p) (snd p)) evs) (On d cl) = Done (On d' cl', os) ->
  ~ In RestartNow (effects_of os).
Proof.
  intros fuel bd. induction evs as [|[e raw] evs IH]; intros d cl d' cl' os H; cbn [map lrun fst snd] in H.
  - injection H as <- <- <-. intros [].
  - destruct (lstep fuel bd (Event e raw) (On d cl)) as [[m1 o]| |] eqn:S; try discriminate.
    destruct (lrun fuel bd (map (fun p => Event (fst p) (snd p)) evs) m1) as [[m2 os2]| |] eqn:R; try discriminate. injection H as -> <-.
    destruct m1 as [f|d1 cl1]; [apply off_stays in R; discriminate|]. rewrite effects_cons. intros I. apply in_app_or in I.
    destruct I as [I|I]; [|exact (IH _ _ _ _ _ R I)].
    assert (X : exists d2 cl2 o2, after d2 cl2 o2 = (On d1 cl1, o)).
    { cbn [lstep] in S. destruct e; try (match type of S with match ?x with _ => _ end = _ => destruct x as [[d2 o2]| |] end; try discriminate S;
        exists d2, cl, (map Did o2); congruence).
      destruct (serial_byte bd a up tv c raw d cl) as [[[d2 cl2] o2]|]; [|discriminate]. exists d2, cl2, o2. cbn [lift] in S. congruence. }
    destruct X as (d2 & cl2 & o2 & X). destruct (after_on _ _ _ _ _ _ X) as (_ & _ & -> & NR).
    apply in_flat_map in I. destruct I as (h & I & J). assert (existsb restarts o2 = true); [|congruence].
    apply existsb_exists. exists h. split; [exact I|]. destruct h; try destruct J as [->|[]]; try destruct J; reflexivity.
Qed.
Lemma c111_restart : forall fuel bd flash es b evs d cl os,
  lrun fuel bd (es ++ started b evs) (Off flash) = Done (On d cl, os) -> ~ In RestartNow (effects_of (skipn (Datatypes.S (length es)) os)).
Proof.
  intros fuel bd flash es b evs d cl os H. destruct (lrun_app _ _ _ _ _ _ _ H) as (m & os1 & os2 & R1 & R2 & ->).
  assert (L := lrun_length _ _ _ _ _ _ R1). unfold started in R2. cbn [lrun] in R2.
  destruct (lstep fuel bd (PowerOn b) m) as [[m1 o]| |] eqn:S; try discriminate.
  destruct (lrun fuel bd (map (fun p => Event (fst p) (snd p)) evs) m1) as [[m2 os3]| |] eqn:R3; try discriminate. injection R2 as -> <-.
  replace (skipn (Datatypes.S (length es)) (os1 ++ o :: os3)) with os3.
  2:{ rewrite <- L. rewrite skipn_app. replace (Datatypes.S (length os1) - length os1)%nat with 1%nat by lia. rewrite skipn_all2 by lia. reflexivity. }
  destruct m1 as [f|d1 cl1]; [apply off_stays in R3; discriminate|]. exact (still_on _ _ _ _ _ _ _ _ R3).
Qed.
Lemma c111_services : forall fuel bd flash es b evs d cl os en, build_ok bd -> flash_ok flash -> Forall ordinary_life (es ++ started b evs) ->
  lrun fuel bd (es ++ started b evs) (Off flash) = Done (On d cl, os) -> Forall (fun p => same_env en (fst p)) evs ->
  let since := skipn (Datatypes.S (length es)) os in
  exists m os1 d0 acts rest, lrun fuel bd es (Off flash) = Done (m, os1) /\ boot (on_flash (flash_of m) b) = Some (d0, acts) /\
    keyboard_removed (bd_cli bd) (map fst evs) rest (commands_of since) /\
    forall d' outs, drun fuel (bd_signed bd) rest d0 = Done (d', outs) -> exists ms, frames fuel (bd_signed bd) d0 [] rest ms /\
    filter notification (requests (effects_of since)) = filter notification (flat_map (fun x => requests (m_out x)) ms) /\
    map (sends PTEC) ms = changes_7 None (map (watched s_ptec (lookup (str "PTEC"))) ms) /\
    map (fun x => (sends ADPS x, sends NORM x)) ms =
      edges false (map (watched s_adps (fun gs => match lookup (str "ADPS") gs with Some _ => true | None => false end)) ms) /\
    forall before x after, ms = before ++ x :: after ->
      let on := s_http_host (m_set x) <> [] /\ s_seuils (m_set x) = true /\ power (m_groups x) <> 0 in
      (sends HAUT x = true <-> on /\ s_seuil_haut (m_set x) <= power (m_groups x) /\ last_crossing before <> Some HAUT) /\
      (sends BAS x = true <-> on /\ power (m_groups x) <= s_seuil_bas (m_set x) /\ last_crossing before = Some HAUT).
Proof.
  intros fuel bd flash es b evs d cl os en B F O H En since.
  destruct (c111_session _ _ _ _ _ _ _ _ _ B F O H) as (m & os1 & d0 & acts & rest & R1 & So & Bo & Kr & Or & Ir & K).
  exists m, os1, d0, acts, rest. split; [exact R1|]. split; [exact Bo|]. split; [exact Kr|]. intros d' outs Rr.
  destruct (K _ _ Rr) as (_ & Ef). fold since in Ef.
  assert (NR : ~ In RestartNow (concat outs)) by (rewrite restart_essential, <- Ef, <- restart_essential; exact (c111_restart _ _ _ _ _ _ _ _ _ H)).
  assert (Hb := heard_ordinary rest false Or).
  assert (He : Forall (same_env en) rest).
  { apply Forall_forall. intros x I. apply Ir, in_map_iff in I. destruct I as (p & <- & I). rewrite Forall_forall in En. exact (En _ I). }
  destruct (frames_exist fuel (bd_signed bd) _ d0 acts So Bo [] rest d' outs Hb Rr) as (ms & Fr).
  exists ms. split; [exact Fr|].
  split; [rewrite <- (c99_only _ _ _ _ _ _ _ _ _ _ So Bo Hb He Rr NR Fr), <- !requests_essential, Ef; reflexivity|].
  split; [exact (c99_tariff _ _ _ _ _ _ _ _ _ _ So Bo Hb He Rr NR Fr)|].
  split; [exact (c99_overload _ _ _ _ _ _ _ _ _ _ So Bo Hb He Rr NR Fr)|].
  exact (c99_thresholds _ _ _ _ _ _ _ _ _ _ So Bo Hb He Rr NR Fr).
Qed.

(** ** The two commands *)
Lemma typed_command : forall fuel bd a up tv c raw d cl m o l, is_byte c -> lstep fuel bd (Event (DByte a up tv c) raw) (On d cl) = Done (m, o) ->
  In (Command l) o -> exists d' cl' o', o = Command l :: o' /\ run_command a up raw (bd_parse bd l) d = Some (d', o') /\ (m, o) = after d' cl' o.
Proof.
  intros fuel bd a up tv c raw d cl m o l B S I. cbn [lstep] in S. destruct (serial_byte bd a up tv c raw d cl) as [[[d2 cl2] o1]|] eqn:Sb; [|discriminate].
  cbn [lift] in S. assert (Ao : after d2 cl2 o1 = (m, o)) by congruence. clear S.
  assert (o = o1) by (unfold after in Ao; destruct (existsb restarts o1); congruence). subst o1.
  destruct (serial_effect _ _ _ _ _ _ _ _ _ _ _ B Sb) as (r & line & _ & T). destruct line as [l'|].
  - destruct T as (_ & o' & -> & T). destruct (command_effect _ _ _ _ _ _ _ T) as (_ & _ & _ & Tc).
    destruct I as [I|I]; [|destruct (Tc _ I)]. assert (l' = l) by congruence. subst l'. exists d2, cl2, o'. auto.
  - destruct T as [(_ & _ & ->)|(_ & o' & -> & _)]; [destruct I|]. apply in_map_iff in I. destruct I as (x & X & _). discriminate.
Qed.
Lemma opt_pair : forall A B (a c : A) (b d : B), Some (a, b) = Some (c, d) -> a = c /\ b = d.
Proof. intros A B a c b d H. injection H as -> ->. auto. Qed.
Lemma pass_all : forall up data l, pass up (Some data) l = to_all up data l.
Proof. intros up data l. unfold pass, to_all. induction l as [|x l IH]; [reflexivity|]. cbn [flat_map map]. rewrite IH. destruct (up x); reflexivity. Qed.
Lemma no_stream_restart : forall e, existsb restarts (map (fun x => Did (Streaming x)) e) = false.
Proof. induction e as [|x e IH]; [reflexivity|exact IH]. Qed.
Lemma c111_sse : forall fuel bd flash life d cl os a up tv c raw m o l data, build_ok bd -> flash_ok flash -> Forall ordinary_life life ->
  lrun fuel bd life (Off flash) = Done (On d cl, os) -> is_byte c ->
  lstep fuel bd (Event (DByte a up tv c) raw) (On d cl) = Done (m, o) -> In (Command l) o -> bd_parse bd l = CSse data ->
  exists d' cl', m = On d' cl' /\ same_core d' d /\ d_tm d' = d_tm d /\ sse_list (d_sse d') = filter up (sse_list (d_sse d)) /\
    o = Command l :: map (fun e => Did (Streaming e)) (to_all up data (sse_list (d_sse d))) /\
    (Forall (fun x => x <> 10 /\ x <> 13) data -> events_of (event_text data) = [data]).
Proof.
  intros fuel bd flash life d cl os a up tv c raw m o l data B F O R Bc S I P.
  assert (M : mod_ok (bd_signed bd) (On d cl)) by (eapply lrun_ok; [exact B| |exact O|exact R]; exact F). destruct M as (M & _).
  destruct (typed_command _ _ _ _ _ _ _ _ _ _ _ _ Bc S I) as (d' & cl' & o' & -> & T & Af). rewrite P in T. revert T. cbn [run_command].
  rewrite (handle_clients_spec up (Some data) (d_sse d) (do_sse _ _ M)). intros T. apply opt_pair in T. destruct T as (<- & <-).
  unfold after in Af. cbn [existsb restarts orb] in Af. rewrite no_stream_restart in Af. rewrite pass_all in Af |- *.
  exists (with_sse (mk_sse (filter up (sse_list (d_sse d))) (keep up (sse_list (d_sse d)) (sse_heap (d_sse d))) (sse_next (d_sse d))) d), cl'.
  split; [congruence|]. split; [repeat split|]. split; [reflexivity|]. split; [reflexivity|]. split; [reflexivity|].
  intros X. assert (Y := events_stream [data] ltac:(constructor; [exact X|constructor])). cbn [map concat] in Y. rewrite app_nil_r in Y. exact Y.
Qed.
Lemma c111_timers : forall fuel bd a up tv c raw d cl m o l w, is_byte c ->
  lstep fuel bd (Event (DByte a up tv c) raw) (On d cl) = Done (m, o) -> In (Command l) o -> bd_parse bd l = CSet (str "timers" :: w) ->
  exists d' cl', m = On d' cl' /\ same_core d' d /\ d_sse d' = d_sse d /\ o = [Command l] /\
    forall en, tic_step en (Configure (a_now a) (cfg_of d)) (mk_ts (cfg_of d) (d_ns d) (d_tm d)) = Some ([], mk_ts (cfg_of d') (d_ns d') (d_tm d')).
Proof.
  intros fuel bd a up tv c raw d cl m o l w Bc S I P.
  destruct (typed_command _ _ _ _ _ _ _ _ _ _ _ _ Bc S I) as (d' & cl' & o' & -> & T & Af). rewrite P in T. revert T. cbn [run_command]. rewrite beq_refl.
  intros T. injection T as <- <-. unfold after in Af. cbn [existsb restarts orb] in Af.
  exists (with_tm (tic_make_timers (a_now a) (cfg_of d) (d_tm d)) d), cl'. split; [congruence|]. split; [repeat split|]. split; [reflexivity|].
  split; [reflexivity|]. intros en. reflexivity.
Qed.
