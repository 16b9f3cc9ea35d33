(** Property theorem C111: what the commands typed on the serial port may change, whatever they are.
    Specification: MeddleSpec.v, SessionSpec.v ([keyboard_removed]), ChainSpec.v. *)
From Coq Require Import ZArith List Bool Lia.
From Verif Require Import Base BaseFacts Teleinfo TeleinfoSpec Publish HistorySpec Config ConfigSpec Json
  Tic TicSpec Sse SseSpec Cpu Web Wifi Device WebSpec DeviceProofs SlotSpec ChainSpec Samples SamplesFacts TicSamples WebSamples ChainSamples
  Cli CliSpec Life LifeSpec LifeSamples SessionSpec SessionSamples MeddleSpec MeddleProofs MeddleMain MeddleSamples.
Import ListNotations.
Open Scope Z_scope.

(** C111. Since the last start, whatever the commands typed: compare with a module started on the same flash that meets the same events
    without the bytes typed. It is in the same state but for its timers and its streams, and has had the same effects, but for the streams, the
    periodic requests and the texts of the pages (C111_pages). *)
Theorem C111_session : forall fuel bd flash es b evs d cl os, build_ok bd -> flash_ok flash -> Forall ordinary_life (es ++ started b evs) ->
  lrun fuel bd (es ++ started b evs) (Off flash) = Done (On d cl, os) ->
  let since := skipn (S (length es)) os in
  exists m os1 d0 acts rest, lrun fuel bd es (Off flash) = Done (m, os1) /\ start_ok (on_flash (flash_of m) b) /\
    boot (on_flash (flash_of m) b) = Some (d0, acts) /\ keyboard_removed (bd_cli bd) (map fst evs) rest (commands_of since) /\
    Forall ordinary_event rest /\ incl rest (map fst evs) /\
    forall d' outs, drun fuel (bd_signed bd) rest d0 = Done (d', outs) ->
      same_core d d' /\ filter essential (effects_of since) = filter essential (concat outs).
Proof. exact c111_session. Qed.
Print Assumptions C111_session.

(** C111, pages: two modules that differ by their timers and their streams answer alike, except for the streams themselves and the system page,
    which counts them; and they still differ by nothing else afterwards. *)
Theorem C111_pages : forall fuel a q d d' e o, same_core d d' -> ~ about_streams (q_uri q) -> handle fuel a q d = Done (e, o) ->
  exists e', handle fuel a q d' = Done (e', o) /\ same_core e e'.
Proof. exact page_core. Qed.
Print Assumptions C111_pages.

(** C111, notifications: those of tariff, overload and threshold are those of the valid frames (C99), whatever is typed. *)
Theorem C111_notifications : forall fuel bd flash es b evs d cl os en, build_ok bd -> flash_ok flash -> Forall ordinary_life (es ++ started b evs) ->
  lrun fuel bd (es ++ started b evs) (Off flash) = Done (On d cl, os) -> Forall (fun p => same_env en (fst p)) evs ->
  let since := skipn (S (length es)) os in
  exists m os1 d0 acts rest, lrun fuel bd es (Off flash) = Done (m, os1) /\ boot (on_flash (flash_of m) b) = Some (d0, acts) /\
    keyboard_removed (bd_cli bd) (map fst evs) rest (commands_of since) /\
    forall d' outs, drun fuel (bd_signed bd) rest d0 = Done (d', outs) -> exists ms, frames fuel (bd_signed bd) d0 [] rest ms /\
    filter notification (requests (effects_of since)) = filter notification (flat_map (fun x => requests (m_out x)) ms) /\
    map (sends PTEC) ms = changes_7 None (map (watched s_ptec (lookup (str "PTEC"))) ms) /\
    map (fun x => (sends ADPS x, sends NORM x)) ms =
      edges false (map (watched s_adps (fun gs => match lookup (str "ADPS") gs with Some _ => true | None => false end)) ms) /\
    forall before x after, ms = before ++ x :: after ->
      let on := s_http_host (m_set x) <> [] /\ s_seuils (m_set x) = true /\ power (m_groups x) <> 0 in
      (sends HAUT x = true <-> on /\ s_seuil_haut (m_set x) <= power (m_groups x) /\ last_crossing before <> Some HAUT) /\
      (sends BAS x = true <-> on /\ power (m_groups x) <= s_seuil_bas (m_set x) /\ last_crossing before = Some HAUT).
Proof. exact c111_services. Qed.
Print Assumptions C111_notifications.
(** Three frames; "set timers" and "sse hi" are typed between the last two. The module without the keyboard runs too. *)
Example C111_ex : exists d cl os d0 acts d' outs, build_ok meddler /\ flash_ok (b_flash start1) /\
  Forall ordinary_life ([] ++ started start1 (with_raw keyboard2)) /\
  lrun 256 meddler ([] ++ started start1 (with_raw keyboard2)) (Off (b_flash start1)) = Done (On d cl, os) /\
  Forall (fun p => same_env env0 (fst p)) (with_raw keyboard2) /\ commands_of (skipn 1 os) = lines2 /\
  keyboard_removed (bd_cli meddler) (map fst (with_raw keyboard2)) without2 lines2 /\ boot start1 = Some (d0, acts) /\
  drun 256 (bd_signed meddler) without2 d0 = Done (d', outs) /\
  map fst (filter notification (requests (effects_of (skipn 1 os)))) = [PTEC; HAUT; ADPS; BAS; NORM] /\ ~ about_streams (str "/json").
Proof.
  destruct sitting2 as (d & cl & os & d0 & acts & d' & outs & R & C & Q & B & D & _). exists d, cl, os, d0, acts, d', outs. split; [exact meddler_ok|].
  split; [exact (proj1 (proj2 (proj2 start1_ok)))|]. split; [constructor; [exact start1_ok|apply with_raw_ordinary, keyboard2_ordinary]|].
  split; [exact R|]. split; [unfold with_raw; rewrite Forall_map; exact keyboard2_env|]. split; [exact C|]. rewrite fst_with_raw.
  split; [exact keyboard2_removed|]. split; [exact B|]. split; [exact D|]. split; [|intros [X|[X|[X|[]]]]; discriminate X].
  revert Q. generalize (requests (effects_of (skipn 1 os))). intros l Q. do 8 (destruct l as [|[? ?] l]; [discriminate Q || (injection Q as -> -> -> -> -> -> ->; reflexivity)|]).
  discriminate Q.
Qed.

(** C111. "sse TEXT": every stream whose browser is still there gets one event, the others are closed; nothing else changes. A browser reads
    the text, if it has no end of line. *)
Theorem C111_sse : forall fuel bd flash life d cl os a up tv c raw m o l data, build_ok bd -> flash_ok flash -> Forall ordinary_life life ->
  lrun fuel bd life (Off flash) = Done (On d cl, os) -> is_byte c ->
  lstep fuel bd (Event (DByte a up tv c) raw) (On d cl) = Done (m, o) -> In (Command l) o -> bd_parse bd l = CSse data ->
  exists d' cl', m = On d' cl' /\ same_core d' d /\ d_tm d' = d_tm d /\ sse_list (d_sse d') = filter up (sse_list (d_sse d)) /\
    o = Command l :: map (fun e => Did (Streaming e)) (to_all up data (sse_list (d_sse d))) /\
    (Forall (fun x => x <> 10 /\ x <> 13) data -> events_of (event_text data) = [data]).
Proof. exact c111_sse. Qed.
Print Assumptions C111_sse.
Example C111_ex_sse : exists d cl os m, Forall ordinary_life (started start1 (with_raw open_stream)) /\
  lrun 256 meddler (started start1 (with_raw open_stream)) (Off (b_flash start1)) = Done (On d cl, os) /\ sse_list (d_sse d) = [0%nat] /\
  lstep 256 meddler last_byte (On d cl) = Done (m, [Command (str "sse hi" ++ [13]); Did (Streaming (SentTo 0 (event_text (str "hi"))))]) /\
  bd_parse meddler (str "sse hi" ++ [13]) = CSse (str "hi").
Proof.
  destruct typed_sse as (d & cl & os & m & R & L & S). exists d, cl, os, m.
  split; [constructor; [exact start1_ok|apply with_raw_ordinary; exact (proj1 ordinary_half)]|]. auto.
Qed.

(** C111. "set timers": the timers are as if the settings in force had just been taken into account (C52: the periods are counted from
    now on); nothing else changes, nothing is sent. *)
Theorem C111_timers : forall fuel bd a up tv c raw d cl m o l w, is_byte c ->
  lstep fuel bd (Event (DByte a up tv c) raw) (On d cl) = Done (m, o) -> In (Command l) o -> bd_parse bd l = CSet (str "timers" :: w) ->
  exists d' cl', m = On d' cl' /\ same_core d' d /\ d_sse d' = d_sse d /\ o = [Command l] /\
    forall en, tic_step en (Configure (a_now a) (cfg_of d)) (mk_ts (cfg_of d) (d_ns d) (d_tm d)) = Some ([], mk_ts (cfg_of d') (d_ns d') (d_tm d')).
Proof. exact c111_timers. Qed.
Print Assumptions C111_timers.
Example C111_ex_timers : exists d cl os d' cl', lrun 256 meddler (started start1 (with_raw half_line)) (Off (b_flash start1)) = Done (On d cl, os) /\
  lstep 256 meddler last_byte (On d cl) = Done (On d' cl', [Command (str "set timers" ++ [13])]) /\
  bd_parse meddler (str "set timers" ++ [13]) = CSet [str "timers"] /\ map (fun t => tm_start (t (d_tm d'))) [t_http; t_emoncms] = [3000; 3000].
Proof. destruct typed_timers as (d & cl & os & d' & cl' & R & S & T). exists d, cl, os, d', cl'. auto. Qed.

(** C111 is not true of the periodic requests: "set timers", typed at 31 s, delays the one that the same frames trigger at 70 s without
    the keyboard. *)
Theorem C111_periodic_refuted : exists d cl os d0 acts d' outs, build_ok meddler /\
  Forall ordinary_life (started start1 (with_raw keyboard2)) /\
  lrun 256 meddler (started start1 (with_raw keyboard2)) (Off (b_flash start1)) = Done (On d cl, os) /\
  keyboard_removed (bd_cli meddler) keyboard2 without2 (commands_of (skipn 1 os)) /\ boot start1 = Some (d0, acts) /\
  drun 256 (bd_signed meddler) without2 d0 = Done (d', outs) /\
  map fst (requests (effects_of (skipn 1 os))) = [PTEC; HAUT; ADPS; EMONCMS; BAS; NORM; EMONCMS] /\
  map fst (requests (concat outs)) = [PTEC; HAUT; ADPS; EMONCMS; BAS; NORM; MAJ; EMONCMS].
Proof.
  destruct sitting2 as (d & cl & os & d0 & acts & d' & outs & R & C & Q & B & D & E). exists d, cl, os, d0, acts, d', outs. split; [exact meddler_ok|].
  split; [constructor; [exact start1_ok|apply with_raw_ordinary, keyboard2_ordinary]|]. split; [exact R|]. rewrite C. split; [exact keyboard2_removed|]. auto.
Qed.
Print Assumptions C111_periodic_refuted.
