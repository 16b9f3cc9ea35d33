(** Property theorem C103, and C47 in the page /cpuload: what the module says of itself. Specification: SystemSpec.v, CpuSpec.v. *)
From Coq Require Import ZArith List Bool Lia.
From Verif Require Import Base BaseFacts Teleinfo Publish Config ConfigSpec Json Tic TicSpec Pages PagesSamples Sse Cpu CpuSpec Web Wifi Device
  WebSpec DeviceProofs ScreenSpec SystemSpec SystemProofs TicSamples WebSamples ChainSamples SystemSamples.
Import ListNotations.
Open Scope Z_scope.

(** C103. The module starts, anything happens ([es]); a client with full access asks for the page of the system. It receives a JSON
    array of the rows of [system_rows], in this order: [n] is the number of live streams, [load] that of the turns of the loop. *)
Theorem C103_full : forall fuel sgn b d0 acts es d os, start_ok b -> boot b = Some (d0, acts) -> drun fuel sgn es d0 = Done (d, os) ->
  forall a q, q_uri q = str "/system.json" -> fully_allowed q d -> info_ok (a_info a) -> quotable (text Ssid (cfg_of d)) = true ->
  exists body n load vs, dstep fuel sgn (DHttp a q) d = Done (d, [Reply 200 Web.Json body]) /\ json_of body = Some (JArr vs) /\
    live_streams (concat os) n /\ load_is (b_now b) es (a_info a) load /\
    Forall2 row_tells (system_rows (view (cfg_of d)) (a_info a) n load) vs.
Proof. exact c103_full. Qed.
Print Assumptions C103_full.
(** One stream is live; the load is 99 %; the 21 rows. *)
Example C103_ex_full : exists d0 acts d os body vs, start_ok start4 /\ boot start4 = Some (d0, acts) /\ drun 256 true story4 d0 = Done (d, os) /\
  fully_allowed (ask_in "/system.json") d /\ info_ok (a_info around0) /\ quotable (text Ssid (cfg_of d)) = true /\
  dstep 256 true (DHttp around0 (ask_in "/system.json")) d = Done (d, [Reply 200 Web.Json body]) /\ json_of body = Some (JArr vs) /\
  Forall2 row_tells (system_rows (view (cfg_of d)) info1 1 (Some 99)) vs /\ length vs = 21%nat.
Proof.
  destruct boot4 as (v & ee & B). destruct (result_ok _ _ _ _ _ (run4 v ee)) as (d & os & R & E). unfold seen4 in E.
  assert (F : fully_allowed (ask_in "/system.json") d).
  { right. replace (text Username (cfg_of d)) with (str "me") by congruence. replace (text Password (cfg_of d)) with (str "pw") by congruence. split; reflexivity. }
  assert (Q : quotable (text Ssid (cfg_of d)) = true) by (replace (text Ssid (cfg_of d)) with (@nil Z) by congruence; reflexivity).
  destruct (C103_full _ _ _ _ _ _ _ _ start4_ok B R around0 (ask_in "/system.json") eq_refl F info1_ok Q) as (body & n & load & vs & H1 & H2 & L & Lo & W).
  assert (n = 1) by (apply (one4 (concat os)); [congruence|exact L]). subst n. destruct Lo as (l & -> & Lo). destruct turns4_ok as (T1 & T2 & T3).
  assert (l = 99). { rewrite (Lo turns4 ltac:(cbn; lia) T1 T2 ltac:(rewrite T3; repeat constructor; lia)), T3. reflexivity. } subst l.
  exists (dev_known v ee), [StationMode; AutoReconnect], d, os, body, vs. split; [exact start4_ok|]. split; [exact B|]. split; [exact R|]. split; [exact F|].
  split; [exact info1_ok|]. split; [exact Q|]. split; [exact H1|]. split; [exact H2|]. split; [exact W|]. rewrite (same_length _ _ _ _ _ W). reflexivity.
Qed.
(** A client with restricted access receives the rows that are not reserved. *)
Theorem C103_restricted : forall fuel sgn b d0 acts es d os, start_ok b -> boot b = Some (d0, acts) -> drun fuel sgn es d0 = Done (d, os) ->
  forall a q, q_uri q = str "/system.json" -> restricted q d -> info_ok (a_info a) -> quotable (text Ssid (cfg_of d)) = true ->
  exists body n load vs, dstep fuel sgn (DHttp a q) d = Done (d, [Reply 200 Web.Json body]) /\ json_of body = Some (JArr vs) /\
    live_streams (concat os) n /\ load_is (b_now b) es (a_info a) load /\
    Forall2 row_tells (public_rows (system_rows (view (cfg_of d)) (a_info a) n load)) vs.
Proof. exact c103_restricted. Qed.
Print Assumptions C103_restricted.
Example C103_ex_restricted : exists d0 acts d os, start_ok start4 /\ boot start4 = Some (d0, acts) /\ drun 256 true story4 d0 = Done (d, os) /\
  restricted (ask_through "/system.json") d /\ info_ok (a_info around0) /\ quotable (text Ssid (cfg_of d)) = true /\
  map (fun r => snd (fst r)) (public_rows (system_rows (view (cfg_of d)) info1 1 (Some 99))) =
    [str "Uptime"; str "Timestamp"; str "Nb reconnexions Wi-Fi"; str "M" ++ e_acute ++ str "moire Flash libre"; str "M" ++ e_acute ++ str "moire RAM libre";
     str "CPU"; str "FS Total"; str "FS Utilis" ++ e_acute ++ str "s"; str "FS Occupation"; str "SSE Clients"; str "SSE Connexions"].
Proof.
  destruct boot4 as (v & ee & B). destruct (result_ok _ _ _ _ _ (run4 v ee)) as (d & os & R & E). unfold seen4 in E.
  exists (dev_known v ee), [StationMode; AutoReconnect], d, os. split; [exact start4_ok|]. split; [exact B|]. split; [exact R|].
  split; [|split; [exact info1_ok|split; [replace (text Ssid (cfg_of d)) with (@nil Z) by congruence; reflexivity|reflexivity]]].
  unfold restricted. replace (text Username (cfg_of d)) with (str "me") by congruence. replace (text Password (cfg_of d)) with (str "pw") by congruence.
  split; [discriminate|split; reflexivity].
Qed.

(** C47, page /cpuload: the time, the average number of turns per second over ten seconds and the load. *)
Theorem C47_page : forall fuel sgn b d0 acts es d os, start_ok b -> boot b = Some (d0, acts) -> drun fuel sgn es d0 = Done (d, os) ->
  forall a q ds, q_uri q = str "/cpuload" -> ~ refused q d -> 0 <= b_now b < 4294967296 ->
  turn_times es = times (b_now b) ds -> spaced 1000 0 ds -> Forall (fun n => n <= 85000) (counted 0 (firings 1000 0 ds)) ->
  dstep fuel sgn (DHttp a q) d = Done (d, [Reply 200 Web.Text (
    str "PERF: millis=" ++ right 10 (dec (a_now a)) ++ str " counter=" ++ right 6 (dec (average (counted 0 (firings 1000 0 ds)))) ++
    str "/sec load=" ++ dec (100 * (85000 - average (counted 0 (firings 1000 0 ds))) / 85000) ++ str " %" ++ [10])]).
Proof. exact c47_page. Qed.
Print Assumptions C47_page.
Example C47_ex_page : exists d0 acts d os, start_ok start4 /\ boot start4 = Some (d0, acts) /\ drun 256 true story4 d0 = Done (d, os) /\
  ~ refused (ask_in "/cpuload") d /\ turn_times story4 = times (b_now start4) turns4 /\ spaced 1000 0 turns4 /\
  Forall (fun n => n <= 85000) (counted 0 (firings 1000 0 turns4)) /\
  dstep 256 true (DHttp around0 (ask_in "/cpuload")) d =
    Done (d, [Reply 200 Web.Text (str "PERF: millis=      5000 counter=     2/sec load=99 %" ++ [10])]).
Proof.
  destruct boot4 as (v & ee & B). destruct (result_ok _ _ _ _ _ (run4 v ee)) as (d & os & R & E). unfold seen4 in E. destruct turns4_ok as (T1 & T2 & T3).
  assert (A : ~ refused (ask_in "/cpuload") d).
  { unfold refused. replace (text Username (cfg_of d)) with (str "me") by congruence. replace (text Password (cfg_of d)) with (str "pw") by congruence.
    intros (_ & X). discriminate X. }
  assert (F : Forall (fun n => n <= 85000) (counted 0 (firings 1000 0 turns4))) by (rewrite T3; repeat constructor; lia).
  exists (dev_known v ee), [StationMode; AutoReconnect], d, os. split; [exact start4_ok|]. split; [exact B|]. split; [exact R|]. split; [exact A|].
  split; [exact T1|]. split; [exact T2|]. split; [exact F|].
  rewrite (C47_page _ _ _ _ _ _ _ _ start4_ok B R around0 (ask_in "/cpuload") turns4 eq_refl A ltac:(cbn; lia) T1 T2 F), T3. reflexivity.
Qed.
