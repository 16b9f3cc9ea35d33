(** Property theorem C99: from the bytes of the meter to the requests, in the whole module. Specification: ChainSpec.v (frames,
    moments), TicSpec.v (changes_7, edges), SlotSpec.v. *)
From Coq Require Import ZArith List Bool Lia Sorted.
From Verif Require Import Base BaseFacts Teleinfo TeleinfoSpec Publish HistorySpec Config ConfigSpec ConfigProofs ConfigMain ConfigHist Json
  Tic TicSpec Sse Cpu Web Wifi Device WebSpec DeviceProofs SlotSpec ChainSpec ChainProofs ChainMain Samples SamplesFacts TicSamples WebSamples ChainSamples.
Import ListNotations.
Open Scope Z_scope.

(** C99. Every history of the module has its list of valid frames. *)
Theorem C99_frames : forall fuel sgn b d0 acts past es d os, start_ok b -> boot b = Some (d0, acts) ->
  Forall is_byte (map snd (heard false (past ++ es))) -> drun fuel sgn (past ++ es) d0 = Done (d, os) ->
  exists ms, frames fuel sgn d0 past es ms.
Proof. intros fuel sgn b d0 acts past es d os S B. exact (frames_exist fuel sgn b d0 acts S B past es d os). Qed.
Print Assumptions C99_frames.
(** Three valid frames, at 1 s, 31 s and 70 s, with a page asked in between; a frame that comes during an upload, at 50 s, is not heard. *)
Example C99_ex_frames : exists d0 acts d os ms, start_ok start1 /\ boot start1 = Some (d0, acts) /\
  Forall is_byte (map snd (heard false ([] ++ history1))) /\ drun 256 true ([] ++ history1) d0 = Done (d, os) /\
  frames 256 true d0 [] history1 ms /\ map m_now ms = [1000; 31000; 70000] /\ map m_groups ms = kept_1.
Proof.
  destruct hyps1 as (d0 & acts & d & os & ms & (S & B & Hb & _ & _ & _ & R & _ & F) & N & G & _). exists d0, acts, d, os, ms.
  split; [exact S|]. split; [exact B|]. split; [exact Hb|]. split; [exact R|]. auto.
Qed.

(** In the next theorems: the module starts, then anything happens (bytes, requests, forms, uploads), until now or until the next
    restart; [ms] are the valid frames that ended meanwhile. *)

(** C99. Requests are sent only when a valid frame ends. *)
Theorem C99_only_frames : forall fuel sgn b d0 acts en es d os ms, start_ok b -> boot b = Some (d0, acts) ->
  Forall is_byte (map snd (heard false es)) -> Forall (same_env en) es -> drun fuel sgn es d0 = Done (d, os) -> ~ In RestartNow (concat os) ->
  frames fuel sgn d0 [] es ms ->
  requests (concat os) = flat_map (fun m => requests (m_out m)) ms.
Proof. intros fuel sgn b d0 acts en es d os ms. exact (c99_only fuel sgn b d0 acts en es d os ms). Qed.
Print Assumptions C99_only_frames.
Example C99_ex_only : exists d0 acts d os ms, hypotheses1 d0 acts d os ms /\
  map fst (requests (concat os)) = [PTEC; HAUT; ADPS; EMONCMS; BAS; NORM; MAJ; EMONCMS].
Proof.
  destruct hyps1 as (d0 & acts & d & os & ms & H & _ & _ & _ & Q). exists d0, acts, d, os, ms. split; [exact H|].
  destruct H as (S & B & Hb & He & _ & _ & R & NR & F). rewrite (C99_only_frames 256 true start1 d0 acts env0 history1 d os ms S B Hb He R NR F).
  destruct (three _ _ _ _ _ _ _ Q) as (x & y & z & -> & X & Y & Z). cbn [flat_map]. rewrite !map_app, X, Y, Z. reflexivity.
Qed.

(** C99, tariff: the notification is sent when the period of the frame differs from the first 7 characters of the one before. *)
Theorem C99_tariff : forall fuel sgn b d0 acts en es d os ms, start_ok b -> boot b = Some (d0, acts) ->
  Forall is_byte (map snd (heard false es)) -> Forall (same_env en) es -> drun fuel sgn es d0 = Done (d, os) -> ~ In RestartNow (concat os) ->
  frames fuel sgn d0 [] es ms ->
  map (sends PTEC) ms = changes_7 None (map (watched s_ptec (lookup (str "PTEC"))) ms).
Proof. intros fuel sgn b d0 acts en es d os ms. exact (c99_tariff fuel sgn b d0 acts en es d os ms). Qed.
Print Assumptions C99_tariff.
(** The period changes from HP to HC in the second frame. *)
Example C99_ex_tariff : exists d0 acts d os ms, hypotheses1 d0 acts d os ms /\
  map (watched s_ptec (lookup (str "PTEC"))) ms = [Some (Some (str "HP")); Some (Some (str "HC")); Some (Some (str "HC"))] /\
  map (sends PTEC) ms = [false; true; false].
Proof.
  destruct hyps1 as (d0 & acts & d & os & ms & H & _ & G & S & Q). exists d0, acts, d, os, ms. split; [exact H|]. rewrite sends_reasons, Q.
  split; [|reflexivity]. destruct (three _ _ _ _ _ _ _ S) as (x & y & z & -> & X & Y & Z). cbn [map] in *. injection G as GX GY GZ.
  unfold watched. rewrite X, Y, Z, GX, GY, GZ. vm_compute. reflexivity.
Qed.


(** C99, overload: a notification when ADPS appears, another one when it disappears. *)
Theorem C99_overload : forall fuel sgn b d0 acts en es d os ms, start_ok b -> boot b = Some (d0, acts) ->
  Forall is_byte (map snd (heard false es)) -> Forall (same_env en) es -> drun fuel sgn es d0 = Done (d, os) -> ~ In RestartNow (concat os) ->
  frames fuel sgn d0 [] es ms ->
  map (fun m => (sends ADPS m, sends NORM m)) ms =
    edges false (map (watched s_adps (fun gs => match lookup (str "ADPS") gs with Some _ => true | None => false end)) ms).
Proof. intros fuel sgn b d0 acts en es d os ms. exact (c99_overload fuel sgn b d0 acts en es d os ms). Qed.
Print Assumptions C99_overload.
(** ADPS is in the second frame only. *)
Example C99_ex_overload : exists d0 acts d os ms, hypotheses1 d0 acts d os ms /\
  map (fun m => (sends ADPS m, sends NORM m)) ms = [(false, false); (true, false); (false, true)].
Proof.
  destruct hyps1 as (d0 & acts & d & os & ms & H & _ & _ & _ & Q). exists d0, acts, d, os, ms. split; [exact H|].
  assert (A := sends_reasons ADPS ms). assert (B := sends_reasons NORM ms). rewrite Q in A, B.
  destruct (three _ _ _ _ _ _ _ Q) as (x & y & z & -> & _). cbn [map] in *. injection A as -> -> ->. injection B as -> -> ->. reflexivity.
Qed.


(** C99, thresholds. *)
Theorem C99_thresholds : forall fuel sgn b d0 acts en es d os ms, start_ok b -> boot b = Some (d0, acts) ->
  Forall is_byte (map snd (heard false es)) -> Forall (same_env en) es -> drun fuel sgn es d0 = Done (d, os) -> ~ In RestartNow (concat os) ->
  frames fuel sgn d0 [] es ms ->
  forall before m after, ms = before ++ m :: after ->
  let on := s_http_host (m_set m) <> [] /\ s_seuils (m_set m) = true /\ power (m_groups m) <> 0 in
  (sends HAUT m = true <-> on /\ s_seuil_haut (m_set m) <= power (m_groups m) /\ last_crossing before <> Some HAUT) /\
  (sends BAS m = true <-> on /\ power (m_groups m) <= s_seuil_bas (m_set m) /\ last_crossing before = Some HAUT).
Proof. intros fuel sgn b d0 acts en es d os ms. exact (c99_thresholds fuel sgn b d0 acts en es d os ms). Qed.
Print Assumptions C99_thresholds.
(** 500 W, 5600 W, 300 W with the thresholds 4200 and 5500: the second frame crosses the high one, the third the low one. *)
Example C99_ex_thresholds : exists d0 acts d os x y z, hypotheses1 d0 acts d os [x; y; z] /\
  s_seuil_haut (m_set y) = 5500 /\ power (m_groups y) = 5600 /\ last_crossing [x] = None /\ sends HAUT y = true /\
  s_seuil_bas (m_set z) = 4200 /\ power (m_groups z) = 300 /\ last_crossing [x; y] = Some HAUT /\ sends BAS z = true.
Proof.
  destruct hyps1 as (d0 & acts & d & os & ms & H & _ & G & S & Q).
  destruct (three _ _ _ _ _ _ _ Q) as (x & y & z & -> & Qx & Qy & Qz). exists d0, acts, d, os, x, y, z. split; [exact H|].
  cbn [map] in G, S. injection G as GX GY GZ. injection S as SX SY SZ.
  assert (A := sends_reasons HAUT [y]). assert (B := sends_reasons BAS [z]). cbn [map] in A, B. rewrite Qy in A. rewrite Qz in B.
  injection A as ->. injection B as ->. rewrite SY, SZ, GY, GZ. unfold last_crossing. cbn [flat_map]. rewrite !map_app, Qx, Qy.
  repeat split; vm_compute; reflexivity.
Qed.


(** C99, what is sent: to the configured hosts and ports, in order, with the groups of the frame that has just ended. *)
Theorem C99_requests : forall fuel sgn b d0 acts en es d os ms, start_ok b -> boot b = Some (d0, acts) ->
  Forall is_byte (map snd (heard false es)) -> Forall (same_env en) es -> drun fuel sgn es d0 = Done (d, os) -> ~ In RestartNow (concat os) ->
  frames fuel sgn d0 [] es ms -> forall m, In m ms ->
  increasing (map rank (map fst (requests (m_out m)))) /\
  forall w r, In (w, r) (requests (m_out m)) ->
    let s := m_set m in
    host_of s w <> [] /\ r_host r = host_of s w /\ r_port r = port_of s w /\ trigger_of s w = true /\
    (periodic w = true -> port_of s w <> 0 /\ freq_of s w <> 0).
Proof. intros fuel sgn b d0 acts en es d os ms. exact (c99_requests fuel sgn b d0 acts en es d os ms). Qed.
Print Assumptions C99_requests.
Theorem C99_jeedom : forall fuel sgn b d0 acts en es d os ms, start_ok b -> boot b = Some (d0, acts) ->
  Forall is_byte (map snd (heard false es)) -> Forall (same_env en) es -> drun fuel sgn es d0 = Done (d, os) -> ~ In RestartNow (concat os) ->
  frames fuel sgn d0 [] es ms -> forall m r, In m ms -> In (JEEDOM, r) (requests (m_out m)) -> let s := m_set m in
  r_data r = None /\
  r_url r = (if Nat.eqb (length (s_jdom_url s)) 0 then str "/" else s_jdom_url s) ++ str "?api=" ++ s_jdom_key s ++
            concat (map (jeedom_text (s_jdom_adco s)) (m_groups m)).
Proof. intros fuel sgn b d0 acts en es d os ms. exact (c99_jeedom fuel sgn b d0 acts en es d os ms). Qed.
Print Assumptions C99_jeedom.
(** A frame that ends 301 s after the start. *)
Definition c99_late : list devent := bytes_at 301000 (frame_of groups_a).
Lemma c99_late_run : forall v ee,
  result (fun d os => (map fst (requests (concat os)), existsb (fun o => match o with RestartNow => true | _ => false end) (concat os)))
    (drun 256 true c99_late (dev_at v ee)) = Some ([MAJ; JEEDOM; EMONCMS], false).
Proof. intros v ee. vm_compute. reflexivity. Qed.
Example C99_ex_jeedom : exists d0 acts d os ms m r, start_ok start1 /\ boot start1 = Some (d0, acts) /\
  Forall is_byte (map snd (heard false c99_late)) /\ Forall (same_env env0) c99_late /\ drun 256 true c99_late d0 = Done (d, os) /\
  ~ In RestartNow (concat os) /\ frames 256 true d0 [] c99_late ms /\ In m ms /\ In (JEEDOM, r) (requests (m_out m)).
Proof.
  destruct boot1 as (v & ee & B). destruct (result_ok _ _ _ _ _ (c99_late_run v ee)) as (d & os & R & X). injection X as X1 X2.
  assert (Hb : Forall is_byte (map snd (heard false c99_late))) by (apply bytesb_spec; vm_compute; reflexivity).
  assert (He : Forall (same_env env0) c99_late) by (unfold c99_late, bytes_at; rewrite Forall_map; apply Forall_forall; reflexivity).
  assert (NR : ~ In RestartNow (concat os)).
  { intros J. assert (Y : existsb (fun o => match o with RestartNow => true | _ => false end) (concat os) = true).
    { apply existsb_exists. exists RestartNow. split; [exact J|reflexivity]. } congruence. }
  destruct (C99_frames 256 true start1 (dev_at v ee) _ [] c99_late d os start1_ok B Hb R) as (ms & F).
  assert (O := C99_only_frames 256 true start1 _ _ env0 c99_late d os ms start1_ok B Hb He R NR F).
  assert (J : In JEEDOM (map fst (requests (concat os)))) by (rewrite X1; cbn; tauto).
  rewrite O in J. apply in_map_iff in J. destruct J as ([w r] & E & J). cbn [fst] in E. subst w. apply in_flat_map in J. destruct J as (m & J1 & J2).
  exists (dev_at v ee), [StationMode; AutoReconnect], d, os, ms, m, r. split; [exact start1_ok|]. auto 10.
Qed.

Theorem C99_emoncms : forall fuel sgn b d0 acts en es d os ms, start_ok b -> boot b = Some (d0, acts) ->
  Forall is_byte (map snd (heard false es)) -> Forall (same_env en) es -> drun fuel sgn es d0 = Done (d, os) -> ~ In RestartNow (concat os) ->
  frames fuel sgn d0 [] es ms -> forall m r, In m ms -> In (EMONCMS, r) (requests (m_out m)) -> let s := m_set m in
  r_data r = None /\
  r_url r = (if Nat.eqb (length (s_emon_url s)) 0 then str "/" else s_emon_url s) ++ str "?" ++
            (if 0 <? s_emon_node s then str "node=" ++ dec (s_emon_node s) ++ str "&" else []) ++
            str "apikey=" ++ s_emon_key s ++ str "&json=" ++ emon_payload (m_groups m).
Proof. intros fuel sgn b d0 acts en es d os ms. exact (c99_emoncms fuel sgn b d0 acts en es d os ms). Qed.
Print Assumptions C99_emoncms.
Theorem C99_http : forall fuel sgn b d0 acts en es d os ms, start_ok b -> boot b = Some (d0, acts) ->
  Forall is_byte (map snd (heard false es)) -> Forall (same_env en) es -> drun fuel sgn es d0 = Done (d, os) -> ~ In RestartNow (concat os) ->
  frames fuel sgn d0 [] es ms -> Forall devent_ok es ->
  forall m w r ps, In m ms -> In (w, r) (requests (m_out m)) -> w <> JEEDOM -> w <> EMONCMS ->
  let s := m_set m in let gs := m_groups m in
  s_http_url s = concat (map written ps) -> Forall piece_ok ps -> separated ps ->
  r_url r = concat (map (meaning en (m_date m) gs (type_name w)) ps) /\
  (s_use_post s = false -> r_data r = None) /\
  (s_use_post s = true -> exists body, r_data r = Some body /\
     (quotable (iso en (tv_sec (m_date m))) = true -> Forall json_ready gs ->
      json_of body = Some (JObj (
       (str "timestamp", JStr (iso en (tv_sec (m_date m)))) :: (str "seconds", JStr (seconds_text (m_date m))) ::
       (str "notif", JStr (type_name w)) :: map (fun g => (fst g, json_value (snd g))) gs)))).
Proof. intros fuel sgn b d0 acts en es d os ms. exact (c99_http fuel sgn b d0 acts en es d os ms). Qed.
Print Assumptions C99_http.
(** The second frame sends requests of these kinds (C99_requests, C99_emoncms, C99_http); the template of the settings is the one of
    the examples of C19. *)
Example C99_ex_requests : exists d0 acts d os x y z r1 r2 r3 r4, hypotheses1 d0 acts d os [x; y; z] /\
  requests (m_out y) = [(PTEC, r1); (HAUT, r2); (ADPS, r3); (EMONCMS, r4)] /\ r_host r1 = str "10.0.0.2" /\ r_port r1 = 8080 /\
  r_host r4 = str "emoncms.org" /\ r_port r4 = 80 /\ s_http_url (m_set y) = str "/n?t=~type~&p=$PAPP,~~".
Proof.
  destruct hyps1 as (d0 & acts & d & os & ms & H & _ & G & S & Q).
  destruct (three _ _ _ _ _ _ _ Q) as (x & y & z & -> & Qx & Qy & Qz). cbn [map] in S. injection S as SX SY SZ.
  destruct (requests (m_out y)) as [|[w1 r1] [|[w2 r2] [|[w3 r3] [|[w4 r4] [|? l]]]]] eqn:E; try discriminate Qy.
  cbn [map fst] in Qy. injection Qy as -> -> -> ->. exists d0, acts, d, os, x, y, z, r1, r2, r3, r4. split; [exact H|]. split; [exact E|].
  destruct H as (St & B & Hb & He & _ & _ & R & NR & F).
  destruct (C99_requests 256 true start1 d0 acts env0 history1 d os _ St B Hb He R NR F y ltac:(cbn; tauto)) as (_ & P). rewrite E, SY in P.
  destruct (P PTEC r1 ltac:(cbn; tauto)) as (_ & A1 & A2 & _). destruct (P EMONCMS r4 ltac:(cbn; tauto)) as (_ & B1 & B2 & _).
  rewrite A1, A2, B1, B2, SY. repeat split; vm_compute; reflexivity.
Qed.


(** C99, periodic requests: the settings were last taken into account when millis() was at [a] (at the start or by a form); since
    then no form was sent, and the frames [ms] ended [ds] ms later. A service without host, port or period gets no periodic request;
    the others get one at most per slot of their period, and at the first frame after each multiple of the period if the frames are
    close enough for the 32-bit counter. *)
Theorem C99_period : forall fuel sgn b d0 acts en past es dp osp d os ms a w ds, start_ok b -> boot b = Some (d0, acts) ->
  Forall is_byte (map snd (heard false (past ++ es))) -> Forall (same_env en) es ->
  configured_at fuel sgn b d0 past (u32 a) ->
  drun fuel sgn past d0 = Done (dp, osp) -> drun fuel sgn (past ++ es) d0 = Done (d, os) -> ~ In RestartNow (concat os) ->
  frames fuel sgn d0 past es ms -> Forall no_form es ->
  let s := view (cfg_of dp) in let p := 1000 * freq_of s w in
  periodic w = true -> map m_now ms = map (fun x => u32 (a + x)) ds ->
  (host_of s w = [] \/ port_of s w = 0 \/ freq_of s w = 0 -> Forall (fun m => sends w m = false) ms) /\
  (host_of s w <> [] -> port_of s w <> 0 -> 0 < freq_of s w -> p <= 4294967294 ->
    (Sorted Z.le (0 :: ds) -> one_per_slot p 0 ds (map (sends w) ms)) /\
    (spaced p 0 ds -> map (sends w) ms = firings p 0 ds)).
Proof.
  intros fuel sgn b d0 acts en past es dp osp d os ms a w ds S B. exact (c99_period fuel sgn b d0 acts en S B past es dp osp d os ms a w ds).
Qed.
Print Assumptions C99_period.
(** The settings are those of the start, at 0; emoncms every 30 s: at 31 s and 70 s; notifications every 60 s: at 70 s; Jeedom every 300 s: none. *)
Example C99_ex_period : exists d0 acts d os ms, hypotheses1 d0 acts d os ms /\ configured_at 256 true start1 d0 [] (u32 0) /\
  map m_now ms = map (fun x => u32 (0 + x)) [1000; 31000; 70000] /\ freq_of (view (cfg_of d0)) EMONCMS = 30 /\
  map (sends EMONCMS) ms = [false; true; true] /\ map (sends MAJ) ms = [false; false; true] /\ map (sends JEEDOM) ms = [false; false; false] /\
  firings 30000 0 [1000; 31000; 70000] = [false; true; true].
Proof.
  destruct hyps1 as (d0 & acts & d & os & ms & H & N & _ & _ & Q). exists d0, acts, d, os, ms. split; [exact H|].
  split; [exact (by_start 256 true start1 d0)|]. split; [exact N|]. rewrite !sends_reasons, Q. split; [|repeat split].
  destruct H as (_ & B & _). destruct boot1 as (v & ee & B'). rewrite B in B'. injection B' as -> _. vm_compute. reflexivity.
Qed.
