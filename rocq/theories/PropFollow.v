(** Property theorems C110: what a home automation server knows of the meter from the notifications. Specification: FollowSpec.v, ChainSpec.v. *)
From Coq Require Import ZArith List Bool Lia.
From Verif Require Import Base BaseFacts Teleinfo TeleinfoSpec Publish HistorySpec Config ConfigSpec Json
  Tic TicSpec Sse Cpu Web Wifi Device WebSpec DeviceProofs ChainSpec FollowSpec FollowMain FollowUpdate FollowServices Samples SamplesFacts TicSamples WebSamples ChainSamples.
Import ListNotations.
Open Scope Z_scope.

(** In all the theorems: the module starts, then anything happens, until now or until the next restart; [xs] are the valid frames that ended
    meanwhile, and for each of them whether the server could be reached. *)

(** C110, overload: if the server could be reached each time, or each time after an overload notification that it got, then it knows whether the
    last frame tells an overload. *)
Theorem C110_overload_partial : forall fuel sgn b d0 acts en es d os xs, start_ok b -> boot b = Some (d0, acts) ->
  Forall is_byte (map snd (heard false es)) -> Forall (same_env en) es -> drun fuel sgn es d0 = Done (d, os) -> ~ In RestartNow (concat os) ->
  frames fuel sgn d0 [] es (map fst xs) -> Forall (fun x => on s_adps (fst x)) xs ->
  forall m, last_frame xs m ->
  Forall reached xs \/ (exists before x after, xs = before ++ x :: after /\ (got ADPS x = true \/ got NORM x = true) /\ Forall reached after) ->
  overload_known xs = in_overload m.
Proof. exact c110_overload. Qed.
Print Assumptions C110_overload_partial.

(** C110, tariff: the period known is that of the last frame; nothing is known as long as the period has not changed since the start. *)
Theorem C110_period_partial : forall fuel sgn b d0 acts en es d os xs, start_ok b -> boot b = Some (d0, acts) ->
  Forall is_byte (map snd (heard false es)) -> Forall (same_env en) es -> drun fuel sgn es d0 = Done (d, os) -> ~ In RestartNow (concat os) ->
  frames fuel sgn d0 [] es (map fst xs) -> Forall (fun x => on s_ptec (fst x)) xs ->
  let period m := lookup (str "PTEC") (m_groups m) in
  Forall (fun x => exists p, period (fst x) = Some p /\ (1 <= length p <= 7)%nat) xs ->
  forall m, last_frame xs m ->
  (Forall reached xs -> period_known xs = period m \/ (period_known xs = None /\ forall x, In x xs -> period (fst x) = period m)) /\
  (forall before x after, xs = before ++ x :: after -> got PTEC x = true -> Forall reached after -> period_known xs = period m).
Proof. exact c110_period. Qed.
Print Assumptions C110_period_partial.

(** C110, thresholds: when the power is known as high, the last frame is above the low threshold; else it is below the high one. *)
Theorem C110_power_partial : forall fuel sgn b d0 acts en es d os xs, start_ok b -> boot b = Some (d0, acts) ->
  Forall is_byte (map snd (heard false es)) -> Forall (same_env en) es -> drun fuel sgn es d0 = Done (d, os) -> ~ In RestartNow (concat os) ->
  frames fuel sgn d0 [] es (map fst xs) -> forall low high, low < high ->
  Forall (fun x => on s_seuils (fst x) /\ power (m_groups (fst x)) <> 0 /\ s_seuil_bas (m_set (fst x)) = low /\ s_seuil_haut (m_set (fst x)) = high) xs ->
  forall m, last_frame xs m ->
  Forall reached xs \/ (exists before x after, xs = before ++ x :: after /\ (got HAUT x = true \/ got BAS x = true) /\ Forall reached after) ->
  (high_known xs = true -> low < power (m_groups m)) /\ (high_known xs = false -> power (m_groups m) < high).
Proof. exact c110_power. Qed.
Print Assumptions C110_power_partial.

(** Three frames (peak hours, 500 W; off-peak, 5600 W, overload; off-peak, 300 W): the hypotheses of the three theorems; the server cannot be
    reached for the first frame. *)
Example C110_ex : exists d0 acts d os x y z, hypotheses1 d0 acts d os [x; y; z] /\ let xs := [(x, false); (y, true); (z, true)] in
  Forall (fun x => on s_adps (fst x)) xs /\ Forall (fun x => on s_ptec (fst x)) xs /\
  Forall (fun x => exists p, lookup (str "PTEC") (m_groups (fst x)) = Some p /\ (1 <= length p <= 7)%nat) xs /\
  Forall (fun x => on s_seuils (fst x) /\ power (m_groups (fst x)) <> 0 /\ s_seuil_bas (m_set (fst x)) = 4200 /\ s_seuil_haut (m_set (fst x)) = 5500) xs /\
  got ADPS (y, true) = true /\ got PTEC (y, true) = true /\ got HAUT (y, true) = true /\ Forall reached [(z, true)] /\
  overload_known xs = false /\ period_known xs = Some (str "HC") /\ high_known xs = false /\
  overload_known [(x, false); (y, true)] = true /\ high_known [(x, false); (y, true)] = true.
Proof.
  destruct hyps1 as (d0 & acts & d & os & ms & H & _ & G & S & Q). destruct (three _ _ _ _ _ _ _ Q) as (x & y & z & -> & Qx & Qy & Qz).
  exists d0, acts, d, os, x, y, z. split; [exact H|]. cbn [map] in G, S. injection G as GX GY GZ. injection S as SX SY SZ.
  assert (A := fun w => sends_reasons w [x; y; z]). cbn [map] in A. rewrite Qx, Qy, Qz in A.
  assert (A1 := fun w => f_equal (fun l => nth 0 l true) (A w)). assert (A2 := fun w => f_equal (fun l => nth 1 l true) (A w)). assert (A3 := fun w => f_equal (fun l => nth 2 l true) (A w)).
  cbn [nth] in A1, A2, A3. cbv zeta.
  split; [repeat (apply Forall_cons || apply Forall_nil); unfold on; cbn [fst]; rewrite ?SX, ?SY, ?SZ; split; vm_compute; congruence|].
  split; [repeat (apply Forall_cons || apply Forall_nil); unfold on; cbn [fst]; rewrite ?SX, ?SY, ?SZ; split; vm_compute; congruence|].
  split; [repeat (apply Forall_cons || apply Forall_nil); cbn [fst]; rewrite ?GX, ?GY, ?GZ; eexists; (split; [vm_compute; reflexivity|cbn; lia])|].
  split; [repeat (apply Forall_cons || apply Forall_nil); unfold on; cbn [fst]; rewrite ?SX, ?SY, ?SZ, ?GX, ?GY, ?GZ; repeat split; vm_compute; congruence|].
  unfold overload_known, period_known, high_known, got. cbn [fold_left fst snd andb]. rewrite !A2, !A3, GY. repeat split. repeat constructor.
Qed.

(** A notification that did not reach the server is never sent again: as long as the situation lasts, the server knows what it knew before. *)
Theorem C110_lost : forall fuel sgn b d0 acts en es d os xs, start_ok b -> boot b = Some (d0, acts) ->
  Forall is_byte (map snd (heard false es)) -> Forall (same_env en) es -> drun fuel sgn es d0 = Done (d, os) -> ~ In RestartNow (concat os) ->
  frames fuel sgn d0 [] es (map fst xs) -> forall before m after, xs = before ++ (m, false) :: after ->
  (Forall (fun x => on s_adps (fst x)) xs -> Forall (fun x => in_overload (fst x) = in_overload m) after -> overload_known xs = overload_known before) /\
  (let period m := lookup (str "PTEC") (m_groups m) in Forall (fun x => on s_ptec (fst x)) xs ->
   Forall (fun x => exists p, period (fst x) = Some p /\ (1 <= length p <= 7)%nat) xs -> Forall (fun x => period (fst x) = period m) after ->
   period_known xs = period_known before) /\
  (forall low high, low < high ->
   Forall (fun x => on s_seuils (fst x) /\ power (m_groups (fst x)) <> 0 /\ s_seuil_bas (m_set (fst x)) = low /\ s_seuil_haut (m_set (fst x)) = high) xs ->
   (sends HAUT m = true /\ Forall (fun x => low < power (m_groups (fst x))) after) \/ (sends BAS m = true /\ Forall (fun x => power (m_groups (fst x)) < high) after) ->
   high_known xs = high_known before).
Proof.
  intros fuel sgn b d0 acts en es d os xs S B Y E R N F before m after X. split; [|split].
  - intros H. exact (c110_overload_lost fuel sgn b d0 acts en es d os xs S B Y E R N F H before m after X).
  - intros period H P. exact (c110_period_lost fuel sgn b d0 acts en es d os xs S B Y E R N F H P before m after X).
  - intros low high L H. exact (c110_power_lost fuel sgn b d0 acts en es d os xs S B Y E R N F low high L H before m after X).
Qed.
Print Assumptions C110_lost.
(** So the full claim (the server knows the period soon after it can be reached again) is false: here it can be reached for the last frame, in
    off-peak hours like the one before, and does not know that the period has changed. *)
Theorem C110_outage_refuted : exists d0 acts d os x y z, hypotheses1 d0 acts d os [x; y; z] /\
  on s_ptec x /\ on s_ptec y /\ on s_ptec z /\
  map (fun m => lookup (str "PTEC") (m_groups m)) [x; y; z] = [Some (str "HP"); Some (str "HC"); Some (str "HC")] /\
  period_known [(x, true); (y, false); (z, true)] = None /\ period_known [(x, true); (y, true); (z, true)] = Some (str "HC").
Proof.
  destruct hyps1 as (d0 & acts & d & os & ms & H & _ & G & S & Q). destruct (three _ _ _ _ _ _ _ Q) as (x & y & z & -> & Qx & Qy & Qz).
  exists d0, acts, d, os, x, y, z. split; [exact H|]. cbn [map] in G, S. injection G as GX GY GZ. injection S as SX SY SZ.
  assert (A := sends_reasons PTEC [x; y; z]). cbn [map] in A. rewrite Qx, Qy, Qz in A. injection A as A1 A2 A3.
  split; [unfold on; rewrite SX; split; vm_compute; congruence|]. split; [unfold on; rewrite SY; split; vm_compute; congruence|].
  split; [unfold on; rewrite SZ; split; vm_compute; congruence|]. split; [cbn [map]; rewrite GX, GY, GZ; reflexivity|].
  unfold period_known, got. cbn [fold_left fst snd andb]. rewrite A1, A2, A3, GY. split; reflexivity.
Qed.
Print Assumptions C110_outage_refuted.

(** C110, regular updates: they repair this. The settings were last taken into account when millis() was at [a], at the start or by a form sent at the end of [past]; they have a host,
    a port and a period for the updates, and the data are posted; [zs] are the frames since then, with the number of ms between [a] and each of them. If the server can be reached for
    all the frames that end since an outage, and this has lasted for one period, then the last text that was posted to it is valid JSON and carries all
    the groups of a frame that ended less than one period before the last one, after the outage. *)
Theorem C110_update : forall fuel sgn b d0 acts en past es dp osp d os zs a, start_ok b -> boot b = Some (d0, acts) ->
  Forall is_byte (map snd (heard false (past ++ es))) -> Forall (same_env en) (past ++ es) ->
  drun fuel sgn past d0 = Done (dp, osp) -> drun fuel sgn (past ++ es) d0 = Done (d, os) -> ~ In RestartNow (concat os) ->
  frames fuel sgn d0 past es (map fst (map fst zs)) -> Forall no_form es ->
  configured_at fuel sgn b d0 past (u32 a) -> map m_now (map fst (map fst zs)) = map (fun x => u32 (a + x)) (map snd zs) ->
  Forall (fun m => s_use_post (m_set m) = true) (map fst (map fst zs)) ->
  Forall (fun m => quotable (iso en (tv_sec (m_date m))) = true /\ Forall json_ready (m_groups m)) (map fst (map fst zs)) ->
  let s := view (cfg_of dp) in let p := 1000 * freq_of s MAJ in
  host_of s MAJ <> [] -> port_of s MAJ <> 0 -> 0 < freq_of s MAJ -> p <= 4294967294 -> spaced p 0 (map snd zs) ->
  forall before after, zs = before ++ after -> Forall (fun z => reached (fst z)) after -> last (map snd before) 0 + p <= last (map snd zs) 0 ->
  exists z w body, In z after /\ last (map snd zs) 0 - p < snd z /\ last_post (map fst zs) = Some body /\
    let m := fst (fst z) in
    json_of body = Some (JObj (
      (str "timestamp", JStr (iso en (tv_sec (m_date m)))) :: (str "seconds", JStr (seconds_text (m_date m))) ::
      (str "notif", JStr (type_name w)) :: map (fun g => (fst g, json_value (snd g))) (m_groups m))).
Proof. intros fuel sgn b d0 acts en past es dp osp d os zs a. exact (c110_update fuel sgn b d0 acts en past es dp osp d os zs a). Qed.
Print Assumptions C110_update.
(** Updates every 60 s, frames at 1, 31 and 70 s; the server cannot be reached for the first one. *)
Example C110_ex_update : exists d0 acts d os x y z, hypotheses1 d0 acts d os [x; y; z] /\
  let before := [((x, false), 1000)] in let after := [((y, true), 31000); ((z, true), 70000)] in let zs := before ++ after in
  configured_at 256 true start1 d0 [] (u32 0) /\ map m_now (map fst (map fst zs)) = map (fun x => u32 (0 + x)) (map snd zs) /\
  Forall (fun m => s_use_post (m_set m) = true) (map fst (map fst zs)) /\
  Forall (fun m => quotable (iso env0 (tv_sec (m_date m))) = true /\ Forall json_ready (m_groups m)) (map fst (map fst zs)) /\
  let s := view (cfg_of d0) in let p := 1000 * freq_of s MAJ in
  host_of s MAJ <> [] /\ port_of s MAJ <> 0 /\ 0 < freq_of s MAJ /\ p <= 4294967294 /\ spaced p 0 (map snd zs) /\
  Forall (fun z => reached (fst z)) after /\ last (map snd before) 0 + p <= last (map snd zs) 0.
Proof.
  destruct hyps1 as (d0 & acts & d & os & ms & H & N & G & S & Q). destruct (three _ _ _ _ _ _ _ Q) as (x & y & z & -> & _ & _ & _).
  exists d0, acts, d, os, x, y, z. split; [exact H|]. destruct H as (_ & B & _). destruct boot1 as (v & ee & B'). rewrite B in B'. injection B' as -> _. clear B.
  cbn [map] in N, G, S. injection G as GX GY GZ. injection S as SX SY SZ. injection N as NX NY NZ. cbv zeta. cbn [app map fst snd last].
  split; [exact (by_start 256 true start1 _)|]. split; [rewrite NX, NY, NZ; reflexivity|].
  split; [repeat (apply Forall_cons || apply Forall_nil); rewrite ?SX, ?SY, ?SZ; vm_compute; reflexivity|].
  split; [repeat (apply Forall_cons || apply Forall_nil); (split; [vm_compute; reflexivity|]); rewrite ?GX, ?GY, ?GZ;
    repeat (apply Forall_cons || apply Forall_nil); unfold json_ready; (split; [vm_compute; reflexivity|]); (split; [vm_compute; reflexivity|discriminate])|].
  assert (F : freq_of (view (cfg_of (dev_at v ee))) MAJ = 60) by (vm_compute; reflexivity). rewrite F.
  split; [vm_compute; discriminate|]. split; [vm_compute; discriminate|]. split; [lia|]. split; [lia|]. split; [cbn; lia|]. split; [repeat constructor|lia].
Qed.

(** C110, periodic requests to the services (regular updates, Jeedom, emoncms): in the same conditions, the last request that reached
    the service was sent, after the outage, for a frame that ended less than one period before the last one, and it carries this frame. *)
Theorem C110_services : forall fuel sgn b d0 acts en past es dp osp d os zs a, start_ok b -> boot b = Some (d0, acts) ->
  Forall is_byte (map snd (heard false (past ++ es))) -> Forall (same_env en) (past ++ es) ->
  drun fuel sgn past d0 = Done (dp, osp) -> drun fuel sgn (past ++ es) d0 = Done (d, os) -> ~ In RestartNow (concat os) ->
  frames fuel sgn d0 past es (map fst (map fst zs)) -> Forall no_form es ->
  configured_at fuel sgn b d0 past (u32 a) -> map m_now (map fst (map fst zs)) = map (fun x => u32 (a + x)) (map snd zs) ->
  forall w, periodic w = true -> let s := view (cfg_of dp) in let p := 1000 * freq_of s w in
  host_of s w <> [] -> port_of s w <> 0 -> 0 < freq_of s w -> p <= 4294967294 -> spaced p 0 (map snd zs) ->
  forall before after, zs = before ++ after -> Forall (fun z => reached (fst z)) after -> last (map snd before) 0 + p <= last (map snd zs) 0 ->
  exists z r, In z after /\ last (map snd zs) 0 - p < snd z /\ last_request w (map fst zs) = Some r /\
    let m := fst (fst z) in let s := m_set m in
    In (w, r) (requests (m_out m)) /\ r_host r = host_of s w /\ r_port r = port_of s w /\
    (w = JEEDOM -> r_data r = None /\
       r_url r = (if Nat.eqb (length (s_jdom_url s)) 0 then str "/" else s_jdom_url s) ++ str "?api=" ++ s_jdom_key s ++
                 concat (map (jeedom_text (s_jdom_adco s)) (m_groups m))) /\
    (w = EMONCMS -> r_data r = None /\
       r_url r = (if Nat.eqb (length (s_emon_url s)) 0 then str "/" else s_emon_url s) ++ str "?" ++
                 (if 0 <? s_emon_node s then str "node=" ++ dec (s_emon_node s) ++ str "&" else []) ++
                 str "apikey=" ++ s_emon_key s ++ str "&json=" ++ emon_payload (m_groups m)).
Proof. intros fuel sgn b d0 acts en past es dp osp d os zs a. exact (c110_service fuel sgn b d0 acts en past es dp osp d os zs a). Qed.
Print Assumptions C110_services.
(** Emoncms every 30 s, frames at 1, 31 and 70 s; the service cannot be reached for the first one. *)
Example C110_ex_services : exists d0 acts d os x y z, hypotheses1 d0 acts d os [x; y; z] /\
  let before := [((x, false), 1000)] in let after := [((y, true), 31000); ((z, true), 70000)] in let zs := before ++ after in
  configured_at 256 true start1 d0 [] (u32 0) /\ map m_now (map fst (map fst zs)) = map (fun x => u32 (0 + x)) (map snd zs) /\
  let s := view (cfg_of d0) in let p := 1000 * freq_of s EMONCMS in
  host_of s EMONCMS <> [] /\ port_of s EMONCMS <> 0 /\ 0 < freq_of s EMONCMS /\ p <= 4294967294 /\ spaced p 0 (map snd zs) /\
  Forall (fun z => reached (fst z)) after /\ last (map snd before) 0 + p <= last (map snd zs) 0.
Proof.
  destruct hyps1 as (d0 & acts & d & os & ms & H & N & G & S & Q). destruct (three _ _ _ _ _ _ _ Q) as (x & y & z & -> & _ & _ & _).
  exists d0, acts, d, os, x, y, z. split; [exact H|]. destruct H as (_ & B & _). destruct boot1 as (v & ee & B'). rewrite B in B'. injection B' as -> _. clear B.
  cbn [map] in N. injection N as NX NY NZ. cbv zeta. cbn [app map fst snd last].
  split; [exact (by_start 256 true start1 _)|]. split; [rewrite NX, NY, NZ; reflexivity|].
  assert (F : freq_of (view (cfg_of (dev_at v ee))) EMONCMS = 30) by (vm_compute; reflexivity). rewrite F.
  split; [vm_compute; discriminate|]. split; [vm_compute; discriminate|]. split; [lia|]. split; [lia|]. split; [cbn; lia|]. split; [repeat constructor|lia].
Qed.
