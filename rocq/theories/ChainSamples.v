(** A module with three services, that receives frames, a page request and an upload. *)
From Coq Require Import ZArith List Bool Lia Sorted.
From Verif Require Import Base BaseFacts Teleinfo TeleinfoSpec Publish HistorySpec Config ConfigSpec ConfigProofs ConfigMain ConfigHist ConfigSamples Json
  Tic TicSpec Sse Cpu Web Wifi Device WebSpec WebProofs DeviceProofs SlotSpec ChainSpec ChainProofs ChainMain Samples SamplesFacts TicSamples WebSamples.
Import ListNotations.
Open Scope Z_scope.

Lemma wfb_spec : forall c, forallb (fun f => Nat.eqb (length (get f c)) (fsize f) && bytesb (get f c)) fields = true -> length c = 35%nat -> wf c.
Proof.
  intros c H L. apply mk_wf; [exact L|]. intros f. rewrite forallb_forall in H. assert (I : In f fields) by (destruct f; cbn; tauto).
  specialize (H f I). apply andb_prop in H. destruct H as [H1 H2]. split; [apply Nat.eqb_eq; exact H1|apply bytesb_spec; exact H2].
Qed.
Lemma cfg0_wf : wf cfg0.
Proof. apply wfb_spec; vm_compute; reflexivity. Qed.

(** The configuration cfg0 of TicSamples is in the flash, the Wi-Fi is connected. *)
Definition start1 : start := mk_start ConfigSamples.chip1 zeroed (image (sealed cfg0)) Stored Stored Stored (fun _ => 3) [] [] 0 blank blank.
Lemma start1_ok : start_ok start1.
Proof.
  split; [cbn; unfold ConfigSamples.chip1; lia|]. split; [apply zeroed_wf|]. split; [exact (image_flash_ok _ (sealed_wf _ cfg0_wf))|].
  split; [constructor|]. split; [constructor|]. split; reflexivity.
Qed.
Definition dev_at (v : list Z) (ee : eeprom) : device :=
  mk_dev (mk_cs (secured (set Crc v cfg0)) ee) (pub_init blank blank) ns_init (tic_make_timers 0 (secured (set Crc v cfg0)) timers_init) sse_init
    (perf_init 0) false.
Lemma boot_of : forall o1 o2 o3 fl s, config_setup ConfigSamples.chip1 o1 o2 zeroed fl = Some s -> text Ssid (c_cfg s) = [] ->
  boot (mk_start ConfigSamples.chip1 zeroed fl o1 o2 o3 (fun _ => 3) [] [] 0 blank blank) =
    Some (mk_dev s (pub_init blank blank) ns_init (tic_make_timers 0 (c_cfg s) timers_init) sse_init (perf_init 0) false, [StationMode; AutoReconnect]).
Proof.
  intros o1 o2 o3 fl s H T. unfold boot. cbn [b_chip b_o1 b_o2 b_mem b_flash b_o3 b_status b_ssid b_psk b_g1 b_g2 b_now]. rewrite H.
  unfold sys_wifi_connect, adopt_sdk. rewrite T. cbn [cstr]. cbv beta iota zeta. rewrite T. reflexivity.
Qed.
Lemma sealed_boot : forall c, wf c -> text Ssid (secured (sealed c)) = [] ->
  boot (mk_start ConfigSamples.chip1 zeroed (image (sealed c)) Stored Stored Stored (fun _ => 3) [] [] 0 blank blank) =
    Some (mk_dev (mk_cs (secured (sealed c)) (ee_begin (image (sealed c)))) (pub_init blank blank) ns_init
            (tic_make_timers 0 (secured (sealed c)) timers_init) sse_init (perf_init 0) false, [StationMode; AutoReconnect]).
Proof.
  intros c W T. apply (boot_of Stored Stored Stored (image (sealed c)) (mk_cs (secured (sealed c)) (ee_begin (image (sealed c))))); [|exact T].
  rewrite (setup_good ConfigSamples.chip1 Stored Stored zeroed (image (sealed c)) (image_flash_ok (sealed c) (sealed_wf c W)) (crc_sealed c W)).
  rewrite (of_image_image (sealed c) (sealed_wf c W)). reflexivity.
Qed.
Lemma no_ssid : forall v, text Ssid (secured (set Crc v cfg0)) = [].
Proof. intros v. vm_compute. reflexivity. Qed.
Lemma boot1 : exists v ee, boot start1 = Some (dev_at v ee, [StationMode; AutoReconnect]).
Proof.
  exists (le16 (crc_of (firstn (CFG_SIZE - 2) (image cfg0)))), (ee_begin (image (sealed cfg0))).
  exact (sealed_boot cfg0 cfg0_wf (no_ssid (le16 (crc_of (firstn (CFG_SIZE - 2) (image cfg0)))))).
Qed.

(** Bytes of the meter, when millis() is at [n]. *)
Definition bytes_at (n : Z) (l : list Z) : list devent := map (fun c => DByte (at_ms n) (fun _ => true) now0 c) l.
Definition history1 : list devent :=
  bytes_at 1000 (frame_of [(str "PTEC", str "HP.."); (str "PAPP", str "00500")]) ++
  [DHttp (at_ms 2000) (ask "/json")] ++
  bytes_at 31000 (frame_of [(str "PTEC", str "HC.."); (str "ADPS", str "031"); (str "PAPP", str "05600")]) ++
  [DUpload (at_ms 40000) (UpStart (str "firmware.bin") 10 true true)] ++
  bytes_at 50000 (frame_of [(str "PTEC", str "HP.."); (str "PAPP", str "00300")]) ++
  [DUpload (at_ms 60000) (UpWrite (str "abc") false true)] ++
  bytes_at 70000 (frame_of [(str "PTEC", str "HC.."); (str "PAPP", str "00300")]).
Lemma run1 : forall v ee,
  result (fun d os => (map fst (requests (concat os)), existsb (fun o => match o with RestartNow => true | _ => false end) (concat os)))
    (drun 256 true history1 (dev_at v ee)) = Some ([PTEC; HAUT; ADPS; EMONCMS; BAS; NORM; MAJ; EMONCMS], false).
Proof. intros v ee. vm_compute. reflexivity. Qed.
Lemma heard1 : Forall is_byte (map snd (heard false history1)).
Proof. apply bytesb_spec. vm_compute. reflexivity. Qed.
Lemma env1 : Forall (same_env env0) history1.
Proof. unfold history1, bytes_at. rewrite !Forall_app, !Forall_map. repeat split; repeat constructor; apply Forall_forall; intros; reflexivity. Qed.
Lemma no_form1 : Forall no_form history1.
Proof.
  unfold history1, bytes_at. rewrite !Forall_app, !Forall_map. repeat split; repeat constructor; try (apply Forall_forall; intros; exact Logic.I).
  intros H. discriminate H.
Qed.
Lemma events1 : Forall devent_ok history1.
Proof.
  unfold history1, bytes_at. rewrite !Forall_app, !Forall_map.
  assert (X : forall l, bytesb l = true -> Forall (fun c => devent_ok (DByte (at_ms 0) (fun _ => true) now0 c)) l) by (intros l H; exact (bytesb_spec l H)).
  repeat split; try (apply X; vm_compute; reflexivity); repeat constructor; cbn; try lia.
Qed.

(** ** The frames of a history *)
Lemma heard_app : forall X off, exists off', forall Y, heard off (X ++ Y) = heard off X ++ heard off' Y.
Proof.
  induction X as [|e X IH]; intros off; [exists off; reflexivity|].
  destruct e; cbn [app heard]; try apply IH. destruct (IH off) as (o & H). exists o. intros Y. rewrite H. destruct off; reflexivity.
Qed.
Lemma heard_bytes : forall n l, heard false (bytes_at n l) = map (fun c => (now0, c)) l /\ heard true (bytes_at n l) = [].
Proof. intros n. induction l as [|c l [A B]]; [split; reflexivity|]. unfold bytes_at in *. cbn [map heard]. rewrite A, B. split; reflexivity. Qed.
Lemma not_three : forall es a up tv c a' t0 gs, c <> 3 -> ~ ends_frame es (DByte a up tv c) a' t0 gs.
Proof.
  intros es a up tv c a' t0 gs N (up' & tv' & c' & bodies & E & H & (pre & rest & F & M) & _). injection E as _ _ <- <-.
  rewrite H in F. assert (X : snd (last (heard false es ++ [(tv, c)]) (now0, 0)) = 3).
  { rewrite F. unfold frame_bytes in M. destruct rest as [|x rest] using rev_ind; [cbn in M; destruct (concat _); discriminate|].
    rewrite app_comm_cons, app_assoc, last_last. rewrite app_comm_cons, map_app in M. cbn [map] in M.
    change (2 :: concat (map enc_body bodies) ++ [3]) with ((2 :: concat (map enc_body bodies)) ++ [3]) in M. apply app_inj_tail in M. exact (proj2 M). }
  rewrite last_last in X. exact (N X).
Qed.
Lemma quiet_bytes : forall fuel sgn d0 past n l es ms, Forall (fun c => c <> 3) l -> frames fuel sgn d0 past es ms ->
  frames fuel sgn d0 past (es ++ bytes_at n l) ms.
Proof.
  intros fuel sgn d0 past n l. induction l as [|c l IH] using rev_ind; intros es ms N F; [rewrite app_nil_r; exact F|].
  apply Forall_app in N. destruct N as [N1 N2]. inversion N2 as [|? ? Nc _]; subst. unfold bytes_at in *. rewrite map_app, app_assoc.
  apply another; [apply IH; assumption|]. intros a t0 gs. apply not_three. exact Nc.
Qed.
Lemma one_frame : forall fuel sgn d0 past n es ms bodies d os, frames fuel sgn d0 past es ms -> valid_frame bodies ->
  Forall (fun c => c <> 3) (concat (map enc_body bodies)) ->
  heard false ((past ++ es) ++ bytes_at n (frame_bytes bodies)) = heard false (past ++ es) ++ map (fun c => (now0, c)) (frame_bytes bodies) ->
  drun fuel sgn (past ++ es ++ bytes_at n (frame_bytes bodies)) d0 = Done (d, os) ->
  exists m, frames fuel sgn d0 past (es ++ bytes_at n (frame_bytes bodies)) (ms ++ [m]) /\ m_now m = n /\ m_groups m = pairs_of (content bodies) /\
    m_date m = now0 /\ exists d1 os1, drun fuel sgn (past ++ es ++ bytes_at n (2 :: concat (map enc_body bodies))) d0 = Done (d1, os1) /\
    m_set m = view (cfg_of d1) /\ os = os1 ++ [m_out m].
Proof.
  intros fuel sgn d0 past n es ms bodies d os F V N H R. set (l := 2 :: concat (map enc_body bodies)).
  assert (E : frame_bytes bodies = l ++ [3]) by reflexivity. rewrite E in *.
  assert (Sp : bytes_at n (l ++ [3]) = bytes_at n l ++ [DByte (at_ms n) (fun _ => true) now0 3]) by (unfold bytes_at; rewrite map_app; reflexivity).
  rewrite Sp in *. rewrite !app_assoc in R. destruct (drun_snoc _ _ _ _ _ _ _ R) as (d1 & os1 & o & R1 & R2 & Eo).
  rewrite app_assoc. exists (mk_moment (view (cfg_of d1)) n now0 (pairs_of (content bodies)) o).
  split; [|split; [reflexivity|split; [reflexivity|split; [reflexivity|]]]].
  2: { exists d1, os1. split; [rewrite !app_assoc; exact R1|]. split; [reflexivity|exact Eo]. }
  assert (Q : frames fuel sgn d0 past (es ++ bytes_at n l) ms).
  { apply quiet_bytes; [|exact F]. constructor; [discriminate|exact N]. }
  rewrite <- app_assoc in R1.
  apply (a_frame fuel sgn d0 past (es ++ bytes_at n l) ms (DByte (at_ms n) (fun _ => true) now0 3) d1 os1 d o (at_ms n) now0 _ Q R1 R2).
  exists (fun _ => true), now0, 3, bodies. split; [reflexivity|].
  destruct (heard_app (past ++ es) false) as (off & Ho). rewrite Ho in H.
  assert (off = false).
  { destruct off; [|reflexivity]. rewrite <- Sp, (proj2 (heard_bytes n _)) in H. apply app_inv_head in H. destruct l; discriminate. }
  subst off. rewrite (app_assoc past es), <- (app_assoc (past ++ es)).
  assert (H2 : heard false ((past ++ es) ++ bytes_at n l ++ [DByte (at_ms n) (fun _ => true) now0 3]) = heard false (past ++ es) ++ map (fun c => (now0, c)) (l ++ [3])).
  { rewrite Ho, <- Sp, (proj1 (heard_bytes n _)). reflexivity. }
  split; [|split; [|split; [exact V|reflexivity]]].
  - rewrite H2, Ho, (proj1 (heard_bytes n _)), map_app, app_assoc. reflexivity.
  - rewrite H2. exists (heard false (past ++ es)), (map (fun c => (now0, c)) (concat (map enc_body bodies) ++ [3])). split; [reflexivity|].
    cbn [map snd]. rewrite map_map. cbn [snd]. rewrite map_id. reflexivity.
Qed.
Lemma other_event : forall fuel sgn d0 past es ms e, frames fuel sgn d0 past es ms -> (forall a up tv c, e <> DByte a up tv c) ->
  frames fuel sgn d0 past (es ++ [e]) ms.
Proof. intros fuel sgn d0 past es ms e F N. apply another; [exact F|]. intros a t0 gs (up & tv & c & bs & E & _). exact (N _ _ _ _ E). Qed.
Lemma unheard_bytes : forall fuel sgn d0 past n l es ms, heard false ((past ++ es) ++ bytes_at n l) = heard false (past ++ es) ->
  frames fuel sgn d0 past es ms -> frames fuel sgn d0 past (es ++ bytes_at n l) ms.
Proof.
  intros fuel sgn d0 past n l. induction l as [|c l IH] using rev_ind; intros es ms H F; [rewrite app_nil_r; exact F|].
  assert (Sp : bytes_at n (l ++ [c]) = bytes_at n l ++ [DByte (at_ms n) (fun _ => true) now0 c]) by (unfold bytes_at; rewrite map_app; reflexivity).
  destruct (heard_app (past ++ es) false) as (off & Ho). rewrite Ho in H.
  assert (off = true).
  { destruct off; [reflexivity|]. rewrite (proj1 (heard_bytes n _)) in H. assert (L := f_equal (@length event) H).
    rewrite app_length, map_length, app_length in L. cbn [length] in L. lia. }
  subst off. rewrite Sp, app_assoc. apply another.
  - apply IH; [|exact F]. rewrite Ho, (proj2 (heard_bytes n l)), app_nil_r. reflexivity.
  - intros a t0 gs (up & tv & c' & bs & E & X & _). rewrite (app_assoc past es), <- app_assoc, !Ho, <- Sp in X.
    rewrite !(proj2 (heard_bytes n _)), !app_nil_r in X. assert (L := f_equal (@length event) X). rewrite app_length in L. cbn [length] in L. lia.
Qed.
Lemma prefix_done : forall fuel sgn es1 es2 d d' os, drun fuel sgn (es1 ++ es2) d = Done (d', os) -> exists d1 os1, drun fuel sgn es1 d = Done (d1, os1).
Proof. intros fuel sgn es1 es2 d d' os H. rewrite drun_app in H. destruct (drun fuel sgn es1 d) as [[d1 os1]| |]; [eauto|discriminate|discriminate]. Qed.

Definition groups_a : list group := [(str "PTEC", str "HP.."); (str "PAPP", str "00500")].
Definition groups_b : list group := [(str "PTEC", str "HC.."); (str "ADPS", str "031"); (str "PAPP", str "05600")].
Definition groups_c : list group := [(str "PTEC", str "HC.."); (str "PAPP", str "00300")].
(** What is kept: the trailing points are removed. *)
Definition kept_1 : list (list group) :=
  [[(str "PTEC", str "HP"); (str "PAPP", str "00500")]; [(str "PTEC", str "HC"); (str "ADPS", str "031"); (str "PAPP", str "05600")];
   [(str "PTEC", str "HC"); (str "PAPP", str "00300")]].
Lemma notthree : forall l, forallb (fun c => negb (c =? 3)) l = true -> Forall (fun c => c <> 3) l.
Proof. intros l H. rewrite forallb_forall in H. apply Forall_forall. intros x I. specialize (H x I). apply negb_true_iff, Z.eqb_neq in H. exact H. Qed.
(** The events until the end of each frame. *)
Definition until1 : list devent := bytes_at 1000 (frame_of groups_a).
Definition before2 : list devent := until1 ++ [DHttp (at_ms 2000) (ask "/json")].
Definition until2 : list devent := before2 ++ bytes_at 31000 (frame_of groups_b).
Definition before3 : list devent :=
  ((until2 ++ [DUpload (at_ms 40000) (UpStart (str "firmware.bin") 10 true true)]) ++
   bytes_at 50000 (frame_of [(str "PTEC", str "HP.."); (str "PAPP", str "00300")])) ++
  [DUpload (at_ms 60000) (UpWrite (str "abc") false true)].
Lemma history1_is : history1 = before3 ++ bytes_at 70000 (frame_of groups_c).
Proof. unfold before3, until2, before2, until1. rewrite <- !app_assoc. reflexivity. Qed.
Definition outcome1 (es : list devent) (d0 : device) := result (fun d os => (view (cfg_of d), map fst (requests (last os [])))) (drun 256 true es d0).
Lemma ends1 : forall v ee, outcome1 until1 (dev_at v ee) = Some (view cfg0, []) /\
  outcome1 until2 (dev_at v ee) = Some (view cfg0, [PTEC; HAUT; ADPS; EMONCMS]) /\
  outcome1 history1 (dev_at v ee) = Some (view cfg0, [BAS; NORM; MAJ; EMONCMS]).
Proof. intros v ee. split; [|split]; vm_compute; reflexivity. Qed.
Lemma mid1 : forall v ee, outcome1 (bytes_at 1000 (2 :: concat (map enc_body (map (enc_group 32) groups_a)))) (dev_at v ee) = Some (view cfg0, []) /\
  outcome1 (before2 ++ bytes_at 31000 (2 :: concat (map enc_body (map (enc_group 32) groups_b)))) (dev_at v ee) = Some (view cfg0, []) /\
  outcome1 (before3 ++ bytes_at 70000 (2 :: concat (map enc_body (map (enc_group 32) groups_c)))) (dev_at v ee) = Some (view cfg0, []).
Proof. intros v ee. split; [|split]; vm_compute; reflexivity. Qed.
Lemma outcome1_done : forall es d0 x, outcome1 es d0 = Some x -> exists d os, drun 256 true es d0 = Done (d, os) /\ view (cfg_of d) = fst x /\
  map fst (requests (last os [])) = snd x.
Proof.
  intros es d0 x H. destruct (result_ok _ _ _ _ _ H) as (d & os & R & X). exists d, os. rewrite <- X. auto.
Qed.
Lemma outcome1_moment : forall es es' d0 d1 os1 d os m s r r', outcome1 es' d0 = Some (s, r') -> drun 256 true es' d0 = Done (d1, os1) ->
  m_set m = view (cfg_of d1) -> drun 256 true es d0 = Done (d, os) -> os = os1 ++ [m_out m] -> map fst (requests (last os [])) = r ->
  m_set m = s /\ map fst (requests (m_out m)) = r.
Proof.
  intros es es' d0 d1 os1 d os m s r r' H R1 M R -> E. rewrite last_last in E. split; [|exact E]. rewrite M.
  destruct (outcome1_done _ _ _ H) as (d2 & os2 & R2 & V & _). rewrite R1 in R2. assert (d1 = d2) by congruence. subst d2. exact V.
Qed.
Lemma frames1 : forall v ee, exists ms, frames 256 true (dev_at v ee) [] history1 ms /\ map m_now ms = [1000; 31000; 70000] /\
  map m_groups ms = kept_1 /\ map m_set ms = [view cfg0; view cfg0; view cfg0] /\
  map (fun m => map fst (requests (m_out m))) ms = [[]; [PTEC; HAUT; ADPS; EMONCMS]; [BAS; NORM; MAJ; EMONCMS]].
Proof.
  intros v ee. destruct (ends1 v ee) as (X1 & X2 & X3), (mid1 v ee) as (Y1 & Y2 & Y3).
  destruct (outcome1_done _ _ _ X1) as (d1 & os1 & R1 & _ & Q1), (outcome1_done _ _ _ X2) as (d2 & os2 & R2 & _ & Q2),
    (outcome1_done _ _ _ X3) as (d3 & os3 & R3 & _ & Q3).
  destruct (one_frame 256 true (dev_at v ee) [] 1000 [] [] (map (enc_group 32) groups_a) d1 os1) as (m1 & F1 & N1 & G1 & _ & e1 & o1 & P1 & S1 & O1).
  { constructor. } { apply valid_frameb_spec. vm_compute. reflexivity. } { apply notthree. vm_compute. reflexivity. } { vm_compute. reflexivity. } { exact R1. }
  destruct (outcome1_moment _ _ _ _ _ _ _ _ _ _ _ Y1 P1 S1 R1 O1 Q1) as (A1 & B1).
  assert (F2 := other_event 256 true (dev_at v ee) [] _ _ (DHttp (at_ms 2000) (ask "/json")) F1 ltac:(discriminate)).
  destruct (one_frame 256 true (dev_at v ee) [] 31000 before2 [m1] (map (enc_group 32) groups_b) d2 os2) as (m2 & F3 & N2 & G2 & _ & e2 & o2 & P2 & S2 & O2).
  { exact F2. } { apply valid_frameb_spec. vm_compute. reflexivity. } { apply notthree. vm_compute. reflexivity. } { vm_compute. reflexivity. } { exact R2. }
  destruct (outcome1_moment _ _ _ _ _ _ _ _ _ _ _ Y2 P2 S2 R2 O2 Q2) as (A2 & B2).
  assert (F4 := other_event 256 true (dev_at v ee) [] _ _ (DUpload (at_ms 40000) (UpStart (str "firmware.bin") 10 true true)) F3 ltac:(discriminate)).
  assert (F5 : frames 256 true (dev_at v ee) [] ((until2 ++ [DUpload (at_ms 40000) (UpStart (str "firmware.bin") 10 true true)]) ++
    bytes_at 50000 (frame_of [(str "PTEC", str "HP.."); (str "PAPP", str "00300")])) ([m1] ++ [m2])).
  { apply unheard_bytes; [vm_compute; reflexivity|exact F4]. }
  assert (F6 := other_event 256 true (dev_at v ee) [] _ _ (DUpload (at_ms 60000) (UpWrite (str "abc") false true)) F5 ltac:(discriminate)).
  rewrite history1_is in R3.
  destruct (one_frame 256 true (dev_at v ee) [] 70000 before3 ([m1] ++ [m2]) (map (enc_group 32) groups_c) d3 os3) as (m3 & F7 & N3 & G3 & _ & e3 & o3 & P3 & S3 & O3).
  { exact F6. } { apply valid_frameb_spec. vm_compute. reflexivity. } { apply notthree. vm_compute. reflexivity. } { vm_compute. reflexivity. } { exact R3. }
  destruct (outcome1_moment _ _ _ _ _ _ _ _ _ _ _ Y3 P3 S3 R3 O3 Q3) as (A3 & B3).
  exists (([m1] ++ [m2]) ++ [m3]). split; [rewrite history1_is; exact F7|]. cbn [map app]. rewrite N1, N2, N3, G1, G2, G3, A1, A2, A3, B1, B2, B3.
  split; [reflexivity|]. split; [vm_compute; reflexivity|]. split; reflexivity.
Qed.

(** Everything together. *)
Lemma story1 : exists d0 acts d os ms, boot start1 = Some (d0, acts) /\ drun 256 true history1 d0 = Done (d, os) /\ ~ In RestartNow (concat os) /\
  frames 256 true d0 [] history1 ms /\ map m_now ms = [1000; 31000; 70000] /\ map m_groups ms = kept_1 /\
  map m_set ms = [view cfg0; view cfg0; view cfg0] /\
  map (fun m => map fst (requests (m_out m))) ms = [[]; [PTEC; HAUT; ADPS; EMONCMS]; [BAS; NORM; MAJ; EMONCMS]].
Proof.
  destruct boot1 as (v & ee & B). destruct (result_ok _ _ _ _ _ (run1 v ee)) as (d & os & R & X). injection X as X1 X2.
  destruct (frames1 v ee) as (ms & F & N & G). exists (dev_at v ee), [StationMode; AutoReconnect], d, os, ms.
  split; [exact B|]. split; [exact R|]. split; [|split; [exact F|]; split; [exact N|exact G]].
  intros I. assert (Y : existsb (fun o => match o with RestartNow => true | _ => false end) (concat os) = true).
  { apply existsb_exists. exists RestartNow. split; [exact I|reflexivity]. } congruence.
Qed.
Lemma sends_reasons : forall w ms, map (sends w) ms = map (existsb (reason_eqb w)) (map (fun m => map fst (requests (m_out m))) ms).
Proof.
  intros w ms. rewrite map_map. apply map_ext. intros m. unfold sends. induction (requests (m_out m)) as [|x l IH]; [reflexivity|].
  cbn [existsb map]. rewrite IH. reflexivity.
Qed.
(** The hypotheses of C99, for this history and these frames. *)
Definition hypotheses1 (d0 : device) (acts : list wifi_act) (d : device) (os : list (list out)) (ms : list moment) : Prop :=
  start_ok start1 /\ boot start1 = Some (d0, acts) /\ Forall is_byte (map snd (heard false history1)) /\ Forall (same_env env0) history1 /\
  Forall devent_ok history1 /\ Forall no_form history1 /\
  drun 256 true history1 d0 = Done (d, os) /\ ~ In RestartNow (concat os) /\ frames 256 true d0 [] history1 ms.
Lemma hyps1 : exists d0 acts d os ms, hypotheses1 d0 acts d os ms /\ map m_now ms = [1000; 31000; 70000] /\ map m_groups ms = kept_1 /\
  map m_set ms = [view cfg0; view cfg0; view cfg0] /\
  map (fun m => map fst (requests (m_out m))) ms = [[]; [PTEC; HAUT; ADPS; EMONCMS]; [BAS; NORM; MAJ; EMONCMS]].
Proof.
  destruct story1 as (d0 & acts & d & os & ms & B & R & NR & F & X). exists d0, acts, d, os, ms. split; [|exact X].
  split; [exact start1_ok|]. split; [exact B|]. split; [exact heard1|]. split; [exact env1|]. split; [exact events1|]. split; [exact no_form1|]. auto.
Qed.
Lemma three : forall A B (f : A -> B) l x y z, map f l = [x; y; z] -> exists a b c, l = [a; b; c] /\ f a = x /\ f b = y /\ f c = z.
Proof.
  intros A B f [|a [|b [|c [|? l]]]] x y z H; try discriminate. injection H as H1 H2 H3. exists a, b, c. auto.
Qed.
