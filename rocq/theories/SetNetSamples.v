(** Commands that change the networks, typed on the serial port. *)
From Coq Require Import ZArith List Bool Lia String.
From Verif Require Import Base BaseFacts Teleinfo TeleinfoSpec Publish Config ConfigSpec ConfigProofs ConfigMain ConfigHist ConfigFinal Tic Pages PagesSpec
  TicSpec JsonBuild Sse SseSpec Cpu Web Wifi WifiSpec Device WebSpec WebProofs DeviceProofs DeviceMain DeviceSafe DeviceFinal Samples SamplesFacts TicSamples WebSamples ChainSamples
  Cli CliSpec CliProofs Life LifeSpec LifeProofs LifeMain LifeFinal LifeSamples SetNetSpec SetNetProofs RestartSamples.
From Verif Require ConfigSamples.
Import ListNotations.
Open Scope list_scope.
Open Scope Z_scope.

(** A program that understands three commands. *)
Definition set_wifi : list Z := str "set wifi a b".
Definition set_nothing : list Z := str "set wifi".
Definition set_ap : list Z := str "set ap x y".
Definition typist : build :=
  mk_build true true (fun l => if beq l (set_wifi ++ [13]) then CSet [str "wifi"; str "a"; str "b"]
                               else if beq l (set_nothing ++ [13]) then CSet [str "wifi"]
                               else if beq l (set_ap ++ [13]) then CSet [str "ap"; str "x"; str "y"]
                               else CBad).
Lemma typist_ok : build_ok typist.
Proof.
  intros l _. cbn [bd_parse typist]. destruct (beq l _); [repeat constructor; unfold is_byte; lia|].
  destruct (beq l _); [repeat constructor; unfold is_byte; lia|]. destruct (beq l _); [repeat constructor; unfold is_byte; lia|exact I].
Qed.
(** ESC, then the command, without the return; the return, the flash being ready or not. *)
Definition typed (l : list Z) : list levent := map (fun c => Event (DByte around0 (fun _ => true) now0 c) raw0) (27 :: l).
Definition worn : around := mk_around (a_env around0) 5000 (a_info around0) [] [] (a_site around0) NotErased 1000000.
Definition enter (a : around) : levent := Event (DByte a (fun _ => true) now0 13) raw0.
Lemma typed_ordinary : forall l, bytesb l = true -> Forall ordinary_life (typed l).
Proof.
  intros l B. apply bytesb_spec in B. unfold typed. apply Forall_map. constructor; [split; [split; [cbn; unfold is_byte; lia|exact I]|reflexivity]|].
  apply Forall_forall. intros c C. split; [split; [exact (proj1 (Forall_forall _ _) B c C)|exact I]|reflexivity].
Qed.
Lemma enter_ordinary : forall a, ordinary_life (enter a).
Proof. intros a. split; [split; [cbn; unfold is_byte; lia|exact I]|reflexivity]. Qed.
Lemma typed_wifi : forall d, lrun 256 typist (typed set_wifi) (On d cli_init) = Done (On d (mk_cli true set_wifi), repeat [] 13).
Proof. intros d. reflexivity. Qed.
Lemma typed_nothing : forall d, lrun 256 typist (typed set_nothing) (On d cli_init) = Done (On d (mk_cli true set_nothing), repeat [] 9).
Proof. intros d. reflexivity. Qed.
Lemma typed_ap : forall d, lrun 256 typist (typed set_ap) (On d cli_init) = Done (On d (mk_cli true set_ap), repeat [] 11).
Proof. intros d. reflexivity. Qed.
Lemma start_step : forall bd, exists v ee, lstep 256 bd (PowerOn start1) (Off (b_flash start1)) = Done (On (dev_at v ee) cli_init, map Radio [StationMode; AutoReconnect]) /\
  e_flash ee = b_flash start1.
Proof.
  intros bd. exists (le16 (crc_of (firstn (CFG_SIZE - 2) (image cfg0)))), (ee_begin (image (sealed cfg0))). split; [|reflexivity].
  assert (B := sealed_boot cfg0 cfg0_wf (no_ssid (le16 (crc_of (firstn (CFG_SIZE - 2) (image cfg0)))))). cbn [lstep flash_of].
  change (mk_start (b_chip start1) (b_mem start1) (b_flash start1) (b_o1 start1) (b_o2 start1) (b_o3 start1) (b_status start1) (b_ssid start1)
    (b_psk start1) (b_now start1) (b_g1 start1) (b_g2 start1))
    with (mk_start ConfigSamples.chip1 zeroed (image (sealed cfg0)) Stored Stored Stored (fun _ => 3) [] [] 0 blank blank). rewrite B. reflexivity.
Qed.
Lemma dev_at_view : forall v ee, s_ssid (view (cfg_of (dev_at v ee))) = [] /\ unterminated (text HUrl (cfg_of (dev_at v ee))) = false.
Proof. intros v ee. split; vm_compute; reflexivity. Qed.

(** The return is typed: the command is carried out. *)
Lemma enter_step : forall a d l s, mod_ok true (On d (mk_cli true l)) -> unterminated (text HUrl (cfg_of d)) = false ->
  cli_loop_read 13 (mk_cli true l) = (cli_init, -1, Some (l ++ [13])) ->
  sets_network (bd_parse typist (l ++ [13])) (view (cfg_of d)) s ->
  exists f, lstep 256 typist (enter a) (On d (mk_cli true l)) = Done (Off f, [Command (l ++ [13]); Did RestartNow]) /\ flash_ok f /\
    (a_flash a = Stored -> forall chip, settings_at_start chip f s) /\ (a_flash a = NotErased -> f = flash_of (On d cli_init)).
Proof.
  intros a d l s M U R N. destruct (lstep_some 256 typist (enter a) (On d (mk_cli true l)) typist_ok M (enter_ordinary a) (le_n _) U) as (m & o & E & M').
  assert (L : In (Command (l ++ [13])) o).
  { unfold enter in E. cbn [lstep] in E. unfold serial_byte in E. cbn [bd_cli typist] in E. rewrite R in E.
    destruct (run_command a (fun _ => true) raw0 (bd_parse typist (l ++ [13])) d) as [[d' o1]|]; [|discriminate]. change (negb (-1 =? -1)) with false in E. cbv iota beta in E. cbn [lift] in E.
    match type of E with Done (after ?d' ?cl' ?o1) = _ => assert (E' : after d' cl' o1 = (m, o)) by congruence end.
    destruct (after_cases _ _ _ _ _ E') as (-> & _). left. reflexivity. }
  destruct (set_step 256 typist a (fun _ => true) now0 13 raw0 d (mk_cli true l) m o (l ++ [13]) s typist_ok M ltac:(unfold is_byte; lia) E L N)
    as (-> & f & -> & S & Ne).
  exists f. split; [exact E|]. split; [exact M'|]. split; [exact S|exact Ne].
Qed.

(** ** Lives *)
(** The network is out of reach at the next start. *)
Definition far : start := mk_start (b_chip start1) zeroed (b_flash start1) Stored Stored Stored (fun _ => 6) [] [] 0 blank blank.
Lemma far_ok : start_ok far.
Proof. exact start1_ok. Qed.
Definition wifi_life : list levent := PowerOn start1 :: typed set_wifi.
Lemma first_ordinary : Forall ordinary_life (wifi_life ++ [enter around0; PowerOn far]).
Proof.
  unfold wifi_life. cbn [app]. constructor; [exact start1_ok|]. apply Forall_app. split; [apply typed_ordinary; reflexivity|].
  constructor; [apply enter_ordinary|]. constructor; [exact far_ok|constructor].
Qed.
Lemma flash1_ok : flash_ok (b_flash start1).
Proof. exact (proj1 (proj2 (proj2 start1_ok))). Qed.
Lemma after_typed : forall l n, (forall d, lrun 256 typist (typed l) (On d cli_init) = Done (On d (mk_cli true l), repeat [] n)) -> bytesb l = true ->
  exists v ee os, lrun 256 typist (PowerOn start1 :: typed l) (Off (b_flash start1)) = Done (On (dev_at v ee) (mk_cli true l), os) /\
    mod_ok true (On (dev_at v ee) (mk_cli true l)).
Proof.
  intros l n T B. destruct (start_step typist) as (v & ee & S & _). exists v, ee, (map Radio [StationMode; AutoReconnect] :: repeat [] n).
  assert (R : lrun 256 typist (PowerOn start1 :: typed l) (Off (b_flash start1)) = Done (On (dev_at v ee) (mk_cli true l), map Radio [StationMode; AutoReconnect] :: repeat [] n))
    by exact (LifeSamples.run_cons _ _ _ _ _ _ _ _ _ S (T _)).
  split; [exact R|]. apply (lrun_ok 256 typist (PowerOn start1 :: typed l) (Off (b_flash start1)) (On (dev_at v ee) (mk_cli true l)) _ typist_ok) in R; [exact R|exact flash1_ok|].
  constructor; [exact start1_ok|apply typed_ordinary; exact B].
Qed.
Lemma joins : exists d os f d' o', lrun 256 typist wifi_life (Off (b_flash start1)) = Done (On d (mk_cli true set_wifi), os) /\
  lstep 256 typist (enter around0) (On d (mk_cli true set_wifi)) = Done (Off f, [Command (set_wifi ++ [13]); Did RestartNow]) /\
  lstep 256 typist (PowerOn far) (Off f) = Done (On d' cli_init, o') /\ mod_ok true (On d' cli_init) /\
  view (cfg_of d') = to_join (str "a") (str "b") (view (cfg_of d)) /\ In (Radio (Join (str "a") (Some (str "b")))) o' /\
  s_ssid (view (cfg_of d)) = [] /\ unterminated (text HUrl (cfg_of d)) = false.
Proof.
  destruct (after_typed set_wifi 13 typed_wifi eq_refl) as (v & ee & os & R & M). destruct (dev_at_view v ee) as (S0 & U).
  assert (N : sets_network (bd_parse typist (set_wifi ++ [13])) (view (cfg_of (dev_at v ee))) (to_join (str "a") (str "b") (view (cfg_of (dev_at v ee)))))
    by exact (sets_wifi [str "a"; str "b"] (view (cfg_of (dev_at v ee)))).
  revert R M U N S0. generalize (dev_at v ee). intros d R M U N S0.
  destruct (enter_step around0 d set_wifi _ M U eq_refl N) as (f & E & F & S & _).
  destruct (lstep_some 256 typist (PowerOn far) (Off f) typist_ok F far_ok (le_n _) I) as (m' & o' & E2 & M2).
  assert (X : s_ssid (to_join (str "a") (str "b") (view (cfg_of d))) <> []) by discriminate.
  destruct (c108_start 256 typist (b_flash start1) wifi_life d (mk_cli true set_wifi) os around0 (fun _ => true) now0 13 raw0 far (Off f) m' _ o' (set_wifi ++ [13]) _
    typist_ok flash1_ok first_ordinary R E (or_introl eq_refl) N eq_refl E2 (or_introl X)) as (d' & w & cn & -> & V & _ & J & _).
  exists d, os, f, d', o'. split; [exact R|]. split; [exact E|]. split; [exact E2|]. split; [exact M2|]. split; [exact V|]. split; [exact (proj1 (J X))|].
  split; [exact S0|exact U].
Qed.
Definition erasing_life : list levent := wifi_life ++ enter around0 :: PowerOn far :: typed set_nothing.
Lemma second_ordinary : Forall ordinary_life (erasing_life ++ [enter around0; PowerOn far]).
Proof.
  assert (F := first_ordinary). apply Forall_app in F. destruct F as (F1 & F2). unfold erasing_life. apply Forall_app. split; [|exact F2].
  apply Forall_app. split; [exact F1|]. apply Forall_cons_iff in F2. destruct F2 as (F2 & F3). constructor; [exact F2|].
  apply Forall_inv in F3. constructor; [exact F3|]. apply typed_ordinary. reflexivity.
Qed.
Lemma erases : exists d os f d' o', lrun 256 typist erasing_life (Off (b_flash start1)) = Done (On d (mk_cli true set_nothing), os) /\
  s_ssid (view (cfg_of d)) = str "a" /\ In (Radio (Join (str "a") (Some (str "b")))) (List.concat os) /\
  lstep 256 typist (enter around0) (On d (mk_cli true set_nothing)) = Done (Off f, [Command (set_nothing ++ [13]); Did RestartNow]) /\
  lstep 256 typist (PowerOn far) (Off f) = Done (On d' cli_init, o') /\ s_ssid (view (cfg_of d')) = [] /\
  forall ssid key, ~ In (Radio (Join ssid key)) o'.
Proof.
  destruct joins as (d & os & f & d2 & o2 & R & E & E2 & M2 & V & J & S0 & U).
  assert (R2 : lrun 256 typist erasing_life (Off (b_flash start1)) =
    Done (On d2 (mk_cli true set_nothing), os ++ [Command (set_wifi ++ [13]); Did RestartNow] :: o2 :: repeat [] 9)).
  { unfold erasing_life. apply (lrun_join 256 typist wifi_life _ _ _ _ _ _ R).
    exact (LifeSamples.run_cons _ _ _ _ _ _ _ _ _ E (LifeSamples.run_cons _ _ _ _ _ _ _ _ _ E2 (typed_nothing d2))). }
  assert (M3 : mod_ok true (On d2 (mk_cli true set_nothing))).
  { split; [exact (proj1 M2)|]. cbn [cl_input]. apply str_is_byte. reflexivity. }
  assert (U2 : unterminated (text HUrl (cfg_of d2)) = false).
  { assert (X := f_equal s_http_url V). change (text HUrl (cfg_of d2) = text HUrl (cfg_of d)) in X. rewrite X. exact U. }
  assert (N : sets_network (bd_parse typist (set_nothing ++ [13])) (view (cfg_of d2)) (to_join [] [] (view (cfg_of d2)))) by exact (sets_wifi [] (view (cfg_of d2))).
  destruct (enter_step around0 d2 set_nothing _ M3 U2 eq_refl N) as (f2 & E3 & F & S & _).
  destruct (lstep_some 256 typist (PowerOn far) (Off f2) typist_ok F far_ok (le_n _) I) as (m' & o' & E4 & _).
  destruct (c108_start 256 typist (b_flash start1) erasing_life d2 (mk_cli true set_nothing) _ around0 (fun _ => true) now0 13 raw0 far (Off f2) m' _ o' (set_nothing ++ [13]) _
    typist_ok flash1_ok second_ordinary R2 E3 (or_introl eq_refl) N eq_refl E4 (or_intror eq_refl)) as (d' & w & cn & -> & V' & P & _ & _).
  exists d2. eexists. exists f2, d', o'. split; [exact R2|]. split; [rewrite V; reflexivity|]. split.
  { rewrite concat_app. apply in_or_app. right. cbn [List.concat]. apply in_or_app. right. apply in_or_app. left. exact J. }
  split; [exact E3|]. split; [exact E4|]. split; [rewrite V'; reflexivity|].
  intros ssid key K. rewrite P in K. apply in_map_iff in K. destruct K as (x & X & K). injection X as ->. unfold radio_plan in K.
  assert (T := f_equal s_ssid V'). change (text Ssid (cfg_of d') = []) in T. rewrite T in K. cbn [app] in K.
  destruct cn; cbn [app] in K; repeat (destruct K as [K|K]; [discriminate K|]); exact K.
Qed.
(** The flash refuses to be erased: the module restarts all the same. *)
Lemma forgets : exists d os d' o', lrun 256 typist wifi_life (Off (b_flash start1)) = Done (On d (mk_cli true set_wifi), os) /\
  lstep 256 typist (enter worn) (On d (mk_cli true set_wifi)) = Done (Off (b_flash start1), [Command (set_wifi ++ [13]); Did RestartNow]) /\
  lstep 256 typist (PowerOn start1) (Off (b_flash start1)) = Done (On d' cli_init, o') /\ s_ssid (view (cfg_of d')) = [].
Proof.
  destruct (start_step typist) as (v & ee & S & FL). destruct (dev_at_view v ee) as (S0 & U).
  assert (R := LifeSamples.run_cons _ _ _ _ _ _ _ _ _ S (typed_wifi (dev_at v ee))).
  assert (M : mod_ok true (On (dev_at v ee) (mk_cli true set_wifi))).
  { apply (lrun_ok 256 typist wifi_life (Off (b_flash start1)) (On (dev_at v ee) (mk_cli true set_wifi)) _ typist_ok) in R; [exact R|exact flash1_ok|].
    exact (proj1 (proj1 (Forall_app _ _ _) first_ordinary)). }
  assert (N : sets_network (bd_parse typist (set_wifi ++ [13])) (view (cfg_of (dev_at v ee))) (to_join (str "a") (str "b") (view (cfg_of (dev_at v ee)))))
    by exact (sets_wifi [str "a"; str "b"] (view (cfg_of (dev_at v ee)))).
  assert (FL' : flash_of (On (dev_at v ee) cli_init) = b_flash start1) by exact FL.
  exists (dev_at v ee). eexists. exists (dev_at v ee). eexists. split; [exact R|]. split; [|split; [exact S|exact S0]].
  revert M U N FL'. clear. generalize (dev_at v ee). intros d M U N FL.
  destruct (enter_step worn d set_wifi _ M U eq_refl N) as (f & E & _ & _ & Ne). rewrite (Ne eq_refl), FL in E. exact E.
Qed.
