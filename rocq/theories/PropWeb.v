(** Properties of the web server, of uploads, of the Wi-Fi start-up and of the whole module. *)
From Coq Require Import ZArith List Bool Lia.
From Verif Require Import Base BaseFacts Teleinfo TeleinfoSpec Publish HistorySpec Config ConfigSpec ConfigHist ConfigFinal Json Tic TicSpec Pages PagesSpec PagesSamples
  Sse SseSpec Cpu Web Wifi WifiSpec Device WebSpec WebProofs DeviceProofs DeviceMain DevicePublic DeviceSafe DeviceFinal DevicePages RequestSafe WifiProofs
  Samples SamplesFacts TicSamples WebSamples.
From Verif Require ConfigSamples.
Import ListNotations.
Open Scope Z_scope.

(** C28, for the whole module: two modules that differ only by their secrets are given the same history (bytes from the
    meter, uploads, turns, requests). If no client of the history has full access (they are restricted clients, or clients
    without credentials), all the effects are the same: responses, streams, requests sent, restarts. *)
Theorem C28_restricted_clients_learn_nothing : forall fuel sgn es d1 d2, same_but_secrets d1 d2 ->
  reachable (d_cs d1) -> reachable (d_cs d2) -> Forall devent_ok es -> Forall (outsider d1 d2) es ->
  same_outcome (drun fuel sgn es d1) (drun fuel sgn es d2).
Proof. exact drun_public. Qed.
Print Assumptions C28_restricted_clients_learn_nothing.
Definition c28_history : list devent :=
  hear (frame_of [(str "PAPP", str "00100")]) ++
  [ DHttp around0 (through_any "/config.json"); DHttp around0 (through_any "/system.json"); DHttp around0 (through_any "/PAPP");
    DHttp around0 (through_any "/config_form.json") ].
Example C28_devices_case : same_but_secrets (dev_of (posted form_a)) (dev_of (posted form_b)) /\
  reachable (posted form_a) /\ reachable (posted form_b) /\ text Username (c_cfg (posted form_a)) <> text Username (c_cfg (posted form_b)) /\
  Forall devent_ok c28_history /\ Forall (outsider (dev_of (posted form_a)) (dev_of (posted form_b))) c28_history.
Proof.
  split; [exact ab_same|]. split; [exact (posted_reachable form_a (proj1 forms_ok) eq_refl)|].
  split; [exact (posted_reachable form_b (proj2 forms_ok) eq_refl)|].
  split; [destruct ab_login as (-> & _ & -> & _); discriminate|]. unfold c28_history. split; apply Forall_app; split.
  - eapply Forall_impl; [|refine (proj1 (hear_ordinary _ _)); vm_compute; reflexivity]. intros e H. apply H.
  - repeat constructor; cbn; lia.
  - apply Forall_forall. intros e H. apply in_map_iff in H. destruct H as (c & <- & _). exact I.
  - repeat (constructor; [apply ab_outsider|]). constructor.
Qed.

(** C32. A client without the credentials of a module that has a login gets only responses, does not change the module,
    and its responses are the same for any two modules with the same site: whatever their configuration, their data and
    their files. The missing part (256 arguments or more) is false, see below. *)
Theorem C32_no_access_partial : forall fuel a1 a2 q d1 d2, refused q d1 -> refused q d2 -> same_site a1 a2 ->
  (length (q_args q) < 256)%nat -> (256 <= fuel)%nat ->
  exists os, handle fuel a1 q d1 = Done (d1, os) /\ handle fuel a2 q d2 = Done (d2, os) /\ Forall only_response os.
Proof. exact c32. Qed.
Print Assumptions C32_no_access_partial.
Theorem C32_no_access_repeated_partial : forall fuel sgn es d, (256 <= fuel)%nat ->
  Forall (fun e => exists a q, e = DHttp a q /\ refused q d /\ (length (q_args q) < 256)%nat) es ->
  exists os, drun fuel sgn es d = Done (d, os) /\ Forall (Forall only_response) os.
Proof. exact c32_many. Qed.
Print Assumptions C32_no_access_repeated_partial.
(** At the addresses that need a login, the response is the request for the credentials. *)
Theorem C32_challenge : forall fuel a q d, refused q d -> In (q_uri q) protected_uris \/ q_uri q = str "/update" /\ q_method q <> OTHER ->
  handle fuel a q d = Done (d, [Reply 401 Html (str "Authentication Failed")]).
Proof. exact c32_challenge. Qed.
Print Assumptions C32_challenge.
Example C32_ex_challenge : refused (ask "/factory_reset") dev_login /\ In (q_uri (ask "/factory_reset")) protected_uris /\
  handle 256 around0 (ask "/factory_reset") dev_login = Done (dev_login, [Reply 401 Html (str "Authentication Failed")]).
Proof. split; [split; [vm_compute; discriminate|reflexivity]|]. split; [unfold protected_uris; cbn [In q_uri ask]; tauto|reflexivity]. Qed.
(** Conversely, whatever the event, the configuration changes only for a client that is not refused. *)
Theorem C32_configuration_changes : forall fuel sgn e d d' os, dstep fuel sgn e d = Done (d', os) -> d_cs d' <> d_cs d ->
  exists a q, e = DHttp a q /\
    (q_uri q = str "/config_form.json" /\ ~ refused q d \/ q_uri q = str "/factory_reset" /\ fully_allowed q d).
Proof. exact dstep_config. Qed.
Print Assumptions C32_configuration_changes.
Example C32_case : refused (ask "/json") dev_login /\ refused (ask "/json") dev_login2 /\
  handle 256 around0 (ask "/json") dev_login = Done (dev_login, [challenge]) /\
  ti_of dev_login <> ti_of dev_login2 /\
  handle 256 around0 (ask "/css/a.css") dev_login = Done (dev_login, [SendFile (str "/css/a.css") (str "body{}")]) /\
  exists d' os, dstep 256 true (DHttp around0 (ask "/factory_reset")) dev0 = Done (d', os) /\ In EraseSdk os.
Proof.
  split; [split; [vm_compute; discriminate|reflexivity]|]. split; [split; [vm_compute; discriminate|reflexivity]|].
  split; [reflexivity|]. split; [vm_compute; discriminate|]. split; [reflexivity|].
  exact (reset_example true dev0 dev0_ok dev0_login).
Qed.
(** With 256 arguments, a client without credentials makes the server loop for ever. *)
Theorem C32_many_arguments_refuted : exists a q d, refused q d /\ forall fuel, handle fuel a q d = OutOfFuel.
Proof.
  exists around0, (many_args 256 GET "/x"), dev_login. split; [split; [vm_compute; discriminate|reflexivity]|].
  intros fuel. apply c35_never; [|vm_compute; lia|reflexivity]. split; [vm_compute; intuition discriminate|split; reflexivity].
Qed.
Print Assumptions C32_many_arguments_refuted.

(** C33 is false: a file posted to /update is written before the credentials are looked at. Whatever the request [q] that
    posts it, refused or not, the image is written and marked as to be installed; only the answer comes too late. *)
Theorem C33_upload_refuted : exists d q, refused q d /\ q_uri q = str "/update" /\ q_method q = POST /\
  forall fuel sgn a firmware, exists d',
    drun fuel sgn [DUpload a (UpStart (str "firmware.bin") (Z.of_nat (length firmware)) true true); DUpload a (UpWrite firmware true true);
                   DUpload a (UpEnd true); DHttp a q] d =
    Done (d', [[UpdateBegin false (Z.of_nat (length firmware))]; [UpdateWrite firmware];
               [UpdateEnd true; Reply 200 Text (str "OK")]; [challenge]]).
Proof.
  exists dev_login, (mk_hreq POST (str "/update") [] (fun _ _ => false) false).
  split; [split; [vm_compute; discriminate|reflexivity]|]. split; [reflexivity|]. split; [reflexivity|].
  intros. eexists. reflexivity.
Qed.
Print Assumptions C33_upload_refuted.
(** What does hold: no other page writes anything, and a client that is not fully authorised cannot have the new firmware
    started through /update (C59 has the details); nothing but a request restarts the module or erases its credentials. *)
Theorem C33_no_other_page_partial : forall fuel a q d d' os, handle fuel a q d = Done (d', os) ->
  (forall fs n, ~ In (UpdateBegin fs n) os) /\ (forall x, ~ In (UpdateWrite x) os) /\ (forall x, ~ In (UpdateEnd x) os) /\
  (In RestartSoon os -> q_uri q = str "/update" /\ q_method q = POST /\ fully_allowed q d).
Proof.
  intros fuel a q d d' os H. destruct (handle_restart _ _ _ _ _ _ H) as (A & _ & _ & B & C & D & _).
  exact (conj B (conj C (conj D (fun X => let '(conj p (conj q (conj r _))) := A X in conj p (conj q r))))).
Qed.
Print Assumptions C33_no_other_page_partial.
Example C33_case : exists d, d = with_upload false true dev_login /\
  handle 256 around0 (mk_hreq POST (str "/update") [] login false) d = Done (d, [RestartSoon]) /\
  handle 256 around0 (mk_hreq POST (str "/update") [] login true) d = Done (d, [Reply 403 Text (str "failed")]).
Proof. eexists. split; [reflexivity|]. split; reflexivity. Qed.

(** C34. A client whose credentials are accepted reads one label at /LABEL; unknown labels give the not-found page. The
    missing part (a module without a login, client without credentials) is false, see below. *)
Theorem C34_label_partial : forall fuel a q d label, published_ti (ti_of d) ->
  q_accepts q (text Username (cfg_of d)) (text Password (cfg_of d)) = true ->
  q_uri q = 47 :: label -> ~ In 0 label -> no_such_page a q -> ~ In label [str "watt"; str "seconds"; str "timestamp"] ->
  (length (q_args q) < 256)%nat -> (256 <= fuel)%nat ->
  exists gs, carries (ti_of d) gs /\
    handle fuel a q d = Done (d, [match lookup label gs with
                                  | Some v => Reply 200 Text (trim_number v)
                                  | None => Reply 404 Text (not_found_text q)
                                  end]).
Proof. exact c34. Qed.
Print Assumptions C34_label_partial.
Theorem C34_special_names_partial : forall fuel a q d name, published_ti (ti_of d) ->
  q_accepts q (text Username (cfg_of d)) (text Password (cfg_of d)) = true ->
  In name [str "watt"; str "seconds"; str "timestamp"] -> q_uri q = 47 :: name -> no_such_page a q ->
  exists w, watt (ti_of d) 60 = Some w /\
    handle fuel a q d = Done (d, [Reply 200 Text
      (if beq name (str "watt") then dec w
       else if beq name (str "seconds") then seconds_text (t_ts (ti_of d))
       else iso (a_env a) (tv_sec (t_ts (ti_of d))))]).
Proof. exact c34_special. Qed.
Print Assumptions C34_special_names_partial.
Lemma dev_login_published : published_ti (ti_of dev_login).
Proof. apply shown_published. vm_compute. reflexivity. Qed.
Lemma papp_free : no_such_page around0 (ask "/PAPP").
Proof. split; [vm_compute; intuition discriminate|split; reflexivity]. Qed.
Example C34_case : published_ti (ti_of dev_login) /\ no_such_page around0 (ask "/PAPP") /\
  handle 256 around0 (ask_in "/PAPP") dev_login = Done (dev_login, [Reply 200 Text (str "100")]) /\
  handle 256 around0 (ask_through "/ADCO") dev_login = Done (dev_login, [Reply 200 Text (str "111111111111")]) /\
  handle 256 around0 (ask_in "/PAP") dev_login = Done (dev_login, [Reply 404 Text (not_found_text (ask "/PAP"))]).
Proof. split; [exact dev_login_published|]. split; [exact papp_free|]. repeat split; vm_compute; reflexivity. Qed.
(** A module without a login: every page is open, but not the labels. *)
Theorem C34_open_device_refuted : exists a q d gs, published_ti (ti_of d) /\ fully_allowed q d /\ carries (ti_of d) gs /\
  q_uri q = 47 :: str "PAPP" /\ lookup (str "PAPP") gs = Some (str "00100") /\
  handle 256 a q d = Done (d, [Reply 404 Text (not_found_text q)]).
Proof.
  exists around0, (ask "/PAPP"), dev_open. eexists. split; [apply shown_published; vm_compute; reflexivity|].
  split; [left; reflexivity|]. split; [vm_compute; reflexivity|]. split; [reflexivity|]. split; [vm_compute; reflexivity|].
  vm_compute. reflexivity.
Qed.
Print Assumptions C34_open_device_refuted.

(** C35. The not-found page lists all the arguments, if there are less than 256. *)
Theorem C35_not_found_partial : forall fuel a q d, no_such_page a q -> (length (q_args q) < 256)%nat -> (256 <= fuel)%nat ->
  q_accepts q (text Username (cfg_of d)) (text Password (cfg_of d)) = false ->
  handle fuel a q d = Done (d, [Reply 404 Text (not_found_text q)]).
Proof. exact c35. Qed.
Print Assumptions C35_not_found_partial.
Example C35_case : no_such_page around0 (many_args 3 POST "/x") /\
  not_found_text (many_args 2 POST "/x") =
  str "Not Found" ++ [10; 10] ++ str "URI: /x" ++ [10] ++ str "Method: POST" ++ [10] ++ str "Arguments: 2" ++ [10] ++
  str " a: 1" ++ [10] ++ str " a: 1" ++ [10].
Proof. split; [split; [vm_compute; intuition discriminate|split; reflexivity]|vm_compute; reflexivity]. Qed.
(** With 256 arguments or more it is never sent, whatever the request. *)
Theorem C35_many_arguments_refuted : forall a q d, no_such_page a q -> (256 <= length (q_args q))%nat ->
  q_accepts q (text Username (cfg_of d)) (text Password (cfg_of d)) = false ->
  forall fuel, handle fuel a q d = OutOfFuel.
Proof. intros a q d N L A fuel. exact (c35_never fuel a q d N L A). Qed.
Print Assumptions C35_many_arguments_refuted.
Example C35_many_case : no_such_page around0 (many_args 256 GET "/x") /\ (256 <= length (q_args (many_args 256 GET "/x")))%nat.
Proof. split; [split; [vm_compute; intuition discriminate|split; reflexivity]|vm_compute; lia]. Qed.

(** C48. From every configuration and for every sequence of statuses, the start-up ends after 50 waits at most, in client
    mode if the module is connected, with its own access point otherwise; the credentials of the SDK are used if none are
    configured. They are kept unchanged if the key has 32 characters at most: this is the missing part, false as shown
    below. *)
Theorem C48_startup_partial : forall o st ssid psk s, reachable s -> bytes ssid -> bytes psk ->
  exists s' acts r, sys_wifi_connect o st ssid psk s = Some (s', acts, r) /\
  (if match text Ssid (c_cfg s), cstr ssid with [], _ :: _ => true | _, _ => false end
   then adopted ssid psk (c_cfg s) (c_cfg s') /\
        (o = Stored -> crc_of (e_flash (c_ee s')) = 0 /\ ConfigProofs.secured (of_image (e_flash (c_ee s'))) = c_cfg s')
   else s' = s) /\
  exists waits connected, acts = radio_plan (c_cfg s') waits connected /\
    (if match text Ssid (c_cfg s') with [] => true | _ => false end
     then connected = (st 0%nat =? 3) else waited st waits connected).
Proof. exact c48. Qed.
Print Assumptions C48_startup_partial.
(** The tenth status is the first good one: nine waits. *)
Example C48_case : reachable (posted form_a) /\ text Ssid (c_cfg (posted form_a)) = str "home" /\
  reachable ConfigSamples.fresh /\ text Ssid (c_cfg ConfigSamples.fresh) = [] /\
  waited (fun k => if Nat.eqb k 10 then 3 else 6) 9 true /\ waited (fun _ => 6) 50 false /\
  wait_loop 50 (fun k => if Nat.eqb k 10 then 3 else 6) 1 = (3, 11%nat, repeat Wait200 9).
Proof.
  split; [exact (posted_reachable form_a (proj1 forms_ok) eq_refl)|].
  split; [destruct (view_texts _ _ (posted_view form_a (proj1 forms_ok) eq_refl)) as (-> & _); vm_compute; reflexivity|].
  split; [exact ConfigSamples.fresh_reachable|]. split; [exact (proj1 fresh_texts)|].
  split; [|split; [split; [lia|split; [intros; lia|split; [reflexivity|lia]]]|reflexivity]].
  split; [lia|]. split; [|reflexivity]. intros k K. destruct (Nat.eqb_spec (S k) 10); lia.
Qed.
(** A key of 63 characters, allowed by WPA2, is cut to 32. *)
Theorem C48_key_cut_refuted : exists ssid psk s s', reachable s /\ bytes ssid /\ bytes psk /\ (length psk <= 64)%nat /\
  adopt_sdk Stored ssid psk s = Some s' /\ text Psk (c_cfg s') <> psk.
Proof. exact c48_psk_cut_refuted. Qed.
Print Assumptions C48_key_cut_refuted.

(** C51. After a start, whatever happens, the data shown are those of the last valid frame among the bytes [heard]: those
    that did not arrive between a successful upload start and what ends it (end, failure, abort). *)
Theorem C51_decoding_resumes : forall fuel sgn b d0 acts es d os, start_ok b -> boot b = Some (d0, acts) ->
  Forall is_byte (map snd (heard false es)) -> drun fuel sgn es d0 = Done (d, os) ->
  published_ti (ti_of d) /\
  exists r, last_valid (heard false es) r /\
    match r with
    | None => published (d_pub d) = []
    | Some (t0, bodies) => published (d_pub d) = content bodies /\ t_ts (ti_of d) = t0
    end.
Proof. exact heard_last. Qed.
Print Assumptions C51_decoding_resumes.
Theorem C51_suspended_iff : forall fuel sgn es d d' os, p_pause (d_pub d) = false -> drun fuel sgn es d = Done (d', os) ->
  (p_pause (d_pub d') = true <-> suspended (uploads es)).
Proof. exact drun_pause. Qed.
Print Assumptions C51_suspended_iff.
Definition c51_history : list devent :=
  hear (frame_of [(str "PAPP", str "00100")]) ++ [DUpload around0 (UpStart (str "firmware.bin") 10 true true)] ++
  hear (frame_of [(str "PAPP", str "00200")]) ++ [DUpload around0 (UpWrite (str "abc") false true)] ++
  hear (frame_of [(str "PAPP", str "00300")]).
Lemma c51_ordinary : Forall ordinary_event c51_history /\ Forall no_request c51_history.
Proof.
  unfold c51_history. split; repeat (apply Forall_app; split); try (apply hear_ordinary; vm_compute; reflexivity); repeat constructor.
Qed.
Example C51_case : start_ok start0 /\ boot start0 = Some (dev0, acts0) /\ (exists d os, drun 256 true c51_history dev0 = Done (d, os)) /\
  Forall is_byte (map snd (heard false c51_history)) /\
  heard false c51_history = ev (frame_of [(str "PAPP", str "00100")] ++ frame_of [(str "PAPP", str "00300")]) /\
  suspended (uploads (firstn 20 c51_history)) /\ p_pause (d_pub dev0) = false.
Proof.
  split; [exact start0_ok|]. split; [exact boot0|].
  split; [destruct (quiet_run c51_history (proj1 c51_ordinary) (proj2 c51_ordinary)) as (d & os & H & _); eauto|].
  assert (E : heard false c51_history = ev (frame_of [(str "PAPP", str "00100")] ++ frame_of [(str "PAPP", str "00300")])) by (vm_compute; reflexivity).
  split; [rewrite E; apply bytesb_spec; vm_compute; reflexivity|]. split; [exact E|].
  split; [|reflexivity]. exists [], (str "firmware.bin"), 10, true, []. split; [vm_compute; reflexivity|intros u []].
Qed.

(** C55. After any start and any history, a request makes the server read outside its strings or divide by zero exactly in
    two cases: its URI is empty (as a C string) and its credentials are accepted; or it asks for /system.json, is not
    refused, and the file system is not mounted. The property is what remains without these two cases. *)
Theorem C55_undefined_requests_partial : forall fuel sgn b d0 acts es d os a q, start_ok b -> boot b = Some (d0, acts) ->
  Forall devent_ok es -> drun fuel sgn es d0 = Done (d, os) -> devent_ok (DHttp a q) ->
  (handle fuel a q d = Undefined <->
   cstr (q_uri q) = [] /\ q_accepts q (text Username (cfg_of d)) (text Password (cfg_of d)) = true \/
   q_uri q = str "/system.json" /\ ~ refused q d /\ i_total (a_info a) = 0).
Proof. exact c55. Qed.
Print Assumptions C55_undefined_requests_partial.
Example C55_case : start_ok start0 /\ boot start0 = Some (dev0, acts0) /\ Forall devent_ok c51_history /\
  (exists d os, drun 256 true c51_history dev0 = Done (d, os)) /\ devent_ok (DHttp around0 (ask "/json")).
Proof.
  split; [exact start0_ok|]. split; [exact boot0|].
  split; [eapply Forall_impl; [|exact (proj1 c51_ordinary)]; intros e H; apply H|].
  split; [destruct (quiet_run c51_history (proj1 c51_ordinary) (proj2 c51_ordinary)) as (d & os & H & _); eauto|].
  split; [constructor|cbn; lia].
Qed.
(** The first case: with an empty URI (request line with two spaces), a client whose credentials are accepted makes the
    server read past the end of the URI. *)
Theorem C55_empty_uri_refuted : exists a q d, devent_ok (DHttp a q) /\ q_uri q = [] /\
  q_accepts q (text Username (cfg_of d)) (text Password (cfg_of d)) = true /\ forall fuel, handle fuel a q d = Undefined.
Proof.
  exists around0, (ask_in ""), dev_login. split; [split; [constructor|cbn; lia]|]. split; [reflexivity|]. split; [reflexivity|].
  intros fuel. reflexivity.
Qed.
Print Assumptions C55_empty_uri_refuted.
(** /system.json divides by the size of the file system: undefined when it is not mounted. *)
Theorem C55_no_file_system_refuted : exists a q d, devent_ok (DHttp a q) /\ i_total (a_info a) = 0 /\ fully_allowed q d /\
  q_uri q = str "/system.json" /\ forall fuel, handle fuel a q d = Undefined.
Proof.
  exists (mk_around env0 5000 (mk_info 1 [] true 0 [] 0 [] [] [] [] 0 0 0 0 0 None 0 0 0 []) [] [] site0 Stored 0), (ask "/system.json"), dev_open.
  split; [split; [constructor|cbn; lia]|]. split; [reflexivity|]. split; [left; reflexivity|]. split; [reflexivity|].
  intros fuel. vm_compute. reflexivity.
Qed.
Print Assumptions C55_no_file_system_refuted.

(** C57, and what remains of C55. From every start (flash contents, memory contents, radio), for every history of bytes, requests and uploads in which
    the requests have a URI and less than 256 arguments and the file system is mounted, the module never reaches undefined
    behaviour nor an endless loop; unless some request installed a notification URL of full length that ends in an open
    label (C18). *)
Theorem C57_whole_module_partial : forall fuel sgn b es, start_ok b -> Forall ordinary_event es -> (256 <= fuel)%nat ->
  exists d0 acts, boot b = Some (d0, acts) /\
  ((exists d os, drun fuel sgn es d0 = Done (d, os)) \/
   exists es1 es2 d os, es = es1 ++ es2 /\ drun fuel sgn es1 d0 = Done (d, os) /\ unterminated (text HUrl (cfg_of d)) = true).
Proof. exact c57. Qed.
Print Assumptions C57_whole_module_partial.
Example C57_case : start_ok start0 /\ Forall ordinary_event (c51_history ++ [DHttp around0 (ask "/json"); DHttp around0 (ask "/x"); DPoll (fun _ => true); DTurn (at_ms 2000)]).
Proof.
  split; [exact start0_ok|]. apply Forall_app. split; [apply c51_ordinary|].
  constructor; [|constructor; [|constructor; [|constructor; [|constructor]]]].
  1, 2: split; [split; [constructor|cbn; lia]|cbn; split; [lia|split; [discriminate|lia]]].
  all: split; exact I.
Qed.

(** C56. From the bytes to the page: after a start and any history, /json gives the last valid frame heard, with its time;
    an empty object if there was none. *)
Theorem C56_json_page : forall fuel sgn b d0 acts es d os a q, start_ok b -> boot b = Some (d0, acts) ->
  Forall is_byte (map snd (heard false es)) -> drun fuel sgn es d0 = Done (d, os) ->
  ~ refused q d -> q_uri q = str "/json" ->
  exists r, last_valid (heard false es) r /\
    match r with
    | None => handle fuel a q d = Done (d, [Reply 200 Json (str "{}")])
    | Some (t0, bodies) => quotable (iso (a_env a) (tv_sec t0)) = true -> Forall json_ready (pairs_of (content bodies)) ->
        exists body, handle fuel a q d = Done (d, [Reply 200 Json body]) /\
          json_of body = Some (JObj ((str "timestamp", JStr (iso (a_env a) (tv_sec t0))) :: (str "seconds", JStr (seconds_text t0)) ::
            map (fun g => (fst g, json_value (snd g))) (pairs_of (content bodies))))
    end.
Proof. exact c56_json. Qed.
Print Assumptions C56_json_page.
Theorem C56_array_page : forall fuel sgn b d0 acts es d os a q, start_ok b -> boot b = Some (d0, acts) ->
  Forall is_byte (map snd (heard false es)) -> drun fuel sgn es d0 = Done (d, os) ->
  ~ refused q d -> q_uri q = str "/tinfo.json" ->
  exists r, last_valid (heard false es) r /\
    match r with
    | None => handle fuel a q d = Done (d, [Reply 200 Json (str "[]")])
    | Some (t0, bodies) => quotable (iso (a_env a) (tv_sec t0)) = true ->
        Forall (fun g => quotable (fst g) = true /\ quotable (snd g) = true) (pairs_of (content bodies)) ->
        exists body w, handle fuel a q d = Done (d, [Reply 200 Json body]) /\ watt (ti_of d) 60 = Some w /\
          json_of body = Some (JArr (entry (str "timestamp") (JStr (iso (a_env a) (tv_sec t0))) :: entry (str "watt") (JNum (dec w)) ::
            map (fun g => entry (fst g) (JStr (snd g))) (pairs_of (content bodies))))
    end.
Proof. exact c56_array. Qed.
Print Assumptions C56_array_page.
Example C56_case : exists d os, drun 256 true c51_history dev0 = Done (d, os) /\ ~ refused (ask "/json") d /\
  quotable (iso env0 (tv_sec now0)) = true /\
  Forall json_ready (pairs_of (content [enc_group 32 (str "PAPP", str "00300")])) /\
  valid_frame [enc_group 32 (str "PAPP", str "00300")].
Proof.
  destruct (quiet_run c51_history (proj1 c51_ordinary) (proj2 c51_ordinary)) as (d & os & H & E). exists d, os. split; [exact H|].
  split; [exact (not_refused_open _ _ (username_cs _ _ E (proj1 (proj2 fresh_texts))))|]. split; [reflexivity|].
  split; [repeat constructor; vm_compute; discriminate|apply valid_frameb_spec; vm_compute; reflexivity].
Qed.

(** C58. Data are streamed only to clients that were not refused when they asked for the stream. *)
Theorem C58_streams_are_allowed : forall fuel sgn d0 es d os k id text, sse_list (d_sse d0) = [] -> drun fuel sgn es d0 = Done (d, os) ->
  In (Streaming (SentTo id text)) (nth k os []) ->
  exists j a q dj osj, (j < k)%nat /\ nth_error es j = Some (DHttp a q) /\ drun fuel sgn (firstn j es) d0 = Done (dj, osj) /\
    ~ refused q dj /\ In (q_uri q) [str "/sse/json"; str "/tic"] /\ In (Streaming (Opened id)) (nth j os []).
Proof. exact c58. Qed.
Print Assumptions C58_streams_are_allowed.
Definition c58_history : list devent :=
  [DHttp around0 (ask "/tic"); DHttp around0 (ask_in "/tic")] ++ map (fun c => DByte (at_ms 20000) (fun _ => true) now0 c) (frame_of [(str "PAPP", str "00100")]).
Example C58_case : exists d os, drun 256 true c58_history dev_login = Done (d, os) /\
  firstn 2 os = [[challenge]; [Streaming (Opened 0)]] /\
  existsb (fun o => match o with Streaming (SentTo 0 _) => true | _ => false end) (last os []) = true.
Proof.
  destruct (result_ok _ _ (fun _ os => (firstn 2 os, existsb (fun o => match o with Streaming (SentTo 0 _) => true | _ => false end) (last os [])))
    (drun 256 true c58_history dev_login) ([[challenge]; [Streaming (Opened 0)]], true)) as (d & os & H & E); [vm_compute; reflexivity|].
  exists d, os. split; [exact H|]. injection E as E1 E2. split; assumption.
Qed.

(** C59. The module is restarted to install an update only by a fully authorised POST of /update that follows an upload
    that ended well; it is restarted at once only by /reset or /factory_reset; the credentials stored by the SDK are erased
    only by /factory_reset, with full access. *)
Theorem C59_restarts : forall fuel sgn b d0 acts es1 a q es2 d os k, start_ok b -> boot b = Some (d0, acts) ->
  drun fuel sgn (es1 ++ DHttp a q :: es2) d0 = Done (d, os) -> k = length es1 ->
  exists d1 os1, drun fuel sgn es1 d0 = Done (d1, os1) /\
  (In RestartSoon (nth k os []) -> q_uri q = str "/update" /\ q_method q = POST /\ fully_allowed q d1 /\ just_updated (uploads es1)) /\
  (In RestartNow (nth k os []) -> q_uri q = str "/reset" /\ ~ refused q d1 \/ q_uri q = str "/factory_reset" /\ fully_allowed q d1) /\
  (In EraseSdk (nth k os []) -> q_uri q = str "/factory_reset" /\ fully_allowed q d1).
Proof. exact c59. Qed.
Print Assumptions C59_restarts.
Theorem C59_only_requests : forall fuel sgn e d d' o, dstep fuel sgn e d = Done (d', o) ->
  In RestartSoon o \/ In RestartNow o \/ In EraseSdk o -> exists a q, e = DHttp a q.
Proof. exact only_requests_restart. Qed.
Print Assumptions C59_only_requests.
Example C59_case : just_updated (uploads good_upload) /\
  exists d1 os1, drun 256 true good_upload dev0 = Done (d1, os1) /\
  handle 256 around0 (mk_hreq POST (str "/update") [] (fun _ _ => false) false) d1 = Done (d1, [RestartSoon]).
Proof.
  split.
  - exists (firstn 2 (uploads good_upload)), (UpEnd true), []. split; [reflexivity|]. split; [reflexivity|]. split; [reflexivity|]. intros x [].
  - exact (update_example dev0 dev0_login).
Qed.

(** C60. An upload that meets no failure writes exactly the bytes received, in order, to the file system if its name
    contains fs.bin and to the program memory otherwise. *)
Theorem C60_upload_written : forall fuel sgn a name len e0 ws a2 ended d,
  exists d' os, drun fuel sgn (DUpload a (UpStart name len true e0) ::
      map (fun w => DUpload (fst (fst w)) (UpWrite (snd (fst w)) true (snd w))) ws ++ [DUpload a2 (UpEnd ended)]) d = Done (d', os) /\
    exists (to_fs : bool), (to_fs = true <-> exists x y, name = x ++ str "fs.bin" ++ y) /\
    concat os = UpdateBegin to_fs (if to_fs then a_fs_size a else len) :: map (fun w => UpdateWrite (snd (fst w))) ws ++
      [UpdateEnd true; Reply 200 Text (if ended then str "OK" else str "FAIL")] /\
    cfg_of d' = cfg_of d /\ d_upd d' = ended.
Proof. exact c60. Qed.
Print Assumptions C60_upload_written.
Example C60_case : exists d', drun 256 true [DUpload around0 (UpStart (str "my_erfs.bin") 4 true true); DUpload around0 (UpWrite (str "ab") true true);
    DUpload around0 (UpWrite (str "cd") true true); DUpload around0 (UpEnd true)] dev_login =
  Done (d', [[UpdateBegin true 1000000]; [UpdateWrite (str "ab")]; [UpdateWrite (str "cd")]; [UpdateEnd true; Reply 200 Text (str "OK")]]).
Proof. eexists. reflexivity. Qed.
