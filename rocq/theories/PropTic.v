(** Property theorems C11, C12, C14 to C21, C52: JSON pages, notifications, requests to the services, timers
    (src/tic.cpp, src/jsonbuilder.h, esp8266 polledTimeout). *)
From Coq Require Import ZArith List Bool Lia Sorted.
From Verif Require Import Base BaseFacts Teleinfo TeleinfoSpec Publish HistorySpec Config ConfigSpec ConfigHist ToolSpec
  Json Tic TicSpec PageProofs ExactPages TemplateProofs SlotSpec SlotProofs NotifMain NotifExact RequestProofs Samples SamplesFacts TicSamples TicFinal.
Import ListNotations.
Open Scope Z_scope.

(** C11: the /json page is always produced; it is a JSON object with, in order, the date, the seconds, the reason of the
    notification if there is one, and the groups of the published frame (numbers for values made of digits). [json_of] is
    a reader of RFC 8259 JSON (Json.v). Missing: this is so if and only if the texts of the frame are copyable in a JSON
    string (no quote, no backslash, no control or ill-formed UTF-8) and the values not empty ([json_ready]: TicSpec.v); the
    next two theorems show frames for which they are not. *)
Theorem C11_dictionary_page_partial : forall e t notif, published_ti t ->
  exists gs body, carries t gs /\ tic_get_json_dict_notif e t notif = Some body /\
    (t_size t = 0%nat -> json_of body = Some (JObj [])) /\
    (t_size t <> 0%nat ->
     (json_of body = Some (JObj (
       (str "timestamp", JStr (iso e (tv_sec (t_ts t)))) :: (str "seconds", JStr (seconds_text (t_ts t))) ::
       match notif with Some n => [(str "notif", JStr n)] | None => [] end ++
       map (fun g => (fst g, json_value (snd g))) gs)) <->
      quotable (iso e (tv_sec (t_ts t))) = true /\ match notif with Some n => quotable n = true | None => True end /\ Forall json_ready gs)).
Proof. exact c11_exact. Qed.
Print Assumptions C11_dictionary_page_partial.

Example C11_case : published_ti (hp "00100") /\ t_size (hp "00100") <> 0%nat /\
  carries (hp "00100") [(str "ADCO", str "111111111111"); (str "PTEC", str "HP"); (str "PAPP", str "00100")] /\
  Forall json_ready [(str "ADCO", str "111111111111"); (str "PTEC", str "HP"); (str "PAPP", str "00100")] /\
  option_map json_of (tic_get_json_dict_notif env0 (hp "00100") (Some (str "PTEC"))) = Some (Some (JObj
    [(str "timestamp", JStr (str "2020-01-26T01:53:20+0100")); (str "seconds", JStr (str "1580000000.250"));
     (str "notif", JStr (str "PTEC")); (str "ADCO", JNum (str "111111111111")); (str "PTEC", JStr (str "HP"));
     (str "PAPP", JNum (str "100"))])).
Proof.
  split; [apply shown_published; vm_compute; reflexivity|]. split; [vm_compute; discriminate|]. split; [vm_compute; reflexivity|].
  split; [repeat constructor; try (vm_compute; reflexivity); discriminate|]. vm_compute. reflexivity.
Qed.

(** C11 fails for a value with a quote, and for a value of filler dots only. *)
Theorem C11_quote_in_value_refuted : exists t gs body, published_ti t /\ carries t gs /\
  gs = [(str "MOTDETAT", [34; 48; 48])] /\ tic_get_json_dict_notif env0 t None = Some body /\ json_of body = None.
Proof.
  exists quote_frame, [(str "MOTDETAT", [34; 48; 48])]. eexists. split; [apply shown_published; vm_compute; reflexivity|].
  split; [vm_compute; reflexivity|]. split; [reflexivity|]. split; [vm_compute; reflexivity|]. vm_compute. reflexivity.
Qed.
Print Assumptions C11_quote_in_value_refuted.
Theorem C11_empty_value_refuted : exists t gs body, published_ti t /\ carries t gs /\
  gs = [(str "DEMAIN", str "----"); (str "OPTARIF", []); (str "PAPP", str "00100")] /\
  tic_get_json_dict_notif env0 t None = Some body /\ json_of body = None.
Proof.
  exists dots_frame, [(str "DEMAIN", str "----"); (str "OPTARIF", []); (str "PAPP", str "00100")]. eexists.
  split; [apply shown_published; vm_compute; reflexivity|].
  split; [vm_compute; reflexivity|]. split; [reflexivity|]. split; [vm_compute; reflexivity|]. vm_compute. reflexivity.
Qed.
Print Assumptions C11_empty_value_refuted.

(** C12: the /tinfo.json page is an array: date, estimated power, then each group with its text unchanged. Same
    restriction on the characters as for C11 (empty values are fine here). *)
Theorem C12_array_page_partial : forall e t, published_ti t ->
  exists gs w body, carries t gs /\ watt t 60 = Some w /\ tic_get_json_array e t = Some body /\
    (t_size t = 0%nat -> json_of body = Some (JArr [])) /\
    (t_size t <> 0%nat ->
     (json_of body = Some (JArr (
       entry (str "timestamp") (JStr (iso e (tv_sec (t_ts t)))) :: entry (str "watt") (JNum (dec w)) ::
       map (fun g => entry (fst g) (JStr (snd g))) gs)) <->
      quotable (iso e (tv_sec (t_ts t))) = true /\ Forall (fun g => quotable (fst g) = true /\ quotable (snd g) = true) gs)).
Proof. exact c12_exact. Qed.
Print Assumptions C12_array_page_partial.

Example C12_case : published_ti dots_frame /\ t_size dots_frame <> 0%nat /\
  option_map json_of (tic_get_json_array env0 dots_frame) = Some (Some (JArr
    [entry (str "timestamp") (JStr (str "2020-01-26T01:53:20+0100")); entry (str "watt") (JNum (str "0"));
     entry (str "DEMAIN") (JStr (str "----")); entry (str "OPTARIF") (JStr []); entry (str "PAPP") (JStr (str "00100"))])).
Proof. split; [apply shown_published; vm_compute; reflexivity|]. split; [vm_compute; discriminate|]. vm_compute. reflexivity. Qed.
Theorem C12_quote_in_value_refuted : exists t body, published_ti t /\ tic_get_json_array env0 t = Some body /\ json_of body = None.
Proof.
  exists quote_frame. eexists. split; [apply shown_published; vm_compute; reflexivity|].
  split; [vm_compute; reflexivity|]. vm_compute. reflexivity.
Qed.
Print Assumptions C12_quote_in_value_refuted.

(** C14: a "PTEC" notification for a frame if and only if its tariff period differs from the last one seen (among the
    frames seen while the trigger was on). Missing: the period must have 1 to 7 characters; see the two theorems below. *)
Theorem C14_tariff_change_partial : forall e now c evs os st, frames_published evs ->
  Forall (fun x => match x with Some (Some p) => (1 <= length p <= 7)%nat | _ => True end)
    (seen s_ptec (fun _ t => value_in t "PTEC") (view c) evs) ->
  tic_run e evs (tic_start now c) = Some (os, st) ->
  map (sent PTEC) os = changes None (seen s_ptec (fun _ t => value_in t "PTEC") (view c) evs).
Proof. exact c14. Qed.
Print Assumptions C14_tariff_change_partial.

(** C14, for every history: the notification is sent if and only if the period differs from the first 7 characters of the
    one before; empty periods before the first one do not count. *)
Theorem C14_any_history : forall e now c evs os st, frames_published evs ->
  tic_run e evs (tic_start now c) = Some (os, st) ->
  map (sent PTEC) os = changes_7 None (seen s_ptec (fun _ t => value_in t "PTEC") (view c) evs).
Proof. exact c14_exact. Qed.
Print Assumptions C14_any_history.

(** One history for C14, C15, C16, C19 to C21: five frames, at 1, 3, 12, 31 and 70 s; all services are configured. *)
Example history_case : frames_published history0 /\
  Forall (fun x => match x with Some (Some p) => (1 <= length p <= 7)%nat | _ => True end)
    (seen s_ptec (fun _ t => value_in t "PTEC") (view cfg0) history0) /\
  exists os st, tic_run env0 history0 (tic_start 0 cfg0) = Some (os, st) /\
    map reasons os = [[]; [PTEC; HAUT; ADPS]; []; [PTEC; BAS; NORM; EMONCMS]; [MAJ; EMONCMS]].
Proof.
  split; [apply history0_published|]. split.
  - assert (E : seen s_ptec (fun _ t => value_in t "PTEC") (view cfg0) history0 =
      [Some (Some (str "HP")); Some (Some (str "HC")); Some (Some (str "HC")); Some (Some (str "HP")); Some (Some (str "HP"))])
      by (vm_compute; reflexivity).
    rewrite E. repeat constructor.
  - apply outcome_ok. vm_compute. reflexivity.
Qed.

(** C14 fails for a period of 8 characters or more (notified again for each frame) and when the first period is empty. *)
Theorem C14_long_period_refuted : exists c evs os st, frames_published evs /\
  tic_run env0 evs (tic_start 0 c) = Some (os, st) /\
  seen s_ptec (fun _ t => value_in t "PTEC") (view c) evs = [Some (Some (str "PERIODE1")); Some (Some (str "PERIODE1"))] /\
  map (sent PTEC) os = [false; true].
Proof.
  exists cfg0, [Frame 1000 0 (with_ptec "PERIODE1"); Frame 3000 0 (with_ptec "PERIODE1")].
  assert (E : outcome (map (sent PTEC)) (tic_run env0 [Frame 1000 0 (with_ptec "PERIODE1"); Frame 3000 0 (with_ptec "PERIODE1")] (tic_start 0 cfg0))
    = Some [false; true]) by (vm_compute; reflexivity).
  apply outcome_ok in E. destruct E as (os & st & E & F). exists os, st.
  split; [repeat constructor; apply shown_published; vm_compute; reflexivity|]. split; [exact E|]. split; [vm_compute; reflexivity|exact F].
Qed.
Print Assumptions C14_long_period_refuted.
Theorem C14_empty_first_period_refuted : exists c evs os st, frames_published evs /\
  tic_run env0 evs (tic_start 0 c) = Some (os, st) /\
  seen s_ptec (fun _ t => value_in t "PTEC") (view c) evs = [Some (Some []); Some (Some (str "HP"))] /\
  map (sent PTEC) os = [false; false].
Proof.
  exists cfg0, [Frame 1000 0 (with_ptec "...."); Frame 3000 0 (with_ptec "HP..")].
  assert (E : outcome (map (sent PTEC)) (tic_run env0 [Frame 1000 0 (with_ptec "...."); Frame 3000 0 (with_ptec "HP..")] (tic_start 0 cfg0))
    = Some [false; false]) by (vm_compute; reflexivity).
  apply outcome_ok in E. destruct E as (os & st & E & F). exists os, st.
  split; [repeat constructor; apply shown_published; vm_compute; reflexivity|]. split; [exact E|]. split; [vm_compute; reflexivity|exact F].
Qed.
Print Assumptions C14_empty_first_period_refuted.

(** C15: after any history, a frame of power [papp t] is notified as HAUT if and only if it reaches the high threshold
    and the last threshold notification is not HAUT; as BAS if and only if it is at or below the low threshold and the
    last one is HAUT. Missing: a frame whose power reads as 0 is never notified; see C15_no_power_refuted. *)
Theorem C15_thresholds_partial : forall e now0 c evs past st now k t o st', frames_published evs -> published_ti t ->
  tic_run e evs (tic_start now0 c) = Some (past, st) ->
  tic_step e (Frame now k t) st = Some (o, st') ->
  let s := settings_after (view c) evs in
  let on := s_http_host s <> [] /\ s_seuils s = true /\ papp t <> 0 in
  (sent HAUT o = true <-> on /\ s_seuil_haut s <= papp t /\ last_threshold (concat past) <> Some HAUT) /\
  (sent BAS o = true <-> on /\ papp t <= s_seuil_bas s /\ last_threshold (concat past) = Some HAUT).
Proof. exact c15. Qed.
Print Assumptions C15_thresholds_partial.

(** C15: in any history the threshold notifications are HAUT, BAS, HAUT, BAS ... *)
Theorem C15_thresholds_alternate : forall e now c evs os st, frames_published evs ->
  tic_run e evs (tic_start now c) = Some (os, st) -> alternate HAUT BAS (thresholds (concat os)).
Proof. exact c15_alternate. Qed.
Print Assumptions C15_thresholds_alternate.

(** C15 fails when the power falls to 0: no BAS although the low threshold is crossed. *)
Theorem C15_no_power_refuted : exists c t1 t2 os st, published_ti t1 /\ published_ti t2 /\
  tic_run env0 [Frame 1000 0 t1; Frame 3000 0 t2] (tic_start 0 c) = Some (os, st) /\
  s_seuils (view c) = true /\ papp t1 = 6000 /\ value_in t2 "PAPP" = Some (str "00000") /\ s_seuil_bas (view c) = 4200 /\
  map thresholds os = [[HAUT]; []].
Proof.
  exists cfg0, (hp "06000"), (hp "00000").
  assert (E : outcome (map thresholds) (tic_run env0 [Frame 1000 0 (hp "06000"); Frame 3000 0 (hp "00000")] (tic_start 0 cfg0))
    = Some [[HAUT]; []]) by (vm_compute; reflexivity).
  apply outcome_ok in E. destruct E as (os & st & E & F). exists os, st.
  split; [apply shown_published; vm_compute; reflexivity|]. split; [apply shown_published; vm_compute; reflexivity|].
  split; [exact E|]. split; [vm_compute; reflexivity|]. split; [vm_compute; reflexivity|]. split; [vm_compute; reflexivity|].
  split; [vm_compute; reflexivity|exact F].
Qed.
Print Assumptions C15_no_power_refuted.

(** C16: "ADPS" is sent exactly when ADPS appears in the frames, "NORM" exactly when it disappears. *)
Theorem C16_overload_edges : forall e now c evs os st, frames_published evs ->
  tic_run e evs (tic_start now c) = Some (os, st) ->
  map (fun o => (sent ADPS o, sent NORM o)) os =
  edges false (seen s_adps (fun _ t => match value_in t "ADPS" with Some _ => true | None => false end) (view c) evs).
Proof. exact c16. Qed.
Print Assumptions C16_overload_edges.

(** C17: a template made of plain characters, ~~, $$, ~LABEL~ and $LABEL expands to the text each piece stands for. *)
Theorem C17_expansion : forall e t notif gs ps rest, published_ti t -> carries t gs -> Forall piece_ok ps -> separated ps ->
  expand_url e t notif (concat (map written ps) ++ 0 :: rest) = Some (concat (map (meaning e (t_ts t) gs notif) ps)).
Proof. exact c17. Qed.
Print Assumptions C17_expansion.

(** C17 for the requests: the HTTP notification of any history asks for the expanded URL, and posts the C11 page. *)
Theorem C17_request : forall e now0 c evs past st now k t gs o st' w r ps, frames_published evs -> published_ti t ->
  terminated c -> Forall (fun ev => match ev with Configure _ c' => terminated c' | _ => True end) evs ->
  tic_run e evs (tic_start now0 c) = Some (past, st) -> tic_step e (Frame now k t) st = Some (o, st') ->
  carries t gs ->
  let s := settings_after (view c) evs in
  s_http_url s = concat (map written ps) -> Forall piece_ok ps -> separated ps ->
  In (Request w r) o -> w <> JEEDOM -> w <> EMONCMS ->
  r_url r = concat (map (meaning e (t_ts t) gs (type_name w)) ps) /\
  (s_use_post s = false -> r_data r = None) /\
  (s_use_post s = true -> exists body, r_data r = Some body /\
     (t_size t <> 0%nat -> quotable (iso e (tv_sec (t_ts t))) = true -> Forall json_ready gs ->
      json_of body = Some (JObj (
       (str "timestamp", JStr (iso e (tv_sec (t_ts t)))) :: (str "seconds", JStr (seconds_text (t_ts t))) ::
       (str "notif", JStr (type_name w)) :: map (fun g => (fst g, json_value (snd g))) gs)))).
Proof. exact c17_request. Qed.
Print Assumptions C17_request.

(** The requests of the fourth frame of the history. *)
Example C17_case :
  let ps := map Char (str "/n?t=") ++ [ByTilde (str "type")] ++ map Char (str "&p=") ++ [ByDollar (str "PAPP"); Char 44; TildeSign] in
  terminated cfg0 /\ s_http_url (view cfg0) = concat (map written ps) /\ Forall piece_ok ps /\ separated ps /\
  outcome (fun os => map (fun x => match x with Request w r => (r_url r, r_port r) | SseData _ => ([], 0) end) (nth 3 os []))
    (tic_run env0 history0 (tic_start 0 cfg0)) =
  Some [ (str "/n?t=PTEC&p=4000,~", 8080); (str "/n?t=BAS&p=4000,~", 8080); (str "/n?t=NORM&p=4000,~", 8080);
         (str "/input/post?node=7&apikey=k2&json={ADCO:111111111111,PTEC:3,PAPP:4000}", 80) ].
Proof.
  cbv zeta. split; [apply cfg0_terminated|]. split; [vm_compute; reflexivity|]. split.
  - cbn [map str app]. repeat (apply Forall_cons; [cbn; repeat split; try lia; try discriminate; repeat constructor; try discriminate|]). constructor.
  - split; [|vm_compute; reflexivity]. cbn. split; auto. right. exists 44, []. auto.
Qed.

(** C18: an unclosed label at the very end of a URL that fills its field makes the expansion read out of the field; it is
    the only case, for the configurations the module's own pages can produce. *)
Theorem C18_only_unsafe_case_partial : forall e t notif s, ordinarily_reachable s -> published_ti t ->
  (expand_url e t notif (get HUrl (c_cfg s)) = None <->
   length (s_http_url (view (c_cfg s))) = 150%nat /\ unterminated (s_http_url (view (c_cfg s))) = true).
Proof. exact c18_field. Qed.
Print Assumptions C18_only_unsafe_case_partial.

(** C18: otherwise, no history of frames and configurations makes the notifications fail. *)
Theorem C18_no_failure_partial : forall e now c evs, frames_published evs -> sound_config c ->
  Forall (fun ev => match ev with Configure _ c' => sound_config c' | _ => True end) evs ->
  exists os st, tic_run e evs (tic_start now c) = Some (os, st).
Proof. exact c18_history. Qed.
Print Assumptions C18_no_failure_partial.

Theorem C18_open_label_refuted : exists s, ordinarily_reachable s /\ s_http_host (view (c_cfg s)) <> [] /\
  forall e t notif, published_ti t -> expand_url e t notif (get HUrl (c_cfg s)) = None.
Proof. exact c18_refuted. Qed.
Print Assumptions C18_open_label_refuted.

Example C18_case : exists s, ordinarily_reachable s /\ sound_config (c_cfg s) /\ s_http_host (view (c_cfg s)) = str "10.0.0.2".
Proof.
  exists ConfigSamples.posted1. split; [apply ConfigSamples.posted1_ordinary|]. split.
  - exists ConfigSamples.posted1. split; [reflexivity|]. split; [apply ConfigSamples.posted1_ordinary|].
    rewrite ConfigSamples.posted1_view. vm_compute. intros [H _]. discriminate.
  - rewrite ConfigSamples.posted1_view. vm_compute. reflexivity.
Qed.

(** C19: after any history, the requests of a frame are sent in a fixed order, each at most once, each to the host and
    port configured for its service, only if the host is set and the trigger ticked; the periodic ones only if the port
    and the period are set. *)
Theorem C19_requests_are_configured : forall e now0 c evs past st now k t o st', frames_published evs -> published_ti t ->
  tic_run e evs (tic_start now0 c) = Some (past, st) -> tic_step e (Frame now k t) st = Some (o, st') ->
  let s := settings_after (view c) evs in
  increasing (map rank (reasons o)) /\
  forall w r, In (Request w r) o ->
    host_of s w <> [] /\ r_host r = host_of s w /\ r_port r = port_of s w /\ trigger_of s w = true /\
    (periodic w = true -> port_of s w <> 0 /\ freq_of s w <> 0).
Proof. exact c19. Qed.
Print Assumptions C19_requests_are_configured.

(** C20: the Jeedom request. *)
Theorem C20_jeedom_url : forall e now0 c evs past st now k t gs o st' r, frames_published evs -> published_ti t ->
  tic_run e evs (tic_start now0 c) = Some (past, st) -> tic_step e (Frame now k t) st = Some (o, st') ->
  carries t gs -> In (Request JEEDOM r) o ->
  let s := settings_after (view c) evs in
  r_data r = None /\
  r_url r = (if Nat.eqb (length (s_jdom_url s)) 0 then str "/" else s_jdom_url s) ++ str "?api=" ++ s_jdom_key s ++
            concat (map (jeedom_text (s_jdom_adco s)) gs).
Proof. exact c20_request. Qed.
Print Assumptions C20_jeedom_url.
Example C20_case : published_ti (hp "00100") /\
  outcome (fun os => map (fun x => match x with Request w r => (w, r_url r) | SseData _ => (MAJ, []) end) (nth 0 os []))
    (tic_run env0 [Frame 300000 0 (hp "00100")] (tic_start 0 cfg0)) =
  Some [ (MAJ, str "/n?t=MAJ&p=100,~"); (JEEDOM, str "/jee.php?api=k1&ADCO=42&PTEC=HP&PAPP=00100");
         (EMONCMS, str "/input/post?node=7&apikey=k2&json={ADCO:111111111111,PTEC:3,PAPP:100}") ].
Proof. split; [apply shown_published; vm_compute; reflexivity|]. vm_compute. reflexivity. Qed.

(** C21: the emoncms request, and its codes. *)
Theorem C21_emoncms_url : forall e now0 c evs past st now k t gs o st' r, frames_published evs -> published_ti t ->
  tic_run e evs (tic_start now0 c) = Some (past, st) -> tic_step e (Frame now k t) st = Some (o, st') ->
  carries t gs -> In (Request EMONCMS r) o ->
  let s := settings_after (view c) evs in
  r_data r = None /\
  r_url r = (if Nat.eqb (length (s_emon_url s)) 0 then str "/" else s_emon_url s) ++ str "?" ++
            (if 0 <? s_emon_node s then str "node=" ++ dec (s_emon_node s) ++ str "&" else []) ++
            str "apikey=" ++ s_emon_key s ++ str "&json=" ++ emon_payload gs.
Proof. exact c21_request. Qed.
Print Assumptions C21_emoncms_url.
(** Each value sent is a number for the tariff labels and for the values made of digits. Missing: the other labels. *)
Theorem C21_numeric_partial : forall g, snd g <> [] ->
  fst g = str "OPTARIF" \/ fst g = str "PTEC" \/ fst g = str "HHPHC" /\ 0 <= hd 0 (snd g) \/ all_digit (snd g) = true ->
  all_digit (emon_code g) = true /\ emon_code g <> [].
Proof. exact c21_numeric. Qed.
Print Assumptions C21_numeric_partial.
Theorem C21_periods_have_distinct_codes : forall a b, In a (map fst ptec_codes) -> In b (map fst ptec_codes) ->
  emon_code (str "PTEC", str a) = emon_code (str "PTEC", str b) -> a = b.
Proof. exact c21_distinct. Qed.
Print Assumptions C21_periods_have_distinct_codes.
(** The colour of the next day is sent as a text. *)
Theorem C21_text_value_refuted : exists t, published_ti t /\
  carries t [(str "PTEC", str "HPJB"); (str "DEMAIN", str "BLEU")] /\
  outcome (fun os => map (fun x => match x with Request w r => r_url r | SseData _ => [] end) (concat os))
    (tic_run env0 [Frame 30000 0 t] (tic_start 0 cfg0)) =
  Some [str "/input/post?node=7&apikey=k2&json={PTEC:9,DEMAIN:BLEU}"].
Proof.
  exists demain_frame. split; [apply shown_published; vm_compute; reflexivity|]. split; vm_compute; reflexivity.
Qed.
Print Assumptions C21_text_value_refuted.

(** C52: the configuration is loaded (start-up or form) when the millisecond counter is at [a], then frames arrive [d] ms
    later, in order, at any times. A service that is configured with a period of [f] seconds gets one request at most per
    slot of [f] seconds ([one_per_slot]: SlotSpec.v), whatever the wraps of the 32-bit counter and the time without frames. *)
Theorem C52_one_request_per_period : forall e a c st o st1 fs os st' w,
  tic_step e (Configure (u32 a) c) st = Some (o, st1) ->
  Forall (fun f => published_ti (snd (snd f))) fs ->
  tic_run e (frames_from a fs) st1 = Some (os, st') ->
  let s := view c in let p := 1000 * freq_of s w in
  periodic w = true -> host_of s w <> [] -> port_of s w <> 0 -> 0 < freq_of s w -> p <= 4294967294 ->
  Sorted Z.le (0 :: map fst fs) -> one_per_slot p 0 (map fst fs) (map (sent w) os).
Proof. exact c52_slots. Qed.
Print Assumptions C52_one_request_per_period.
Theorem C52_sse_one_per_period : forall e a c st o st1 fs os st',
  tic_step e (Configure (u32 a) c) st = Some (o, st1) ->
  Forall (fun f => published_ti (snd (snd f))) fs ->
  tic_run e (frames_from a fs) st1 = Some (os, st') ->
  let p := 1000 * s_sse_freq (view c) in
  0 < s_sse_freq (view c) < 65536 -> Sorted Z.le (0 :: map fst fs) -> one_per_slot p 0 (map fst fs) (map pushed os).
Proof. exact c52_sse_slots. Qed.
Print Assumptions C52_sse_one_per_period.
(** A service without host, port or period gets no periodic request. *)
Theorem C52_disabled_service : forall e now c st o st1 evs os st' w,
  tic_step e (Configure now c) st = Some (o, st1) ->
  frames_published evs -> Forall (fun v => match v with Frame _ _ _ => True | _ => False end) evs ->
  tic_run e evs st1 = Some (os, st') ->
  periodic w = true -> host_of (view c) w = [] \/ port_of (view c) w = 0 \/ freq_of (view c) w = 0 ->
  Forall (fun o => sent w o = false) os.
Proof. exact c52_disabled. Qed.
Print Assumptions C52_disabled_service.
(** The exact instants, when the frames are less than 49 days minus a period apart: the frames that are the first after a
    multiple of the period. *)
Theorem C52_firing_instants : forall e a c st o st1 fs os st' w,
  tic_step e (Configure (u32 a) c) st = Some (o, st1) ->
  Forall (fun f => published_ti (snd (snd f))) fs ->
  tic_run e (frames_from a fs) st1 = Some (os, st') ->
  let s := view c in let p := 1000 * freq_of s w in
  periodic w = true -> host_of s w <> [] -> port_of s w <> 0 -> 0 < freq_of s w -> p <= 4294967294 ->
  spaced p 0 (map fst fs) ->
  map (sent w) os = firings p 0 (map fst fs).
Proof. exact c52. Qed.
Print Assumptions C52_firing_instants.
(** The same for the data pushed to the browsers connected. *)
Theorem C52_sse_firing_instants : forall e a c st o st1 fs os st',
  tic_step e (Configure (u32 a) c) st = Some (o, st1) ->
  Forall (fun f => published_ti (snd (snd f))) fs ->
  tic_run e (frames_from a fs) st1 = Some (os, st') ->
  let p := 1000 * s_sse_freq (view c) in
  0 < s_sse_freq (view c) < 65536 -> spaced p 0 (map fst fs) ->
  map pushed os = map (fun x => negb (Nat.eqb (fst (snd (fst x))) 0) && snd x) (combine fs (firings p 0 (map fst fs))).
Proof. exact c52_sse. Qed.
Print Assumptions C52_sse_firing_instants.
Theorem C52_sse_every_frame : forall e a c st o st1 fs os st',
  tic_step e (Configure (u32 a) c) st = Some (o, st1) ->
  Forall (fun f => published_ti (snd (snd f))) fs ->
  tic_run e (frames_from a fs) st1 = Some (os, st') ->
  s_sse_freq (view c) = 0 -> map pushed os = map (fun f => negb (Nat.eqb (fst (snd f)) 0)) fs.
Proof. exact c52_sse_always. Qed.
Print Assumptions C52_sse_every_frame.

(** Across the wrap of the counter: started 20 s before it. *)
Example C52_case :
  let a := 4294947296 in
  let fs := [(10000, (1%nat, hp "00100")); (29999, (1%nat, hp "00100")); (30000, (0%nat, hp "00100")); (91000, (2%nat, hp "00100"))] in
  Forall (fun f => published_ti (snd (snd f))) fs /\ spaced 30000 0 (map fst fs) /\ spaced 10000 0 (map fst fs) /\
  host_of (view cfg0) EMONCMS <> [] /\ port_of (view cfg0) EMONCMS = 80 /\ freq_of (view cfg0) EMONCMS = 30 /\
  s_sse_freq (view cfg0) = 10 /\
  firings 30000 0 (map fst fs) = [false; false; true; true] /\
  exists os st, tic_run env0 (frames_from a fs) (tic_start (u32 a) cfg0) = Some (os, st) /\
    (map (sent EMONCMS) os, map pushed os) = ([false; false; true; true], [true; true; false; true]).
Proof.
  cbv zeta. split; [repeat constructor; apply shown_published; vm_compute; reflexivity|].
  split; [cbn; lia|]. split; [cbn; lia|]. split; [vm_compute; discriminate|]. split; [vm_compute; reflexivity|].
  split; [vm_compute; reflexivity|]. split; [vm_compute; reflexivity|]. split; [vm_compute; reflexivity|].
  apply (outcome_ok _ (fun os => (map (sent EMONCMS) os, map pushed os))). vm_compute. reflexivity.
Qed.
(** With a gap of 2^32 + 20 s between the first two frames: not seen by the timer, the slots are still respected. *)
Example C52_gap_case :
  let fs := [(40000, (1%nat, hp "00100")); (4295007296, (1%nat, hp "00100")); (4295037296, (1%nat, hp "00100"))] in
  Sorted Z.le (0 :: map fst fs) /\ ~ spaced 30000 0 (map fst fs) /\
  exists os st, tic_run env0 (frames_from 5000 fs) (tic_start 5000 cfg0) = Some (os, st) /\ map (sent EMONCMS) os = [true; false; true].
Proof.
  cbv zeta. split; [cbn [map fst]; repeat (apply Sorted_cons || apply HdRel_cons || apply Sorted_nil || apply HdRel_nil || lia)|]. split; [cbn; lia|].
  apply (outcome_ok _ (fun os => map (sent EMONCMS) os)). vm_compute. reflexivity.
Qed.
