(** Theorems about the settings page (C70 to C72). Specification: FormSpec.v. *)
From Coq Require Import ZArith List Bool.
From Verif Require Import Base Config ConfigSpec ToolSpec ConfigMain ConfigHist Pages PagesSamples Form FormSpec FormFinal FormSamples.
From Verif Require ConfigSamples.
Import ListNotations.
Open Scope Z_scope.

(** C70: a user opens the settings page and presses the save button without touching anything: the request is read, answered
    with 200, and no setting has changed. Missing: the settings must be ones that a page can show ([showable]: FormSpec.v);
    the next two theorems show what happens otherwise. *)
Theorem C70_save_untouched_partial : forall o (restricted : bool) s, reachable s -> showable restricted (view (c_cfg s)) ->
  exists p fm s', open_tab (config_get_json (c_cfg s) restricted) (blank_page restricted) = Some p /\
    parse_arguments (serialize p) = Some fm /\
    config_handle_form o restricted fm s = Some (s', 200) /\ view (c_cfg s') = view (c_cfg s).
Proof. exact c70. Qed.
Print Assumptions C70_save_untouched_partial.
Example C70_case : reachable ConfigSamples.posted1 /\ showable false (view (c_cfg ConfigSamples.posted1)) /\
  s_ssid (view (c_cfg ConfigSamples.posted1)) = str "home".
Proof. split; [exact ConfigSamples.posted1_reachable|exact posted1_showable]. Qed.
(** C70 fails for a period that is not in the menus: opening the page and saving switches the transmission off. *)
Theorem C70_unlisted_period_refuted : exists s p fm s', ordinarily_reachable s /\ s_emon_freq (view (c_cfg s)) = 120 /\
  open_tab (config_get_json (c_cfg s) false) (blank_page false) = Some p /\ parse_arguments (serialize p) = Some fm /\
  config_handle_form Stored false fm s = Some (s', 200) /\ s_emon_freq (view (c_cfg s')) = 0.
Proof. exact c70_period_refuted. Qed.
Print Assumptions C70_unlisted_period_refuted.
(** C70 fails for a key with a quote: the page stays blank and saving it erases every text, including the network. *)
Theorem C70_quote_refuted : exists s p fm s', ordinarily_reachable s /\
  s_ssid (view (c_cfg s)) = str "home" /\ s_psk (view (c_cfg s)) = [97; 34; 98] /\ s_http_host (view (c_cfg s)) = str "10.0.0.2" /\
  open_tab (config_get_json (c_cfg s) false) (blank_page false) = Some p /\ parse_arguments (serialize p) = Some fm /\
  config_handle_form Stored false fm s = Some (s', 200) /\
  Forall (fun t => t = []) (page_words false (view (c_cfg s'))).
Proof. exact c70_quote_refuted. Qed.
Print Assumptions C70_quote_refuted.
(** Whatever the settings, saving before the page has been filled erases every text. *)
Theorem C70_saved_too_early_refuted : forall o s, reachable s ->
  exists fm s', parse_arguments (serialize (blank_page false)) = Some fm /\
    config_handle_form o false fm s = Some (s', 200) /\ Forall (fun t => t = []) (page_words false (view (c_cfg s'))).
Proof. exact c70_early. Qed.
Print Assumptions C70_saved_too_early_refuted.

(** C71: a user fills the settings page sensibly and saves it: the request is read, answered with 200, and the page opened
    afterwards shows in every control what was entered. Missing: the browser accepts more than [sensible] (FormSpec.v). *)
Theorem C71_what_is_saved_is_shown_partial : forall o (restricted : bool) s p,
  reachable s -> same_form restricted p -> Forall sensible p ->
  exists fm s', parse_arguments (serialize p) = Some fm /\ config_handle_form o restricted fm s = Some (s', 200) /\
    open_tab (config_get_json (c_cfg s') restricted) (blank_page restricted) = Some p.
Proof. exact c71. Qed.
Print Assumptions C71_what_is_saved_is_shown_partial.
Example C71_case : reachable ConfigSamples.posted1 /\ same_form false rich_page /\ Forall sensible rich_page /\
  shown_value rich_page "psk" = Some (Entry (str "mot de passe 100% & co;=+")) /\
  shown_value rich_page "httpreq_trigger_ptec" = Some (Check true) /\ shown_value rich_page "emon_freq" = Some (Pick (Some (str "60"))).
Proof. split; [exact ConfigSamples.posted1_reachable|exact rich_ok]. Qed.
(** Apart from the host name, the boxes for texts accept as many characters as the module keeps bytes. *)
Theorem C71_box_limits_partial : forall restricted k max room,
  In k (blank_page restricted) -> k_kind k = TextBox (Some max) -> purpose_of (k_name k) = Some (Words room) -> k_name k <> str "host" ->
  max = room.
Proof. exact c71_limits. Qed.
Print Assumptions C71_box_limits_partial.
Example C71_limits_case : In (text_box "jdom_apikey" 48) (blank_page true) /\ purpose_of (str "jdom_apikey") = Some (Words 48).
Proof. split; [unfold blank_page, service_controls; cbn [In app]; tauto|vm_compute; reflexivity]. Qed.
(** C71 fails for a host name of 20 characters, which the page accepts. *)
Theorem C71_host_name_refuted : exists s p fm s' q, ordinarily_reachable s /\ same_form false p /\ Forall typable p /\
  shown_value p "host" = Some (Entry (str "wifinfo-garage-cave1")) /\
  parse_arguments (serialize p) = Some fm /\ config_handle_form Stored false fm s = Some (s', 200) /\
  open_tab (config_get_json (c_cfg s') false) (blank_page false) = Some q /\
  shown_value q "host" = Some (Entry (str "wifinfo-garage-c")).
Proof. exact c71_host_refuted. Qed.
Print Assumptions C71_host_name_refuted.
(** C71 fails for a network name of 17 accented letters (32 are accepted): the page counts characters, the module bytes. *)
Theorem C71_accents_refuted : exists s p fm s' q, ordinarily_reachable s /\ same_form false p /\ Forall typable p /\
  shown_value p "ssid" = Some (Entry (List.concat (repeat (str "é") 17))) /\
  parse_arguments (serialize p) = Some fm /\ config_handle_form Stored false fm s = Some (s', 200) /\
  open_tab (config_get_json (c_cfg s') false) (blank_page false) = Some q /\
  shown_value q "ssid" = Some (Entry (List.concat (repeat (str "é") 16))).
Proof. exact c71_accents_refuted. Qed.
Print Assumptions C71_accents_refuted.
(** The request is read as it was meant, whatever bytes the names and values of a form hold. *)
Theorem C71_request_is_read : forall f, f <> [] -> form_bytes f -> Forall (fun p => fst p <> []) f ->
  parse_arguments (param f) = Some f.
Proof. exact FormProofs.request_read. Qed.
Print Assumptions C71_request_is_read.
Example C71_request_case : let f := [(str "psk", str "100% & co;=+ é"); (str "psk", []); (str "a&b=c", str "%41")] in
  form_bytes f /\ Forall (fun p => fst p <> []) f /\ parse_arguments (param f) = Some f.
Proof.
  split; [apply ConfigSamples.form_ok; vm_compute; reflexivity|]. split; [repeat constructor; discriminate|]. vm_compute. reflexivity.
Qed.

(** C72: an option of the period menus stores the period that its label announces, in seconds. Missing: the option of twelve
    hours, see the next theorem. *)
Theorem C72_menu_labels_partial : forall value label, In (value, label) period_options -> label <> str "toutes les 12 heures" ->
  exists n, announced label = Some n /\ value = dec n.
Proof. exact c72. Qed.
Print Assumptions C72_menu_labels_partial.
Example C72_case : In (str "86400", str "tous les jours") period_options /\ announced (str "tous les jours") = Some 86400.
Proof. split; [unfold period_options; cbn [In]; tauto|vm_compute; reflexivity]. Qed.
(** C72 fails for the option of twelve hours: it stores 42300 seconds, 15 minutes too few. *)
Theorem C72_twelve_hours_refuted : exists value label, In (value, label) period_options /\ announced label = Some 43200 /\ value = dec 42300.
Proof. exact c72_refuted. Qed.
Print Assumptions C72_twelve_hours_refuted.
