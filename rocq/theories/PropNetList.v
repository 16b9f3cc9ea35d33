(** Property theorem C92: the list of networks of the settings page (data_src/index.html:631-660, 780-792, 934-952), from the
    scan to the next start. Specification: NetListSpec.v. *)
From Coq Require Import ZArith List Bool Lia Permutation.
From Verif Require Import Base Config ConfigSpec ConfigMain ConfigHist Json Pages PagesSpec PagesSamples Wifi Form FormSpec FormSamples NetList NetListSpec NetListProofs.
From Verif Require ConfigSamples.
Import ListNotations.
Open Scope Z_scope.

(** C92. The networks found are the rows of the table, each with its own name and level. Missing: names with a quote, a
    backslash or a control character (one of them hides the whole list, see below), and more than 127 networks (C53). *)
Theorem C92_listed_partial : forall nets, (length nets <= 127)%nat ->
  Forall (fun w => quotable (n_ssid w) = true /\ quotable (n_bssid w) = true) nets ->
  exists body, sys_wifi_scan_json nets false = Some body /\ loaded body = Some (map (fun w => mk_row (n_ssid w) (n_rssi w)) nets).
Proof. exact c92_listed. Qed.
Print Assumptions C92_listed_partial.
Example C92_listed_case : option_map loaded (sys_wifi_scan_json [net1; net2] false) = Some (Some [mk_row (n_ssid net1) (n_rssi net1); mk_row (n_ssid net2) (n_rssi net2)]) /\
  n_ssid net1 <> n_ssid net2 /\ n_rssi net1 < 0.
Proof. split; [vm_compute; reflexivity|]. split; [discriminate|vm_compute; reflexivity]. Qed.

(** One neighbour is enough to hide the list. *)
Theorem C92_hidden_list_refuted : exists nets w body, nets = [net1; w; net2] /\ n_ssid w = [34] /\ sys_wifi_scan_json nets false = Some body /\ loaded body = None.
Proof.
  exists [net1; mk_net [34] (-50) (str "x") 1 4; net2], (mk_net [34] (-50) (str "x") 1 4),
    ([91] ++ scan_entry net1 ++ [44] ++ scan_entry (mk_net [34] (-50) (str "x") 1 4) ++ [44] ++ scan_entry net2 ++ [93]).
  split; [reflexivity|]. split; [reflexivity|]. split; vm_compute; reflexivity.
Qed.
Print Assumptions C92_hidden_list_refuted.

(** The quality bar: from 0 at -100 dBm to 100 at -50 dBm; its colour. *)
Theorem C92_bar : forall rssi,
  0 <= signal rssi <= 100 /\ (signal rssi = 0 <-> rssi <= -100) /\ (signal rssi = 100 <-> -50 <= rssi) /\
  (-100 <= rssi <= -50 -> signal rssi = 2 * (rssi + 100)) /\
  (forall rssi', rssi <= rssi' -> signal rssi <= signal rssi') /\
  (quality_of rssi = Good <-> -65 <= rssi) /\ (quality_of rssi = Fair <-> -75 <= rssi < -65) /\
  (quality_of rssi = Poor <-> -85 <= rssi < -75) /\ (quality_of rssi = Bad <-> rssi < -85) /\
  bar_text rssi = decs rssi ++ str "dB".
Proof. exact c92_bar. Qed.
Print Assumptions C92_bar.
Example C92_bar_case : signal (-80) = 40 /\ quality_of (-80) = Poor /\ bar_text (-80) = str "-80dB".
Proof. repeat split. Qed.

(** The user opens the settings page, clicks on the row of a network, types the key and saves: the answer is 200; the network
    and the key are stored, no other setting changes; at the next start the module joins that network with that key. Missing:
    names and keys that the page cannot show ([text_of]), settings that it cannot show ([showable], C70). *)
Theorem C92_join_partial : forall s w key, reachable s -> showable false (view (c_cfg s)) ->
  text_of 32 (n_ssid w) -> n_ssid w <> [] -> text_of 64 key ->
  exists p p' fm s', open_tab (config_get_json (c_cfg s) false) (blank_page false) = Some p /\
    click_row (mk_row (n_ssid w) (n_rssi w)) p = Some p' /\
    parse_arguments (serialize (type_text (str "psk") key p')) = Some fm /\
    config_handle_form Stored false fm s = Some (s', 200) /\
    view (c_cfg s') = with_network (n_ssid w) key (view (c_cfg s)) /\
    forall chip o1 o2 mem, wf mem -> exists s1, config_setup chip o1 o2 mem (e_flash (c_ee s')) = Some s1 /\
      view (c_cfg s1) = with_network (n_ssid w) key (view (c_cfg s)) /\
      forall o st sdk_ssid sdk_psk, exists acts r,
        sys_wifi_connect o st sdk_ssid sdk_psk s1 = Some (s1, Join (n_ssid w) (match key with [] => None | _ => Some key end) :: acts, r).
Proof. exact c92_join. Qed.
Print Assumptions C92_join_partial.
Definition key1 : list Z := str "100% & co;=+ <x>".
Example C92_join_case : reachable ConfigSamples.posted1 /\ showable false (view (c_cfg ConfigSamples.posted1)) /\
  text_of 32 (n_ssid net1) /\ n_ssid net1 <> [] /\ text_of 64 key1.
Proof.
  split; [exact ConfigSamples.posted1_reachable|]. split; [exact (proj1 posted1_showable)|].
  assert (T : forall n t, quotable t = true -> forallb (fun c => (0 <=? c) && (c <? 256)) t = true -> (length t <= n)%nat -> text_of n t).
  { intros n t Q B L. split; [exact Q|]. split; [|exact L]. apply Forall_forall. intros c I. rewrite forallb_forall in B. specialize (B c I). unfold is_byte. lia. }
  split; [apply T; [reflexivity|reflexivity|vm_compute; repeat constructor]|]. split; [discriminate|].
  apply T; [reflexivity|reflexivity|vm_compute; repeat constructor].
Qed.

(** A name without opening bracket adds no element to the page. *)
Theorem C92_shown_partial : forall v, Forall (fun c => c <> 60) v -> elements (cell_html v) = [str "td"].
Proof. exact c92_plain. Qed.
Print Assumptions C92_shown_partial.
Example C92_shown_case : Forall (fun c => c <> 60) (str "Livebox-12 > 34") /\ cell_html (str "a") = str "<td>a</td>".
Proof. split; [|reflexivity]. repeat constructor; discriminate. Qed.

(** The other names are taken as HTML: a neighbour whose network has a well-chosen name of at most 32 bytes adds an element
    with a script to the page of the administrator as soon as the settings are opened. *)
Theorem C92_markup_refuted : exists nets w body rows, nets = [net1; w] /\ n_ssid w = str "<svg onload=alert(1)>" /\ (length (n_ssid w) <= 32)%nat /\
  sys_wifi_scan_json nets false = Some body /\ loaded body = Some rows /\
  exists r, In r rows /\ elements (cell_html (nr_ssid r)) = [str "td"; str "svg"].
Proof.
  exists [net1; mk_net (str "<svg onload=alert(1)>") (-50) (str "x") 1 4], (mk_net (str "<svg onload=alert(1)>") (-50) (str "x") 1 4).
  destruct (c92_listed [net1; mk_net (str "<svg onload=alert(1)>") (-50) (str "x") 1 4]) as (body & E & L); [cbn; lia|repeat constructor|].
  exists body. eexists. split; [reflexivity|]. split; [reflexivity|]. split; [vm_compute; repeat constructor|]. split; [exact E|]. split; [exact L|].
  exists (mk_row (str "<svg onload=alert(1)>") (-50)). split; [right; left; reflexivity|vm_compute; reflexivity].
Qed.
Print Assumptions C92_markup_refuted.
