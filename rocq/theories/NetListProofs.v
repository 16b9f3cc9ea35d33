(** Proofs about the list of networks. *)
From Coq Require Import ZArith List Bool Lia.
From Verif Require Import Base BaseFacts Config ConfigSpec ConfigProofs ConfigMain ConfigHist ConfigFinal ToolSpec Json JsonBuildFacts Pages PagesSpec PagesProofs ExactPages
  Dash Wifi WifiSpec WifiProofs Form FormSpec FormProofs FormMain FormFinal NetList NetListSpec.
Import ListNotations.
Open Scope Z_scope.

Lemma whole_dec : forall n, 0 <= n -> whole_number (dec n) = Some n.
Proof.
  intros n P. pose proof (dec_nonempty n P) as N. pose proof (dec_digits n) as D. pose proof (dec_value_dec n P) as V.
  destruct (dec n) as [|c l] eqn:E; [congruence|]. unfold whole_number.
  destruct (Z.eq_dec c 45) as [->|NC].
  - discriminate.
  - rewrite D, V. destruct c as [|p|p]; try reflexivity. repeat (destruct p as [p|p|]; try reflexivity). congruence.
Qed.
Lemma whole_decs : forall n, whole_number (decs n) = Some n.
Proof.
  intros n. unfold decs. destruct (n <? 0) eqn:E; [|apply whole_dec; lia].
  pose proof (whole_dec (- n) ltac:(lia)) as W. pose proof (dec_nonempty (- n) ltac:(lia)) as N. pose proof (dec_digits (- n)) as D.
  pose proof (dec_value_dec (- n) ltac:(lia)) as V.
  unfold whole_number. destruct (dec (- n)) as [|c l] eqn:Q; [congruence|].
  rewrite D, V. f_equal. lia.
Qed.
Lemma row_network : forall w, row_of (network_json w) = Some (mk_row (n_ssid w) (n_rssi w)).
Proof.
  intros w. unfold row_of, network_json.
  change (property (str "ssid") _) with (Some (JStr (n_ssid w))). change (property (str "rssi") _) with (Some (JNum (decs (n_rssi w)))).
  cbv iota. rewrite whole_decs. reflexivity.
Qed.
Lemma rows_networks : forall nets, rows_of (map network_json nets) = Some (map (fun w => mk_row (n_ssid w) (n_rssi w)) nets).
Proof. induction nets as [|w nets IH]; [reflexivity|]. cbn [map rows_of]. rewrite row_network, IH. reflexivity. Qed.

Lemma c92_listed : forall nets, (length nets <= 127)%nat ->
  Forall (fun w => quotable (n_ssid w) = true /\ quotable (n_bssid w) = true) nets ->
  exists body, sys_wifi_scan_json nets false = Some body /\ loaded body = Some (map (fun w => mk_row (n_ssid w) (n_rssi w)) nets).
Proof.
  intros nets L Q. destruct (c53_scan_exact nets L) as (body & E & I). exists body. split; [exact E|]. unfold loaded.
  rewrite (proj2 I Q). apply rows_networks.
Qed.

(** ** The bar *)
Lemma c92_bar : forall rssi,
  0 <= signal rssi <= 100 /\ (signal rssi = 0 <-> rssi <= -100) /\ (signal rssi = 100 <-> -50 <= rssi) /\
  (-100 <= rssi <= -50 -> signal rssi = 2 * (rssi + 100)) /\
  (forall rssi', rssi <= rssi' -> signal rssi <= signal rssi') /\
  (quality_of rssi = Good <-> -65 <= rssi) /\ (quality_of rssi = Fair <-> -75 <= rssi < -65) /\
  (quality_of rssi = Poor <-> -85 <= rssi < -75) /\ (quality_of rssi = Bad <-> rssi < -85) /\
  bar_text rssi = decs rssi ++ str "dB".
Proof.
  intros r.
  assert (X : forall x, signal x = Z.min (Z.max (2 * (x + 100)) 0) 100) by reflexivity.
  split; [rewrite X; lia|]. split; [rewrite X; lia|]. split; [rewrite X; lia|]. split; [rewrite X; lia|].
  split; [intros; rewrite !X; lia|]. cbv beta zeta delta [quality_of]. rewrite X.
  destruct (_ <? 30) eqn:E1; [|destruct (_ <? 50) eqn:E2; [|destruct (_ <? 70) eqn:E3]];
    (split; [|split; [|split; [|split; [|reflexivity]]]]); split; intros H; try discriminate; try reflexivity; lia.
Qed.

(** ** Choosing a network *)
Lemma click_page : forall v name rssi, quotable name = true ->
  click_row (mk_row name rssi) (page_of false v) = Some (page_of false (with_network name (s_psk v) v)).
Proof.
  intros v name rssi Q. unfold click_row. cbn [nr_ssid]. pose proof (no_breaks_id name Q) as N.
  unfold fill_one.
  replace (filter (named (str "ssid")) (page_of false v)) with [FormMain.entry "ssid" 32 (s_ssid v)] by reflexivity.
  f_equal. unfold page_of, wifi_of. cbn [app]. unfold service_of, advanced_of, other_of. cbn [app map].
  unfold assign. cbn. rewrite N. reflexivity.
Qed.
Lemma type_page : forall v key, type_text (str "psk") key (page_of false v) = page_of false (with_network (s_ssid v) key v).
Proof. intros v key. reflexivity. Qed.
Lemma with_twice : forall v a b c d, with_network a b (with_network c d v) = with_network a b v.
Proof. reflexivity. Qed.
Lemma merged_false : forall a b, merged false a b = b.
Proof. intros a []; reflexivity. Qed.

Lemma with_fitting : forall v ssid key, fitting v -> texts_bytes v -> text_of 32 ssid -> text_of 64 key ->
  fitting (with_network ssid key v) /\ texts_bytes (with_network ssid key v).
Proof.
  intros v ssid key [F R] B G1 G2. pose proof (good_fit _ _ G1) as F1. pose proof (good_fit _ _ G2) as F2.
  destruct G1 as (_ & B1 & _). destruct G2 as (_ & B2 & _). split; [split|].
  - unfold fits, texts in *. cbn [with_network s_ssid s_psk s_host s_ap_psk s_ota_auth s_username s_password s_emon_host s_emon_key s_emon_url
      s_jdom_host s_jdom_key s_jdom_url s_jdom_adco s_http_host s_http_url].
    inversion F as [|? ? _ F']; subst. inversion F' as [|? ? _ F'']; subst. constructor; [exact F1|]. constructor; [exact F2|]. exact F''.
  - exact R.
  - unfold texts_bytes, texts in *. cbn [with_network s_ssid s_psk s_host s_ap_psk s_ota_auth s_username s_password s_emon_host s_emon_key s_emon_url
      s_jdom_host s_jdom_key s_jdom_url s_jdom_adco s_http_host s_http_url].
    inversion B as [|? ? _ B']; subst. inversion B' as [|? ? _ B'']; subst. constructor; [exact B1|]. constructor; [exact B2|]. exact B''.
Qed.

Lemma c92_join : forall s w key, reachable s -> showable false (view (c_cfg s)) ->
  text_of 32 (n_ssid w) -> n_ssid w <> [] -> text_of 64 key ->
  exists p p' fm s', open_tab (config_get_json (c_cfg s) false) (blank_page false) = Some p /\
    click_row (mk_row (n_ssid w) (n_rssi w)) p = Some p' /\
    parse_arguments (serialize (type_text (str "psk") key p')) = Some fm /\
    config_handle_form Stored false fm s = Some (s', 200) /\
    view (c_cfg s') = with_network (n_ssid w) key (view (c_cfg s)) /\
    forall chip o1 o2 mem, wf mem -> exists s1, config_setup chip o1 o2 mem (e_flash (c_ee s')) = Some s1 /\
      view (c_cfg s1) = with_network (n_ssid w) key (view (c_cfg s)) /\
      forall o st sdk_ssid sdk_psk, exists acts r,
        sys_wifi_connect o st sdk_ssid sdk_psk s1 = Some (s1, Join (n_ssid w) (match key with [] => None | _ => Some key end) :: acts, r).
Proof.
  intros s w key R H G1 NE G2. destruct (view_fits s R) as (F & B).
  pose proof (with_fitting (view (c_cfg s)) (n_ssid w) key (conj F (proj1 (proj2 H))) B G1 G2) as [F' B'].
  set (v' := with_network (n_ssid w) key (view (c_cfg s))) in *.
  destruct (page_read false v' B') as (P & FB).
  destruct (c29_stored false (sent_pairs (page_of false v')) s R FB (save_ticked false v')) as (s' & E & S).
  destruct (c26 Stored false (sent_pairs (page_of false v')) s R FB (save_ticked false v')) as (s2 & E2 & V & _).
  assert (s2 = s') by congruence. subst s2.
  rewrite (after_page false (view (c_cfg s)) v' F'), merged_false in V.
  exists (page_of false (view (c_cfg s))), (page_of false (with_network (n_ssid w) (s_psk (view (c_cfg s))) (view (c_cfg s)))),
    (sent_pairs (page_of false v')), s'.
  split; [apply opened_page; auto|]. split; [apply click_page; exact (proj1 G1)|].
  split; [rewrite type_page, with_twice; exact P|]. split; [exact E|]. split; [exact V|].
  intros chip o1 o2 mem W. destruct (S chip o1 o2 mem W) as (s1 & E1 & V1).
  rewrite (after_page false (view (c_cfg s)) v' F'), merged_false in V1.
  exists s1. split; [exact E1|]. split; [exact V1|]. intros o st ss sp.
  assert (T1 : text Ssid (c_cfg s1) = n_ssid w) by (change (s_ssid (view (c_cfg s1)) = n_ssid w); rewrite V1; reflexivity).
  assert (T2 : text Psk (c_cfg s1) = key) by (change (s_psk (view (c_cfg s1)) = key); rewrite V1; reflexivity).
  unfold sys_wifi_connect, adopt_sdk. rewrite T1. destruct (n_ssid w) as [|c t] eqn:Q; [congruence|]. cbv beta iota zeta. rewrite T1, T2.
  destruct (wait_loop 50 st 1) as [[r k] x]. cbn [app]. do 2 eexists. reflexivity.
Qed.

(** ** Names shown in the table *)
Lemma elements_plain : forall v rest, Forall (fun c => c <> 60) v -> elements (v ++ 60 :: 47 :: rest) = elements (60 :: 47 :: rest).
Proof.
  induction 1 as [|c v N F IH]; [reflexivity|]. cbn [app]. cbn [elements]. rewrite IH.
  replace (c =? 60) with false by lia. destruct (letters _); reflexivity.
Qed.
Lemma c92_plain : forall v, Forall (fun c => c <> 60) v -> elements (cell_html v) = [str "td"].
Proof.
  intros v F. unfold cell_html. change (str "</td>") with (60 :: 47 :: str "td>").
  change (elements (str "<td>" ++ v ++ 60 :: 47 :: str "td>")) with
    (str "td" :: elements (str "td>" ++ v ++ 60 :: 47 :: str "td>")).
  rewrite app_assoc, elements_plain; [reflexivity|]. apply Forall_app. split; [|exact F]. repeat constructor; discriminate.
Qed.
