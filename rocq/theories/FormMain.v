(** Main proofs about the settings page: it shows the settings, and sending it back gives the settings shown. *)
From Coq Require Import ZArith List Bool Lia ZifyBool ZifyNat.
From Verif Require Import Base BaseFacts Config ConfigSpec Json JsonFacts JsonBuildFacts PagesSpec ToolSpec ConfigProofs ConfigMain ConfigHist
  ToolProofs Pages PagesProofs PagesSamples Form FormSpec FormProofs.
Import ListNotations.
Open Scope Z_scope.

(** ** The page that shows given settings *)
Definition entry (n : String.string) (max : nat) (t : list Z) : control := mk_ctl (str n) (TextBox (Some max)) (Entry t).
Definition numb (n : String.string) (v : Z) : control := mk_ctl (str n) NumberBox (Entry (dec v)).
Definition menu (n : String.string) (v : Z) : control := mk_ctl (str n) (Choice periods) (Pick (Some (dec v))).
Definition tick (n : String.string) (b : bool) : control := mk_ctl (str n) (Tick (str "1")) (Check b).
Arguments entry _%string_scope _%nat_scope _.
Arguments numb _%string_scope _.
Arguments menu _%string_scope _.
Arguments tick _%string_scope _.
Definition wifi_of (s : settings) : page :=
  [ entry "ssid" 32 (s_ssid s); entry "psk" 64 (s_psk s); entry "host" 32 (s_host s); entry "username" 31 (s_username s);
    entry "password" 31 (s_password s) ].
Definition service_of (s : settings) : page :=
  [ entry "emon_host" 32 (s_emon_host s); entry "emon_port" 5 (dec (s_emon_port s)); entry "emon_url" 32 (s_emon_url s);
    entry "emon_apikey" 32 (s_emon_key s); menu "emon_freq" (s_emon_freq s); numb "emon_node" (s_emon_node s);
    entry "jdom_host" 32 (s_jdom_host s); entry "jdom_port" 5 (dec (s_jdom_port s)); entry "jdom_url" 64 (s_jdom_url s);
    entry "jdom_apikey" 48 (s_jdom_key s); menu "jdom_freq" (s_jdom_freq s); entry "jdom_adco" 12 (s_jdom_adco s);
    entry "httpreq_host" 32 (s_http_host s); entry "httpreq_port" 5 (dec (s_http_port s)); entry "httpreq_url" 150 (s_http_url s);
    tick "httpreq_use_post" (s_use_post s); menu "httpreq_freq" (s_http_freq s);
    tick "httpreq_trigger_ptec" (s_ptec s); tick "httpreq_trigger_adps" (s_adps s); tick "httpreq_trigger_seuils" (s_seuils s);
    entry "httpreq_seuil_bas" 5 (dec (s_seuil_bas s)); entry "httpreq_seuil_haut" 5 (dec (s_seuil_haut s)) ].
Definition advanced_of (s : settings) : page :=
  [ entry "ap_psk" 64 (s_ap_psk s); mk_ctl (str "ota_auth") (TextBox None) (Entry (s_ota_auth s)); numb "ota_port" (s_ota_port s) ].
Definition other_of (s : settings) : page := [ numb "sse_freq" (s_sse_freq s); tick "cfg_led_tinfo" (s_led s) ].
Definition page_of (r : bool) (s : settings) : page :=
  [ mk_ctl (str "save") Hidden (Entry (str "1")) ] ++ (if r then [] else wifi_of s) ++ service_of s ++
  (if r then [] else advanced_of s) ++ other_of s.

(** ** Texts of the members *)
Definition yes (b : bool) : list Z := if b then str "1" else str "0".
Definition private_texts (s : settings) : list (list Z * list Z) :=
  [ (str "ssid", s_ssid s); (str "psk", s_psk s); (str "host", s_host s);
    (str "ap_psk", s_ap_psk s); (str "ota_auth", s_ota_auth s); (str "ota_port", dec (s_ota_port s));
    (str "username", s_username s); (str "password", s_password s) ].
Definition public_texts (s : settings) : list (list Z * list Z) :=
  [ (str "sse_freq", dec (s_sse_freq s)); (str "cfg_led_tinfo", yes (s_led s));
    (str "emon_host", s_emon_host s); (str "emon_port", dec (s_emon_port s));
    (str "emon_url", s_emon_url s); (str "emon_apikey", s_emon_key s);
    (str "emon_node", dec (s_emon_node s)); (str "emon_freq", dec (s_emon_freq s));
    (str "jdom_host", s_jdom_host s); (str "jdom_port", dec (s_jdom_port s));
    (str "jdom_url", s_jdom_url s); (str "jdom_apikey", s_jdom_key s);
    (str "jdom_adco", s_jdom_adco s); (str "jdom_freq", dec (s_jdom_freq s));
    (str "httpreq_host", s_http_host s); (str "httpreq_port", dec (s_http_port s));
    (str "httpreq_url", s_http_url s); (str "httpreq_use_post", yes (s_use_post s));
    (str "httpreq_freq", dec (s_http_freq s)); (str "httpreq_trigger_ptec", yes (s_ptec s));
    (str "httpreq_trigger_adps", yes (s_adps s)); (str "httpreq_trigger_seuils", yes (s_seuils s));
    (str "httpreq_seuil_bas", dec (s_seuil_bas s)); (str "httpreq_seuil_haut", dec (s_seuil_haut s)) ].

Lemma dec_aux_length : forall f n k, 0 <= n < 10 ^ Z.of_nat (S k) -> (List.length (dec_aux f n []) <= S k)%nat.
Proof.
  induction f as [|f IH]; intros n k H; cbn [dec_aux]; [cbn; lia|]. destruct (n <? 10) eqn:E; [cbn; lia|].
  rewrite dec_aux_acc, app_length. cbn [List.length]. destruct k as [|k]; [change (10 ^ Z.of_nat 1) with 10 in H; lia|].
  assert (X := IH (n / 10) k). assert (Y : 0 <= n / 10 < 10 ^ Z.of_nat (S k)); [|specialize (X Y); lia].
  split; [apply Z.div_pos; lia|]. apply Z.div_lt_upper_bound; [lia|].
  replace (Z.of_nat (S (S k))) with (Z.succ (Z.of_nat (S k))) in H by lia. rewrite Z.pow_succ_r in H by lia. lia.
Qed.
Lemma dec_length : forall n, 0 <= n < 4294967296 -> (List.length (dec n) <= 10)%nat.
Proof. intros n H. apply dec_aux_length. change (10 ^ Z.of_nat 10) with 10000000000. lia. Qed.
Lemma js_dec : forall n, 0 <= n < 4294967296 -> script_text (JNum (dec n)) = Some (dec n).
Proof.
  intros n H. cbn [script_text]. rewrite dec_digits. assert (L := dec_length n H).
  replace (Nat.leb (List.length (dec n)) 15) with true by lia. cbn [andb].
  destruct (Z.eq_dec n 0) as [->|N]; [reflexivity|]. destruct (dec_head n) as (c & t & D & C); [lia|]. rewrite D. cbn [hd].
  replace (c =? 48) with false by lia. rewrite orb_true_r. reflexivity.
Qed.
Lemma js_one : forall b, script_text (one b) = Some (yes b).
Proof. intros []; reflexivity. Qed.
Lemma member_app : forall a b ta tb, member_texts a = Some ta -> member_texts b = Some tb -> member_texts (a ++ b) = Some (ta ++ tb).
Proof.
  induction a as [|[n j] a IH]; intros b ta tb A B; cbn [member_texts app] in *; [inv A; exact B|].
  destruct (script_text j); [|discriminate]. destruct (member_texts a) as [x|] eqn:E; [|discriminate]. inv A.
  rewrite (IH b x tb) by auto. reflexivity.
Qed.
Lemma texts_of : forall (r : bool) s, numbers_fit s ->
  member_texts ((if r then [] else private_members s) ++ public_members s) = Some ((if r then [] else private_texts s) ++ public_texts s).
Proof.
  intros r s H. unfold numbers_fit in H. apply member_app.
  - destruct r; [reflexivity|]. unfold private_members. cbn [member_texts]. rewrite !js_dec by lia. reflexivity.
  - unfold public_members. cbn [member_texts]. rewrite !js_dec, !js_one by lia. reflexivity.
Qed.

(** ** Filling the blank page *)
Definition raw_page (r : bool) (s : settings) : page :=
  [ mk_ctl (str "save") Hidden (Entry (str "1")) ] ++
  (if r then [] else
   [ assign (s_ssid s) (text_box "ssid" 32); assign (s_psk s) (text_box "psk" 64); assign (s_host s) (text_box "host" 32);
     assign (s_username s) (text_box "username" 31); assign (s_password s) (text_box "password" 31) ]) ++
  [ assign (s_emon_host s) (text_box "emon_host" 32); assign (dec (s_emon_port s)) (text_box "emon_port" 5);
    assign (s_emon_url s) (text_box "emon_url" 32); assign (s_emon_key s) (text_box "emon_apikey" 32);
    assign (dec (s_emon_freq s)) (period_menu "emon_freq"); assign (dec (s_emon_node s)) (number_box "emon_node");
    assign (s_jdom_host s) (text_box "jdom_host" 32); assign (dec (s_jdom_port s)) (text_box "jdom_port" 5);
    assign (s_jdom_url s) (text_box "jdom_url" 64); assign (s_jdom_key s) (text_box "jdom_apikey" 48);
    assign (dec (s_jdom_freq s)) (period_menu "jdom_freq"); assign (s_jdom_adco s) (text_box "jdom_adco" 12);
    assign (s_http_host s) (text_box "httpreq_host" 32); assign (dec (s_http_port s)) (text_box "httpreq_port" 5);
    assign (s_http_url s) (text_box "httpreq_url" 150); assign (yes (s_use_post s)) (tick_box "httpreq_use_post");
    assign (dec (s_http_freq s)) (period_menu "httpreq_freq");
    assign (yes (s_ptec s)) (tick_box "httpreq_trigger_ptec"); assign (yes (s_adps s)) (tick_box "httpreq_trigger_adps");
    assign (yes (s_seuils s)) (tick_box "httpreq_trigger_seuils");
    assign (dec (s_seuil_bas s)) (text_box "httpreq_seuil_bas" 5); assign (dec (s_seuil_haut s)) (text_box "httpreq_seuil_haut" 5) ] ++
  (if r then [] else
   [ assign (s_ap_psk s) (text_box "ap_psk" 64); assign (s_ota_auth s) (mk_ctl (str "ota_auth") (TextBox None) (Entry []));
     assign (dec (s_ota_port s)) (number_box "ota_port") ]) ++
  [ assign (dec (s_sse_freq s)) (number_box "sse_freq"); assign (yes (s_led s)) (tick_box "cfg_led_tinfo") ].

Lemma fill_raw : forall (r : bool) s, fill ((if r then [] else private_texts s) ++ public_texts s) (blank_page r) = Some (raw_page r s).
Proof. intros [] s; lazy -[assign dec yes s_ssid]; reflexivity. Qed.

Lemma no_breaks_id : forall t, quotable t = true -> no_breaks t = t.
Proof.
  intros t H. unfold quotable in H. apply andb_true_iff in H. destruct H as (H & _). unfold no_breaks.
  induction t as [|c t IH]; [reflexivity|]. cbn [forallb filter] in *. apply andb_true_iff in H. destruct H as (H & T).
  replace (negb ((c =? 10) || (c =? 13))) with true by lia. f_equal. auto.
Qed.
Lemma dec_quotable : forall n, quotable (dec n) = true.
Proof.
  intros n. apply ascii_quotable. apply Forall_impl with (2 := digits_printable _ (dec_digits n)). intros a A. lia.
Qed.
Lemma dec_nonempty : forall n, 0 <= n -> dec n <> [].
Proof.
  intros n H. destruct (Z.eq_dec n 0) as [->|N]; [discriminate|]. destruct (dec_head n) as (c & t & D & _); [lia|]. rewrite D. discriminate.
Qed.
Lemma dec_valid : forall n, 0 <= n -> valid_number (dec n) = true.
Proof.
  intros n H. unfold valid_number. assert (N := dec_nonempty n H). assert (D := dec_digits n). destruct (dec n) as [|c t] eqn:E; [congruence|].
  replace (c =? 45) with false by (cbn [forallb] in D; unfold isdigit in D; lia). rewrite digits_all by auto. reflexivity.
Qed.

Lemma assign_text : forall n max t, quotable t = true -> assign t (text_box n max) = entry n max t.
Proof. intros n max t H. unfold assign, text_box, entry. cbn. rewrite no_breaks_id by auto. reflexivity. Qed.
Lemma assign_number : forall n v, 0 <= v -> assign (dec v) (number_box n) = numb n v.
Proof. intros n v H. unfold assign, number_box, numb. cbn. rewrite dec_valid by auto. reflexivity. Qed.
Lemma assign_menu : forall n v, In v listed_periods -> assign (dec v) (period_menu n) = menu n v.
Proof.
  intros n v H. unfold listed_periods in H. cbn [In] in H.
  repeat (destruct H as [<-|H]; [reflexivity|]). contradiction.
Qed.
Lemma assign_tick : forall n b, assign (yes b) (tick_box n) = tick n b.
Proof. intros n []; reflexivity. Qed.
Lemma raw_is_page : forall r s, showable r s -> raw_page r s = page_of r s.
Proof.
  intros r s (Q & N & (P1 & P2 & P3)). rewrite Forall_forall in Q. unfold page_words, private_words, public_words in Q.
  unfold in_range in N.
  unfold raw_page, page_of, wifi_of, service_of, advanced_of, other_of.
  rewrite !assign_menu by assumption. rewrite !assign_tick. rewrite !assign_number by lia.
  destruct r; cbn [app] in Q.
  - rewrite !assign_text by (first [apply dec_quotable | apply Q; cbn [In]; tauto]). reflexivity.
  - rewrite !assign_text by (first [apply dec_quotable | apply Q; cbn [In]; tauto]).
    unfold assign at 1. cbn [k_name k_kind]. rewrite no_breaks_id by (apply Q; cbn [In]; tauto). reflexivity.
Qed.

Lemma range_fit : forall s, in_range s -> numbers_fit s.
Proof. unfold in_range, numbers_fit. intros s H. lia. Qed.

(** ** Opening *)
Lemma opened_page : forall s r, reachable s -> showable r (view (c_cfg s)) ->
  open_tab (config_get_json (c_cfg s) r) (blank_page r) = Some (page_of r (view (c_cfg s))).
Proof.
  intros s r R S. unfold open_tab. rewrite c13_reachable.
  - rewrite texts_of by (apply range_fit, (proj1 (proj2 S))). rewrite fill_raw, raw_is_page by auto. reflexivity.
  - auto.
  - intros f T P. destruct S as (Q & _). rewrite Forall_forall in Q. apply Q. unfold page_words, private_words, public_words.
    destruct f; try discriminate T; destruct r; try discriminate P; cbn [In app]; cbn; tauto.
Qed.

(** ** Sending *)
Lemma dec_aux_value : forall f n, 0 <= n < 2 ^ Z.of_nat f -> dec_value (dec_aux f n []) = n.
Proof.
  induction f as [|f IH]; intros n H; cbn [dec_aux]; [cbn in *; unfold dec_value; cbn; lia|].
  destruct (n <? 10) eqn:E.
  - unfold dec_value. cbn [fold_left]. rewrite Z.mod_small by lia. lia.
  - rewrite dec_aux_acc. unfold dec_value. rewrite fold_left_app. cbn [fold_left]. fold (dec_value (dec_aux f (n / 10) [])).
    assert (Q := Z.div_mod n 10). rewrite IH; [lia|]. replace (Z.of_nat (S f)) with (Z.succ (Z.of_nat f)) in H by lia.
    rewrite Z.pow_succ_r in H by lia. split; [apply Z.div_pos; lia|]. apply Z.div_lt_upper_bound; lia.
Qed.
Lemma dec_value_dec : forall n, 0 <= n -> dec_value (dec n) = n.
Proof.
  intros n H. unfold dec. apply dec_aux_value. split; [lia|]. assert (L := Z.log2_nonneg n). rewrite Z2Nat.id by lia.
  destruct (Z.eq_dec n 0) as [->|N]; [cbn; lia|]. assert (X := Z.log2_spec n).
  apply Z.lt_le_trans with (2 ^ Z.succ (Z.log2 n)); [lia|]. apply Z.pow_le_mono_r; lia.
Qed.
Lemma dec_number : forall n hi d, 0 <= n <= hi -> ranged hi d (dec n) = n.
Proof.
  intros n hi d H. unfold ranged. rewrite digits_number by (try apply dec_digits; apply dec_nonempty; lia).
  rewrite dec_value_dec by lia. replace ((0 <=? n) && (n <=? hi)) with true by lia. reflexivity.
Qed.
Lemma look_page : forall r s, let p := page_of r s in
  (forall n : String.string, posted (sent_pairs p) n = match look (str n) p with Some v => v | None => [] end) /\
  (forall n : String.string, ticked (sent_pairs p) n = match look (str n) p with Some v => true | None => false end).
Proof. intros r s p. split; intro n; [apply posted_look|apply ticked_look]. Qed.

(** Private settings of one, public settings of the other. *)
Definition merged (r : bool) (a b : settings) : settings :=
  let keep {A} (old new : A) := if r then old else new in
  mk_settings (keep (s_ssid a) (s_ssid b)) (keep (s_psk a) (s_psk b)) (keep (s_host a) (s_host b)) (keep (s_ap_psk a) (s_ap_psk b))
    (keep (s_ota_auth a) (s_ota_auth b)) (keep (s_ota_port a) (s_ota_port b)) (keep (s_username a) (s_username b))
    (keep (s_password a) (s_password b))
    (s_sse_freq b) (s_led b) (s_emon_host b) (s_emon_key b) (s_emon_url b) (s_emon_port b) (s_emon_node b) (s_emon_freq b)
    (s_jdom_host b) (s_jdom_key b) (s_jdom_url b) (s_jdom_adco b) (s_jdom_port b) (s_jdom_freq b)
    (s_http_host b) (s_http_url b) (s_http_port b) (s_http_freq b) (s_adps b) (s_ptec b) (s_seuils b) (s_use_post b)
    (s_seuil_haut b) (s_seuil_bas b).
Lemma merged_self : forall r s, merged r s s = s.
Proof. intros [] []; reflexivity. Qed.
Lemma merged_public : forall r a b, page_of r (merged r a b) = page_of r b.
Proof. intros [] a b; reflexivity. Qed.

Definition fitting (s : settings) : Prop := fits s /\ in_range s.
Lemma posted_public : forall r s,
  posted (sent_pairs (page_of r s)) "sse_freq" = dec (s_sse_freq s) /\
  posted (sent_pairs (page_of r s)) "emon_host" = s_emon_host s /\
  posted (sent_pairs (page_of r s)) "emon_apikey" = s_emon_key s /\
  posted (sent_pairs (page_of r s)) "emon_url" = s_emon_url s /\
  posted (sent_pairs (page_of r s)) "emon_port" = dec (s_emon_port s) /\
  posted (sent_pairs (page_of r s)) "emon_node" = dec (s_emon_node s) /\
  posted (sent_pairs (page_of r s)) "emon_freq" = dec (s_emon_freq s) /\
  posted (sent_pairs (page_of r s)) "jdom_host" = s_jdom_host s /\
  posted (sent_pairs (page_of r s)) "jdom_apikey" = s_jdom_key s /\
  posted (sent_pairs (page_of r s)) "jdom_url" = s_jdom_url s /\
  posted (sent_pairs (page_of r s)) "jdom_adco" = s_jdom_adco s /\
  posted (sent_pairs (page_of r s)) "jdom_port" = dec (s_jdom_port s) /\
  posted (sent_pairs (page_of r s)) "jdom_freq" = dec (s_jdom_freq s) /\
  posted (sent_pairs (page_of r s)) "httpreq_host" = s_http_host s /\
  posted (sent_pairs (page_of r s)) "httpreq_url" = s_http_url s /\
  posted (sent_pairs (page_of r s)) "httpreq_port" = dec (s_http_port s) /\
  posted (sent_pairs (page_of r s)) "httpreq_freq" = dec (s_http_freq s) /\
  posted (sent_pairs (page_of r s)) "httpreq_seuil_haut" = dec (s_seuil_haut s) /\
  posted (sent_pairs (page_of r s)) "httpreq_seuil_bas" = dec (s_seuil_bas s) /\
  ticked (sent_pairs (page_of r s)) "cfg_led_tinfo" = s_led s /\
  ticked (sent_pairs (page_of r s)) "httpreq_trigger_adps" = s_adps s /\
  ticked (sent_pairs (page_of r s)) "httpreq_trigger_ptec" = s_ptec s /\
  ticked (sent_pairs (page_of r s)) "httpreq_trigger_seuils" = s_seuils s /\
  ticked (sent_pairs (page_of r s)) "httpreq_use_post" = s_use_post s.
Proof.
  intros r s. destruct (look_page r s) as (P & T). rewrite !P, !T. clear P T.
  repeat split; try (destruct r; reflexivity).
  - destruct s; destruct s_led, r; reflexivity.
  - destruct s; destruct s_adps, r; reflexivity.
  - destruct s; destruct s_ptec, r; reflexivity.
  - destruct s; destruct s_seuils, r; reflexivity.
  - destruct s; destruct s_use_post, r; reflexivity.
Qed.
Lemma posted_private : forall s,
  posted (sent_pairs (page_of false s)) "ssid" = s_ssid s /\
  posted (sent_pairs (page_of false s)) "psk" = s_psk s /\
  posted (sent_pairs (page_of false s)) "host" = s_host s /\
  posted (sent_pairs (page_of false s)) "ap_psk" = s_ap_psk s /\
  posted (sent_pairs (page_of false s)) "ota_auth" = s_ota_auth s /\
  posted (sent_pairs (page_of false s)) "ota_port" = dec (s_ota_port s) /\
  posted (sent_pairs (page_of false s)) "username" = s_username s /\
  posted (sent_pairs (page_of false s)) "password" = s_password s.
Proof. intros s. destruct (look_page false s) as (P & T). rewrite !P. repeat split. Qed.
Lemma save_ticked : forall r s, ticked (sent_pairs (page_of r s)) "save" = true.
Proof. intros r s. rewrite (proj2 (look_page r s)). reflexivity. Qed.
Lemma after_page : forall r a s, fitting s -> after_form r (sent_pairs (page_of r s)) a = merged r a s.
Proof.
  intros r a s (F & N). unfold fits, texts in F. unfold in_range in N.
  repeat match goal with H : Forall _ (_ :: _) |- _ => inv H end. cbn [fst snd] in *.
  repeat match goal with H : ~ In 0 _ /\ _ |- _ => destruct H end.
  destruct (posted_public r s) as (P1 & P2 & P3 & P4 & P5 & P6 & P7 & P8 & P9 & P10 & P11 & P12 & P13 & P14 & P15 & P16 & P17 & P18 & P19 & T1 & T2 & T3 & T4 & T5).
  unfold after_form. rewrite P1, P2, P3, P4, P5, P6, P7, P8, P9, P10, P11, P12, P13, P14, P15, P16, P17, P18, P19, T1, T2, T3, T4, T5.
  clear P1 P2 P3 P4 P5 P6 P7 P8 P9 P10 P11 P12 P13 P14 P15 P16 P17 P18 P19 T1 T2 T3 T4 T5.
  rewrite !dec_number by lia. unfold merged. destruct r.
  - rewrite !cut_fit by assumption. reflexivity.
  - destruct (posted_private s) as (P1 & P2 & P3 & P4 & P5 & P6 & P7 & P8). rewrite P1, P2, P3, P4, P5, P6, P7, P8.
    rewrite !cut_fit by assumption. rewrite !dec_number by lia. reflexivity.
Qed.
