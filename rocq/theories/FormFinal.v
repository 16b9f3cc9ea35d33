(** The theorems about the settings page. *)
From Coq Require Import ZArith List Bool Lia ZifyBool ZifyNat.
From Verif Require Import Base BaseFacts Config ConfigSpec Json JsonFacts PagesSpec ToolSpec ConfigProofs ConfigMain ConfigHist
  JsonBuildFacts DeviceMain Pages PagesSamples Form FormSpec FormProofs FormMain.
From Verif Require ConfigSamples.
Import ListNotations.
Open Scope Z_scope.

(** ** The settings of a module fit *)
Lemma cstr_no_nul : forall b, ~ In 0 (cstr b).
Proof.
  induction b as [|c b IH]; [auto|]. cbn [cstr]. destruct (Z.eqb_spec c 0); [auto|]. intros [E|E]; [congruence|auto].
Qed.
Lemma text_fit : forall f c, wf c -> terminated c -> is_text f = true ->
  ~ In 0 (text f c) /\ (List.length (text f c) < fsize f)%nat /\ bytes (text f c).
Proof.
  intros f c W T H. unfold text. split; [apply cstr_no_nul|]. split.
  - rewrite <- (get_len f c W). apply cstr_length_nul. auto.
  - apply cstr_bytes, get_bytes. auto.
Qed.
Lemma view_fits : forall s, reachable s -> fits (view (c_cfg s)) /\ texts_bytes (view (c_cfg s)).
Proof.
  intros s R. destruct (reachable_inv s R) as (W & T & _).
  assert (X : forall f, is_text f = true -> ~ In 0 (text f (c_cfg s)) /\ (List.length (text f (c_cfg s)) < fsize f)%nat /\
    bytes (text f (c_cfg s))) by (intros; apply text_fit; auto).
  split.
  - unfold fits, texts, view; cbn [s_ssid s_psk s_host s_ap_psk s_ota_auth s_username s_password s_emon_host s_emon_key s_emon_url
      s_jdom_host s_jdom_key s_jdom_url s_jdom_adco s_http_host s_http_url];
    repeat first [apply Forall_nil | apply Forall_cons; [split|]]; cbn [fst snd]; try (apply X; reflexivity);
    match goal with |- (List.length (text ?f _) <= _)%nat => let Y := fresh in assert (Y := proj1 (proj2 (X f eq_refl))); cbn [fsize] in Y; lia end.
  - unfold texts_bytes, texts, view; cbn [s_ssid s_psk s_host s_ap_psk s_ota_auth s_username s_password s_emon_host s_emon_key s_emon_url
      s_jdom_host s_jdom_key s_jdom_url s_jdom_adco s_http_host s_http_url];
    repeat first [apply Forall_nil | apply Forall_cons]; cbn [fst snd]; apply X; reflexivity.
Qed.

(** ** The request is read as it was meant *)
Definition sendable (k : control) : Prop :=
  k_name k <> [] /\ bytes (k_name k) /\ match sent_value k with Some v => bytes v | None => True end.
Lemma sendable_pairs : forall p, Forall sendable p -> form_bytes (sent_pairs p) /\ names_ok (sent_pairs p).
Proof.
  unfold form_bytes, names_ok. induction 1 as [|k p (A & B & C) F (IH1 & IH2)]; cbn [sent_pairs]; [split; constructor|].
  destruct (sent_value k); [|auto]. split; constructor; cbn [fst snd]; auto.
Qed.
Lemma digits_bytes : forall l, forallb isdigit l = true -> bytes l.
Proof. induction l; cbn [forallb]; intro H; constructor; unfold isdigit, is_byte in *; [lia|]. apply IHl. lia. Qed.
Lemma str_bytes : forall s : list Z, forallb (fun c => (0 <=? c) && (c <=? 255)) s = true -> bytes s.
Proof. induction s; cbn [forallb]; intro H; constructor; unfold is_byte in *; [lia|]. apply IHs. lia. Qed.
Lemma page_sendable : forall r s, texts_bytes s -> Forall sendable (page_of r s).
Proof.
  intros r s B. unfold texts_bytes, texts in B.
  repeat match goal with H : Forall _ (_ :: _) |- _ => inv H end. cbn [fst snd] in *.
  assert (D : forall n, bytes (dec n)) by (intro; apply digits_bytes, dec_digits).
  assert (T : forall n b, str n <> [] -> bytes (str n) -> sendable (tick n b)).
  { intros n b N Q. split; [auto|]. split; [auto|]. destruct b; cbn; [|auto]. apply str_bytes. reflexivity. }
  assert (E : forall n m t, str n <> [] -> bytes (str n) -> bytes t -> sendable (entry n m t)).
  { intros n m t N Q P. split; [auto|]. split; auto. }
  assert (N : forall n v, str n <> [] -> bytes (str n) -> sendable (numb n v)).
  { intros n v N Q. split; [auto|]. split; [auto|]. cbn. apply D. }
  assert (M : forall n v, str n <> [] -> bytes (str n) -> sendable (menu n v)).
  { intros n v X Q. split; [auto|]. split; [auto|]. cbn. apply D. }
  unfold page_of, wifi_of, service_of, advanced_of, other_of.
  assert (S1 : sendable (mk_ctl (str "save") Hidden (Entry (str "1")))).
  { split; [discriminate|]. split; apply str_bytes; reflexivity. }
  assert (S2 : sendable (mk_ctl (str "ota_auth") (TextBox None) (Entry (s_ota_auth s)))).
  { split; [discriminate|]. split; [apply str_bytes; reflexivity|]. cbn. auto. }
  destruct r; cbn [app]; repeat first [apply Forall_nil | apply Forall_cons]; try exact S1; try exact S2;
  first [apply T|apply E|apply N|apply M|idtac]; try discriminate; try (apply str_bytes; reflexivity); auto.
Qed.
Lemma page_read : forall r s, texts_bytes s -> parse_arguments (serialize (page_of r s)) = Some (sent_pairs (page_of r s)) /\
  form_bytes (sent_pairs (page_of r s)).
Proof.
  intros r s B. destruct (sendable_pairs _ (page_sendable r s B)) as (F & N). split; [|auto]. apply request_read; auto. discriminate.
Qed.

(** ** Saving without touching anything *)
Lemma posted_page : forall o r s v, reachable s -> texts_bytes v -> fitting v ->
  exists fm s', parse_arguments (serialize (page_of r v)) = Some fm /\ config_handle_form o r fm s = Some (s', 200) /\
    view (c_cfg s') = merged r (view (c_cfg s)) v /\ reachable s'.
Proof.
  intros o r s v R B F. destruct (page_read r v B) as (P & FB).
  destruct (c26 o r (sent_pairs (page_of r v)) s R FB (save_ticked r v)) as (s' & E & V & _).
  exists (sent_pairs (page_of r v)), s'. split; [exact P|]. split; [exact E|]. split; [rewrite V; apply after_page; auto|].
  apply (reachable_step (Post o r (sent_pairs (page_of r v))) s); auto. cbn [cstep]. rewrite E. reflexivity.
Qed.
Lemma c70 : forall o r s, reachable s -> showable r (view (c_cfg s)) ->
  exists p fm s', open_tab (config_get_json (c_cfg s) r) (blank_page r) = Some p /\
    parse_arguments (serialize p) = Some fm /\ config_handle_form o r fm s = Some (s', 200) /\ view (c_cfg s') = view (c_cfg s).
Proof.
  intros o r s R H. destruct (view_fits s R) as (F & B).
  destruct (posted_page o r s (view (c_cfg s)) R B (conj F (proj1 (proj2 H)))) as (fm & s' & P & E & V & _).
  exists (page_of r (view (c_cfg s))), fm, s'. split; [apply opened_page; auto|]. split; [exact P|]. split; [exact E|].
  rewrite V. apply merged_self.
Qed.

(** ** What is entered comes back *)
Definition shape (k : control) : list Z * kind := (k_name k, k_kind k).
Lemma shape_cons : forall p n kd rest, map shape p = (n, kd) :: rest -> exists c p', p = mk_ctl n kd c :: p' /\ map shape p' = rest.
Proof.
  intros [|[n0 k0 c] p] n kd rest H; [discriminate|]. cbn [map] in H. unfold shape at 1 in H. cbn [k_name k_kind] in H.
  assert (A : n0 = n) by congruence. assert (B : k0 = kd) by congruence. assert (C : map shape p = rest) by congruence. subst.
  exists c, p. auto.
Qed.
Lemma shape_nil : forall p, map shape p = [] -> p = [].
Proof. intros [|] H; [auto|discriminate]. Qed.
Lemma sens_words : forall n k c m, purpose_of n = Some (Words m) -> sensible (mk_ctl n k c) ->
  exists t, c = Entry t /\ quotable t = true /\ bytes t /\ (List.length t <= m)%nat.
Proof. intros n k c m P H. unfold sensible in H. cbn [k_name k_now] in H. rewrite P in H. destruct c; try contradiction. eauto. Qed.
Lemma sens_number : forall n k c hi, purpose_of n = Some (Number hi) -> sensible (mk_ctl n k c) ->
  exists v, c = Entry (dec v) /\ 0 <= v <= hi.
Proof.
  intros n k c m P H. unfold sensible in H. cbn [k_name k_now] in H. rewrite P in H. destruct c; try contradiction.
  destruct H as (x & R & ->). eauto.
Qed.
Lemma sens_period : forall n k c, purpose_of n = Some Period -> sensible (mk_ctl n k c) ->
  exists v, c = Pick (Some (dec v)) /\ In v listed_periods.
Proof.
  intros n k c P H. unfold sensible in H. cbn [k_name k_now] in H. rewrite P in H. destruct c as [|[o|]|]; try contradiction.
  assert (X : periods = map dec listed_periods) by (vm_compute; reflexivity). rewrite X in H. apply in_map_iff in H.
  destruct H as (v & <- & I). eauto.
Qed.
Lemma sens_yesno : forall n k c, purpose_of n = Some YesNo -> sensible (mk_ctl n k c) -> exists b, c = Check b.
Proof. intros n k c P H. unfold sensible in H. cbn [k_name k_now] in H. rewrite P in H. destruct c; try contradiction. eauto. Qed.
Lemma sens_mark : forall n k c, purpose_of n = Some Mark -> sensible (mk_ctl n k c) -> c = Entry (str "1").
Proof. intros n k c P H. unfold sensible in H. cbn [k_name k_now] in H. rewrite P in H. destruct c; try contradiction. congruence. Qed.

Ltac take M F c p :=
  let S := fresh "S" in
  apply shape_cons in M; destruct M as (c & p & -> & M); apply Forall_cons_iff in F; destruct F as (S & F);
  first [ apply sens_words with (m := 32%nat) in S; [|vm_compute; reflexivity]
        | apply sens_words with (m := 64%nat) in S; [|vm_compute; reflexivity]
        | apply sens_words with (m := 16%nat) in S; [|vm_compute; reflexivity]
        | apply sens_words with (m := 31%nat) in S; [|vm_compute; reflexivity]
        | apply sens_words with (m := 48%nat) in S; [|vm_compute; reflexivity]
        | apply sens_words with (m := 12%nat) in S; [|vm_compute; reflexivity]
        | apply sens_words with (m := 150%nat) in S; [|vm_compute; reflexivity]
        | apply sens_number with (hi := 65535) in S; [|vm_compute; reflexivity]
        | apply sens_number with (hi := 255) in S; [|vm_compute; reflexivity]
        | apply sens_number with (hi := 20000) in S; [|vm_compute; reflexivity]
        | apply sens_number with (hi := 360) in S; [|vm_compute; reflexivity]
        | apply sens_period in S; [|vm_compute; reflexivity]
        | apply sens_yesno in S; [|vm_compute; reflexivity] ].

Definition good (n : nat) (t : list Z) : Prop := quotable t = true /\ bytes t /\ (List.length t <= n)%nat.
Lemma wifi_seg : forall w, map shape w = map shape wifi_controls -> Forall sensible w ->
  exists t1 t2 t3 t4 t5, w = [entry "ssid" 32 t1; entry "psk" 64 t2; entry "host" 32 t3; entry "username" 31 t4; entry "password" 31 t5] /\
    good 32 t1 /\ good 64 t2 /\ good 16 t3 /\ good 31 t4 /\ good 31 t5.
Proof.
  intros w M F. unfold wifi_controls, text_box in M. unfold shape at 2 in M. cbn [map k_name k_kind] in M.
  take M F cc1 w1. take M F cc2 w2. take M F cc3 w3. take M F cc4 w4. take M F cc5 w5. apply shape_nil in M. subst.
  destruct S as (t1 & -> & S). destruct S0 as (t2 & -> & S0). destruct S1 as (t3 & -> & S1). destruct S2 as (t4 & -> & S2).
  destruct S3 as (t5 & -> & S3). exists t1, t2, t3, t4, t5. split; [reflexivity|]. unfold good. tauto.
Qed.

Lemma service_seg : forall w, map shape w = map shape service_controls -> Forall sensible w ->
  exists x1 x2 x3 x4 x5 x6 x7 x8 x9 x10 x11 x12 x13 x14 x15 x16 x17 x18 x19 x20 x21 x22,
    w = [entry "emon_host" 32 x1; entry "emon_port" 5 (dec x2); entry "emon_url" 32 x3; entry "emon_apikey" 32 x4;
      menu "emon_freq" x5; numb "emon_node" x6; entry "jdom_host" 32 x7; entry "jdom_port" 5 (dec x8);
      entry "jdom_url" 64 x9; entry "jdom_apikey" 48 x10; menu "jdom_freq" x11; entry "jdom_adco" 12 x12;
      entry "httpreq_host" 32 x13; entry "httpreq_port" 5 (dec x14); entry "httpreq_url" 150 x15; tick "httpreq_use_post" x16;
      menu "httpreq_freq" x17; tick "httpreq_trigger_ptec" x18; tick "httpreq_trigger_adps" x19; tick "httpreq_trigger_seuils" x20;
      entry "httpreq_seuil_bas" 5 (dec x21); entry "httpreq_seuil_haut" 5 (dec x22)] /\
    good 32 x1 /\ 0 <= x2 <= 65535 /\ good 32 x3 /\ good 32 x4 /\ In x5 listed_periods /\ 0 <= x6 <= 255 /\ good 32 x7 /\ 0 <= x8 <= 65535 /\ good 64 x9 /\ good 48 x10 /\ In x11 listed_periods /\ good 12 x12 /\ good 32 x13 /\ 0 <= x14 <= 65535 /\ good 150 x15 /\ In x17 listed_periods /\ 0 <= x21 <= 20000 /\ 0 <= x22 <= 20000.
Proof.
  intros w M F. unfold service_controls, text_box, period_menu, number_box, tick_box in M. unfold shape at 2 in M. cbn [map k_name k_kind] in M.
  take M F cc1 w1. take M F cc2 w2. take M F cc3 w3. take M F cc4 w4. take M F cc5 w5. take M F cc6 w6. take M F cc7 w7. take M F cc8 w8. take M F cc9 w9. take M F cc10 w10. take M F cc11 w11. take M F cc12 w12. take M F cc13 w13. take M F cc14 w14. take M F cc15 w15. take M F cc16 w16. take M F cc17 w17. take M F cc18 w18. take M F cc19 w19. take M F cc20 w20. take M F cc21 w21. take M F cc22 w22.
  apply shape_nil in M. subst.
  destruct S as (x1 & -> & S).
  destruct S0 as (x2 & -> & S0).
  destruct S1 as (x3 & -> & S1).
  destruct S2 as (x4 & -> & S2).
  destruct S3 as (x5 & -> & S3).
  destruct S4 as (x6 & -> & S4).
  destruct S5 as (x7 & -> & S5).
  destruct S6 as (x8 & -> & S6).
  destruct S7 as (x9 & -> & S7).
  destruct S8 as (x10 & -> & S8).
  destruct S9 as (x11 & -> & S9).
  destruct S10 as (x12 & -> & S10).
  destruct S11 as (x13 & -> & S11).
  destruct S12 as (x14 & -> & S12).
  destruct S13 as (x15 & -> & S13).
  destruct S14 as (x16 & ->).
  destruct S15 as (x17 & -> & S15).
  destruct S16 as (x18 & ->).
  destruct S17 as (x19 & ->).
  destruct S18 as (x20 & ->).
  destruct S19 as (x21 & -> & S19).
  destruct S20 as (x22 & -> & S20).
  exists x1, x2, x3, x4, x5, x6, x7, x8, x9, x10, x11, x12, x13, x14, x15, x16, x17, x18, x19, x20, x21, x22.
  split; [reflexivity|]. unfold good. tauto.
Qed.
Lemma advanced_seg : forall w, map shape w = map shape advanced_controls -> Forall sensible w ->
  exists t1 t2 v, w = [entry "ap_psk" 64 t1; mk_ctl (str "ota_auth") (TextBox None) (Entry t2); numb "ota_port" v] /\
    good 64 t1 /\ good 64 t2 /\ 0 <= v <= 65535.
Proof.
  intros w M F. unfold advanced_controls, text_box, number_box in M. unfold shape at 2 in M. cbn [map k_name k_kind] in M.
  take M F cc1 w1. take M F cc2 w2. take M F cc3 w3. apply shape_nil in M. subst.
  destruct S as (t1 & -> & S). destruct S0 as (t2 & -> & S0). destruct S1 as (v & -> & S1). exists t1, t2, v.
  split; [reflexivity|]. unfold good. tauto.
Qed.
Lemma other_seg : forall w, map shape w = map shape other_controls -> Forall sensible w ->
  exists v b, w = [numb "sse_freq" v; tick "cfg_led_tinfo" b] /\ 0 <= v <= 360.
Proof.
  intros w M F. unfold other_controls, number_box, tick_box in M. unfold shape at 2 in M. cbn [map k_name k_kind] in M.
  take M F cc1 w1. take M F cc2 w2. apply shape_nil in M. subst.
  destruct S as (v & -> & S). destruct S0 as (b & ->). exists v, b. split; [reflexivity|]. tauto.
Qed.
Lemma good_fit : forall n t, good n t -> ~ In 0 t /\ (List.length t <= n)%nat.
Proof.
  intros n t (Q & _ & L). split; [|auto]. intro H. unfold quotable in Q. apply andb_true_iff in Q. destruct Q as (Q & _).
  rewrite forallb_forall in Q. apply Q in H. discriminate.
Qed.
Lemma good_nil : forall n, good n [].
Proof. intro n. split; [reflexivity|]. split; [constructor|cbn; lia]. Qed.
Lemma built : forall r t1 t2 t3 t4 t5 u1 u2 up v b x1 x2 x3 x4 x5 x6 x7 x8 x9 x10 x11 x12 x13 x14 x15 x16 x17 x18 x19 x20 x21 x22,
  good 32 t1 -> good 64 t2 -> good 16 t3 -> good 31 t4 -> good 31 t5 -> good 64 u1 -> good 64 u2 -> 0 <= up <= 65535 -> 0 <= v <= 360 ->
  good 32 x1 -> 0 <= x2 <= 65535 -> good 32 x3 -> good 32 x4 -> In x5 listed_periods -> 0 <= x6 <= 255 -> good 32 x7 -> 0 <= x8 <= 65535 ->
  good 64 x9 -> good 48 x10 -> In x11 listed_periods -> good 12 x12 -> good 32 x13 -> 0 <= x14 <= 65535 -> good 150 x15 -> In x17 listed_periods ->
  0 <= x21 <= 20000 -> 0 <= x22 <= 20000 ->
  let s := mk_settings t1 t2 t3 u1 u2 up t4 t5 v b x1 x4 x3 x2 x6 x5 x7 x10 x9 x12 x8 x11 x13 x15 x14 x17 x19 x18 x20 x16 x22 x21 in
  fitting s /\ texts_bytes s /\ showable r s.
Proof.
  intros. subst s. unfold fitting, fits, texts_bytes, texts, showable, page_words, private_words, public_words, in_range, periods_listed.
  cbn [s_ssid s_psk s_host s_ap_psk s_ota_auth s_ota_port s_username s_password s_sse_freq s_led s_emon_host s_emon_key s_emon_url s_emon_port
    s_emon_node s_emon_freq s_jdom_host s_jdom_key s_jdom_url s_jdom_adco s_jdom_port s_jdom_freq s_http_host s_http_url s_http_port
    s_http_freq s_adps s_ptec s_seuils s_use_post s_seuil_haut s_seuil_bas].
  assert (P : forall x, In x listed_periods -> 0 <= x <= 86400).
  { intros x I. unfold listed_periods in I. cbn [In] in I. lia. }
  split; [split|split; [|split; [|split]]].
  - repeat first [apply Forall_nil | apply Forall_cons]; cbn [fst snd]; apply good_fit; assumption.
  - repeat split; first [lia | apply P; assumption].
  - repeat first [apply Forall_nil | apply Forall_cons]; cbn [fst snd];
    match goal with G : good _ ?t |- bytes ?t => exact (proj1 (proj2 G)) end.
  - destruct r; cbn [app]; repeat first [apply Forall_nil | apply Forall_cons];
    match goal with G : good _ ?t |- quotable ?t = true => exact (proj1 G) end.
  - repeat split; first [lia | apply P; assumption].
  - tauto.
Qed.
Lemma entered : forall r p, same_form r p -> Forall sensible p ->
  exists s, p = page_of r s /\ fitting s /\ texts_bytes s /\ showable r s.
Proof.
  intros r p M F. unfold same_form in M. change (map shape p = map shape (blank_page r)) in M. unfold blank_page in M.
  rewrite !map_app in M. cbn [map app] in M. unfold shape at 2 in M. cbn [k_name k_kind] in M.
  apply shape_cons in M. destruct M as (c & q & -> & M). apply Forall_cons_iff in F. destruct F as (S & F).
  apply sens_mark in S; [|vm_compute; reflexivity]. subst c.
  apply map_eq_app in M. destruct M as (w & q1 & -> & Mw & M). apply map_eq_app in M. destruct M as (sv & q2 & -> & Ms & M).
  apply map_eq_app in M. destruct M as (a & o & -> & Ma & Mo).
  apply Forall_app in F. destruct F as (Fw & F). apply Forall_app in F. destruct F as (Fs & F). apply Forall_app in F. destruct F as (Fa & Fo).
  apply service_seg in Ms; [|auto]. destruct Ms as (x1 & x2 & x3 & x4 & x5 & x6 & x7 & x8 & x9 & x10 & x11 & x12 & x13 & x14 & x15 & x16 & x17 & x18 & x19 & x20 & x21 & x22 & -> & G).
  apply other_seg in Mo; [|auto]. destruct Mo as (v & b & -> & Gv).
  destruct r.
  - apply shape_nil in Mw, Ma. subst.
    exists (mk_settings [] [] [] [] [] 0 [] [] v b x1 x4 x3 x2 x6 x5 x7 x10 x9 x12 x8 x11 x13 x15 x14 x17 x19 x18 x20 x16 x22 x21).
    split; [reflexivity|]. apply built; try tauto; try apply good_nil; lia.
  - apply wifi_seg in Mw; [|auto]. destruct Mw as (t1 & t2 & t3 & t4 & t5 & -> & Gw).
    apply advanced_seg in Ma; [|auto]. destruct Ma as (u1 & u2 & up & -> & Ga).
    exists (mk_settings t1 t2 t3 u1 u2 up t4 t5 v b x1 x4 x3 x2 x6 x5 x7 x10 x9 x12 x8 x11 x13 x15 x14 x17 x19 x18 x20 x16 x22 x21).
    split; [reflexivity|]. apply built; tauto.
Qed.
Lemma merged_showable : forall r a b, 0 <= s_ota_port a <= 65535 -> showable r b -> showable r (merged r a b).
Proof.
  intros [] a b A (Q & N & P); (split; [exact Q|]; split; [|exact P]); unfold in_range in *;
  cbn [merged s_ota_port s_sse_freq s_emon_port s_emon_node s_emon_freq s_jdom_port s_jdom_freq s_http_port
    s_http_freq s_seuil_haut s_seuil_bas]; tauto.
Qed.
Lemma port_range : forall s, reachable s -> 0 <= s_ota_port (view (c_cfg s)) <= 65535.
Proof.
  intros s R. destruct (reachable_inv s R) as (W & _). unfold view. cbn [s_ota_port]. unfold num.
  assert (L := get_len OtaPort _ W). assert (B := get_bytes OtaPort _ W). cbn [fsize] in L.
  destruct (get OtaPort (c_cfg s)) as [|a [|b [|]]]; try discriminate L. inv B. inv H2. unfold is_byte in *. cbn [le_value]. lia.
Qed.
Lemma c71 : forall o r s p, reachable s -> same_form r p -> Forall sensible p ->
  exists fm s', parse_arguments (serialize p) = Some fm /\ config_handle_form o r fm s = Some (s', 200) /\
    open_tab (config_get_json (c_cfg s') r) (blank_page r) = Some p.
Proof.
  intros o r s p R M F. destruct (entered r p M F) as (v & -> & Fv & Bv & Sv).
  destruct (posted_page o r s v R Bv Fv) as (fm & s' & P & E & V & R'). exists fm, s'. split; [exact P|]. split; [exact E|].
  rewrite <- (merged_public r (view (c_cfg s)) v), <- V. apply opened_page; [auto|]. rewrite V. apply merged_showable; [|auto].
  apply port_range. auto.
Qed.
