(** Examples and counterexamples for the settings page. *)
From Coq Require Import ZArith List Bool Lia ZifyBool ZifyNat.
From Verif Require Import Base BaseFacts Config ConfigSpec Json JsonFacts PagesSpec ToolSpec ConfigMain ConfigHist DeviceMain Pages PagesProofs PagesSamples
  Form FormSpec FormProofs FormMain FormFinal.
From Verif Require ConfigSamples.
Import ListNotations.
Open Scope Z_scope.

(** A module configured with one form. *)
Definition after (fm : form) : cstate := ConfigSamples.unwrap (cstep (Post Stored false fm) ConfigSamples.fresh).
Lemma after_view : forall fm, form_bytes fm -> ticked fm "save" = true ->
  view (c_cfg (after fm)) = after_form false fm (factory ConfigSamples.chip1).
Proof. intros fm B S. unfold after. exact (proj2 (proj2 (ConfigSamples.post_step Stored fm B S))). Qed.
Lemma after_ordinary : forall fm, form_bytes fm -> ticked fm "save" = true -> ordinarily_reachable (after fm).
Proof.
  intros fm B S. apply (ConfigSamples.from_fresh_ordinary [Post Stored false fm]); [constructor; [exact B|constructor]| |].
  - constructor; [exact I|constructor].
  - unfold after. exact (proj1 (ConfigSamples.post_step Stored fm B S)).
Qed.

(** The page opened on given settings. *)
Definition opened (r : bool) (v : settings) : page :=
  match open_tab (print (JObj ((if r then [] else private_members v) ++ public_members v))) (blank_page r) with
  | Some p => p
  | None => []
  end.
Lemma opened_is : forall (r : bool) v s, view (c_cfg s) = v -> opened r v <> [] ->
  open_tab (config_get_json (c_cfg s) r) (blank_page r) = Some (opened r v).
Proof.
  intros r v s V N. rewrite config_json_text, V. unfold opened in *.
  destruct (open_tab (print (JObj ((if r then [] else private_members v) ++ public_members v))) (blank_page r)); congruence.
Qed.
Lemma saved_is : forall o r fm v s, reachable s -> view (c_cfg s) = v -> form_bytes fm -> ticked fm "save" = true ->
  exists s', config_handle_form o r fm s = Some (s', 200) /\ view (c_cfg s') = after_form r fm v.
Proof. intros o r fm v s R V B S. destruct (c26 o r fm s R B S) as (s' & E & W & _). exists s'. rewrite W, V. auto. Qed.
Definition read (b : list Z) : form := match parse_arguments b with Some f => f | None => [] end.
Lemma read_is : forall b, parse_arguments b = Some (read b).
Proof. intro b. unfold read. destruct (always_read b) as (f & ->). reflexivity. Qed.

(** A period of two minutes, which is not in the menu. *)
Definition form_two_minutes : form :=
  [ (str "save", str "1"); (str "emon_host", str "emoncms.org"); (str "emon_freq", str "120") ].
Lemma two_minutes_ok : form_bytes form_two_minutes. Proof. apply ConfigSamples.form_ok. vm_compute. reflexivity. Qed.
Lemma c70_period_refuted : exists s p fm s', ordinarily_reachable s /\ s_emon_freq (view (c_cfg s)) = 120 /\
  open_tab (config_get_json (c_cfg s) false) (blank_page false) = Some p /\ parse_arguments (serialize p) = Some fm /\
  config_handle_form Stored false fm s = Some (s', 200) /\ s_emon_freq (view (c_cfg s')) = 0.
Proof.
  assert (V := after_view form_two_minutes two_minutes_ok eq_refl). assert (R := after_ordinary form_two_minutes two_minutes_ok eq_refl).
  set (v := after_form false form_two_minutes (factory ConfigSamples.chip1)) in *. set (s := after form_two_minutes) in *. clearbody s.
  destruct (saved_is Stored false (read (serialize (opened false v))) v s (ordinary_reachable s R) V) as (s' & E & W).
  - apply ConfigSamples.form_ok. vm_compute. reflexivity.
  - vm_compute. reflexivity.
  - exists s, (opened false v), (read (serialize (opened false v))), s'. split; [exact R|]. split; [rewrite V; vm_compute; reflexivity|].
    split; [apply opened_is; [exact V|vm_compute; discriminate]|]. split; [apply read_is|]. split; [exact E|].
    rewrite W. vm_compute. reflexivity.
Qed.

(** A key with a quote. *)
Definition form_quote : form :=
  [ (str "save", str "1"); (str "ssid", str "home"); (str "psk", [97; 34; 98]); (str "httpreq_host", str "10.0.0.2") ].
Lemma quote_ok : form_bytes form_quote. Proof. apply ConfigSamples.form_ok. vm_compute. reflexivity. Qed.
Lemma c70_quote_refuted : exists s p fm s', ordinarily_reachable s /\
  s_ssid (view (c_cfg s)) = str "home" /\ s_psk (view (c_cfg s)) = [97; 34; 98] /\ s_http_host (view (c_cfg s)) = str "10.0.0.2" /\
  open_tab (config_get_json (c_cfg s) false) (blank_page false) = Some p /\ parse_arguments (serialize p) = Some fm /\
  config_handle_form Stored false fm s = Some (s', 200) /\
  Forall (fun t => t = []) (page_words false (view (c_cfg s'))).
Proof.
  assert (V := after_view form_quote quote_ok eq_refl). assert (R := after_ordinary form_quote quote_ok eq_refl).
  set (v := after_form false form_quote (factory ConfigSamples.chip1)) in *. set (s := after form_quote) in *. clearbody s.
  destruct (saved_is Stored false (read (serialize (opened false v))) v s (ordinary_reachable s R) V) as (s' & E & W).
  - apply ConfigSamples.form_ok. vm_compute. reflexivity.
  - vm_compute. reflexivity.
  - exists s, (opened false v), (read (serialize (opened false v))), s'. split; [exact R|].
    split; [rewrite V; vm_compute; reflexivity|]. split; [rewrite V; vm_compute; reflexivity|]. split; [rewrite V; vm_compute; reflexivity|].
    split; [apply opened_is; [exact V|vm_compute; discriminate]|]. split; [apply read_is|]. split; [exact E|].
    rewrite W. vm_compute. repeat constructor.
Qed.

(** The page sent before it has been filled. *)
Lemma c70_early : forall o s, reachable s -> exists fm s', parse_arguments (serialize (blank_page false)) = Some fm /\
  config_handle_form o false fm s = Some (s', 200) /\ Forall (fun t => t = []) (page_words false (view (c_cfg s'))).
Proof.
  intros o s R. destruct (saved_is o false (read (serialize (blank_page false))) (view (c_cfg s)) s R eq_refl) as (s' & E & W).
  - apply ConfigSamples.form_ok. vm_compute. reflexivity.
  - vm_compute. reflexivity.
  - exists (read (serialize (blank_page false))), s'. split; [apply read_is|]. split; [exact E|]. rewrite W.
    generalize (view (c_cfg s)). intros v. vm_compute. repeat constructor.
Qed.

(** A host name of 20 characters; a network name of 17 accented letters. *)
Definition form_plain : form := [ (str "save", str "1"); (str "ssid", str "home"); (str "ota_port", str "8266") ].
Lemma plain_ok : form_bytes form_plain. Proof. apply ConfigSamples.form_ok. vm_compute. reflexivity. Qed.
Definition retyped (name : list Z) (t : list Z) (p : page) : page :=
  map (fun k => if beq (k_name k) name then mk_ctl (k_name k) (k_kind k) (Entry t) else k) p.
Definition v_plain : settings := after_form false form_plain (factory ConfigSamples.chip1).
Definition typed (n t : list Z) : page := retyped n t (opened false v_plain).
Definition then_shown (n t : list Z) : page := opened false (after_form false (read (serialize (typed n t))) v_plain).
Lemma c71_typed : forall v p q, v = v_plain ->
  forallb (fun p => ConfigSamples.byteb (fst p) && ConfigSamples.byteb (snd p)) (read (serialize p)) = true ->
  ticked (read (serialize p)) "save" = true -> q = opened false (after_form false (read (serialize p)) v) -> q <> [] ->
  exists s fm s', ordinarily_reachable s /\ parse_arguments (serialize p) = Some fm /\
    config_handle_form Stored false fm s = Some (s', 200) /\
    open_tab (config_get_json (c_cfg s') false) (blank_page false) = Some q.
Proof.
  intros v p q Ev B S Q N. assert (V := after_view form_plain plain_ok eq_refl). assert (R := after_ordinary form_plain plain_ok eq_refl).
  fold v_plain in V. rewrite <- Ev in V. revert V R. generalize (after form_plain). intros s V R.
  destruct (saved_is Stored false (read (serialize p)) v s (ordinary_reachable s R) V) as (s' & E & W);
    [apply ConfigSamples.form_ok; exact B|exact S|].
  exists s, (read (serialize p)), s'. split; [exact R|]. split; [apply read_is|]. split; [exact E|].
  rewrite Q. apply (opened_is false); [exact W|]. rewrite <- Q. exact N.
Qed.
Definition typable_b (k : control) : bool :=
  match k_kind k, k_now k with
  | TextBox (Some m), Entry t => Nat.leb (characters t) m
  | _, _ => true
  end.
Lemma typableb : forall p, forallb typable_b p = true -> Forall typable p.
Proof.
  intros p H. rewrite forallb_forall in H. apply Forall_forall. intros k I. apply H in I. unfold typable_b, typable in *.
  destruct (k_kind k) as [|[m|]| | |]; auto. destruct (k_now k); auto. apply Nat.leb_le. auto.
Qed.
Lemma c71_host_refuted : exists s p fm s' q, ordinarily_reachable s /\ same_form false p /\ Forall typable p /\
  shown_value p "host" = Some (Entry (str "wifinfo-garage-cave1")) /\
  parse_arguments (serialize p) = Some fm /\ config_handle_form Stored false fm s = Some (s', 200) /\
  open_tab (config_get_json (c_cfg s') false) (blank_page false) = Some q /\
  shown_value q "host" = Some (Entry (str "wifinfo-garage-c")).
Proof.
  destruct (c71_typed v_plain (typed (str "host") (str "wifinfo-garage-cave1")) (then_shown (str "host") (str "wifinfo-garage-cave1")) eq_refl)
    as (s & fm & s' & R & P & E & O); [vm_compute; reflexivity|vm_compute; reflexivity|unfold then_shown; reflexivity|vm_compute; discriminate|].
  exists s, (typed (str "host") (str "wifinfo-garage-cave1")), fm, s', (then_shown (str "host") (str "wifinfo-garage-cave1")).
  split; [exact R|]. split; [vm_compute; reflexivity|]. split; [apply typableb; vm_compute; reflexivity|]. split; [vm_compute; reflexivity|].
  split; [exact P|]. split; [exact E|]. split; [exact O|]. vm_compute. reflexivity.
Qed.
Lemma c71_accents_refuted : exists s p fm s' q, ordinarily_reachable s /\ same_form false p /\ Forall typable p /\
  shown_value p "ssid" = Some (Entry (List.concat (repeat (str "é") 17))) /\
  parse_arguments (serialize p) = Some fm /\ config_handle_form Stored false fm s = Some (s', 200) /\
  open_tab (config_get_json (c_cfg s') false) (blank_page false) = Some q /\
  shown_value q "ssid" = Some (Entry (List.concat (repeat (str "é") 16))).
Proof.
  destruct (c71_typed v_plain (typed (str "ssid") (List.concat (repeat (str "é") 17))) (then_shown (str "ssid") (List.concat (repeat (str "é") 17)))
    eq_refl) as (s & fm & s' & R & P & E & O); [vm_compute; reflexivity|vm_compute; reflexivity|unfold then_shown; reflexivity|vm_compute; discriminate|].
  exists s, (typed (str "ssid") (List.concat (repeat (str "é") 17))), fm, s', (then_shown (str "ssid") (List.concat (repeat (str "é") 17))).
  split; [exact R|]. split; [vm_compute; reflexivity|]. split; [apply typableb; vm_compute; reflexivity|]. split; [vm_compute; reflexivity|].
  split; [exact P|]. split; [exact E|]. split; [exact O|]. vm_compute. reflexivity.
Qed.

(** The limits of the boxes against the room in the module. *)
Lemma c71_limits : forall r k max room, In k (blank_page r) -> k_kind k = TextBox (Some max) -> purpose_of (k_name k) = Some (Words room) ->
  k_name k <> str "host" -> max = room.
Proof.
  assert (X : forall r, Forall (fun k => match k_kind k with TextBox (Some max) =>
    match purpose_of (k_name k) with Some (Words room) => Nat.eqb max room || beq (k_name k) (str "host") | _ => true end | _ => true end = true)
    (blank_page r)) by (intros []; apply Forall_forall; apply forallb_forall; vm_compute; reflexivity).
  intros r k max room I K P N. specialize (X r). rewrite Forall_forall in X. apply X in I. rewrite K, P in I.
  apply orb_true_iff in I. destruct I as [I|I]; [apply Nat.eqb_eq; auto|]. apply beq_eq in I. congruence.
Qed.
(** Every control has a purpose. *)
Lemma all_purposes : forall r k, In k (blank_page r) -> purpose_of (k_name k) <> None.
Proof.
  assert (X : forall r, Forall (fun k => match purpose_of (k_name k) with Some _ => true | None => false end = true) (blank_page r))
    by (intros []; apply Forall_forall; apply forallb_forall; vm_compute; reflexivity).
  intros r k I. specialize (X r). rewrite Forall_forall in X. apply X in I. destruct (purpose_of (k_name k)); congruence.
Qed.

(** The menus. *)
Lemma c72 : forall v l, In (v, l) period_options -> l <> str "toutes les 12 heures" -> exists n, announced l = Some n /\ v = dec n.
Proof.
  intros v l I N. unfold period_options in I. cbn [In] in I.
  repeat (destruct I as [I|I]; [assert (V : v = _) by (symmetry; exact (f_equal fst I)); assert (L : l = _) by (symmetry; exact (f_equal snd I));
    cbn [fst snd] in V, L; subst v l; first [exfalso; apply N; reflexivity | eexists; split; vm_compute; reflexivity]|]). contradiction.
Qed.
Lemma c72_refuted : exists v l, In (v, l) period_options /\ announced l = Some 43200 /\ v = dec 42300.
Proof. exists (str "42300"), (str "toutes les 12 heures"). split; [unfold period_options; cbn [In]; tauto|]. split; vm_compute; reflexivity. Qed.

(** A check for [sensible]. *)
Definition sensible_b (k : control) : bool :=
  match purpose_of (k_name k) with
  | Some (Words n) => match k_now k with
                      | Entry t => quotable t && ConfigSamples.byteb t && Nat.leb (List.length t) n
                      | _ => false
                      end
  | Some (Number hi) => match k_now k with
                        | Entry t => (0 <=? dec_value t) && (dec_value t <=? hi) && beq t (dec (dec_value t))
                        | _ => false
                        end
  | Some Period => match k_now k with Pick (Some o) => existsb (beq o) periods | _ => false end
  | Some YesNo => match k_now k with Check _ => true | _ => false end
  | Some Mark => match k_now k with Entry t => beq t (str "1") | _ => false end
  | None => false
  end.
Lemma sensibleb : forall p, forallb sensible_b p = true -> Forall sensible p.
Proof.
  intros p H. rewrite forallb_forall in H. apply Forall_forall. intros k I. apply H in I. unfold sensible_b, sensible in *.
  destruct (purpose_of (k_name k)) as [[n|hi| | |]|]; try discriminate; destruct (k_now k) as [t|[o|]|b]; try discriminate; auto.
  - apply andb_true_iff in I. destruct I as (I & L). apply andb_true_iff in I. destruct I as (Q & B). apply Nat.leb_le in L.
    apply ConfigSamples.byteb_ok in B. auto.
  - apply andb_true_iff in I. destruct I as (I & L). apply beq_eq in L. exists (dec_value t). split; [lia|exact L].
  - apply existsb_exists in I. destruct I as (x & I & E). apply beq_eq in E. subst. exact I.
  - apply beq_eq. exact I.
Qed.

(** A page filled by a user, and showing it needs nothing more. *)
Definition v_rich : settings :=
  after_form false
    [ (str "save", str "1"); (str "ssid", str "Maison de l'été"); (str "psk", str "mot de passe 100% & co;=+"); (str "host", str "wifinfo");
      (str "ota_port", str "8266"); (str "sse_freq", str "10"); (str "emon_host", str "emoncms.org"); (str "emon_port", str "80");
      (str "emon_freq", str "60"); (str "httpreq_host", str "10.0.0.2"); (str "httpreq_port", str "8080");
      (str "httpreq_url", str "/notif?pa=~PAPP~&t=$type"); (str "httpreq_trigger_ptec", str "on"); (str "httpreq_seuil_haut", str "5500") ]
    (factory ConfigSamples.chip1).
Definition rich_page : page := opened false v_rich.
Lemma rich_ok : same_form false rich_page /\ Forall sensible rich_page /\
  shown_value rich_page "psk" = Some (Entry (str "mot de passe 100% & co;=+")) /\
  shown_value rich_page "httpreq_trigger_ptec" = Some (Check true) /\ shown_value rich_page "emon_freq" = Some (Pick (Some (str "60"))).
Proof. split; [vm_compute; reflexivity|]. split; [apply sensibleb; vm_compute; reflexivity|]. repeat split; vm_compute; reflexivity. Qed.
Lemma posted1_showable : showable false (view (c_cfg ConfigSamples.posted1)) /\ s_ssid (view (c_cfg ConfigSamples.posted1)) = str "home".
Proof.
  rewrite ConfigSamples.posted1_view. split; [|vm_compute; reflexivity]. split; [|split].
  - apply Forall_forall. apply forallb_forall. vm_compute. reflexivity.
  - apply after_form_range.
  - unfold periods_listed, listed_periods. vm_compute. tauto.
Qed.
