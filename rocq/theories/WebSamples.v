(** Concrete devices, requests and histories for the examples and counterexamples on the whole module. *)
From Coq Require Import ZArith List Bool Lia.
From Verif Require Import Base BaseFacts Teleinfo TeleinfoSpec Publish HistorySpec Config ConfigSpec ConfigProofs ConfigMain ConfigHist
  Json Tic TicSpec Pages PagesSpec PagesSamples Sse Cpu Web Wifi Device WebSpec WebProofs DeviceProofs DeviceMain DeviceSafe
  Samples SamplesFacts TicSamples.
From Verif Require ConfigSamples.
Import ListNotations.
Open Scope Z_scope.

(** A site with an index page and a style sheet. *)
Definition site0 (p : list Z) : option (list Z) :=
  if beq p (str "/index.html.gz") then Some (str "<html>index</html>")
  else if beq p (str "/css/a.css") then Some (str "body{}") else None.
Definition around0 : around := mk_around env0 5000 info1 [(str "index.html.gz", 18)] [net1] site0 Stored 1000000.
Definition at_ms (n : Z) : around := mk_around env0 n info1 [(str "index.html.gz", 18)] [net1] site0 Stored 1000000.

(** Requests: without credentials, with those of [login], or with them through a proxy. *)
Definition login (u p : list Z) : bool := beq u (str "me") && beq p (str "pw").
Definition ask (uri : String.string) : hreq := mk_hreq GET (str uri) [] (fun _ _ => false) false.
Definition ask_in (uri : String.string) : hreq := mk_hreq GET (str uri) [] login false.
Definition ask_through (uri : String.string) : hreq := mk_hreq GET (str uri) [] login true.
Arguments ask _%string_scope. Arguments ask_in _%string_scope. Arguments ask_through _%string_scope.
Definition many_args (n : nat) (m : method) (uri : String.string) : hreq := mk_hreq m (str uri) (repeat (str "a", str "1") n) (fun _ _ => false) false.
Arguments many_args _%nat_scope _ _%string_scope.

(** A device with a given configuration and published frame. *)
Definition with_frame (c : cfg) (t : teleinfo) : device :=
  mk_dev (mk_cs c (mk_ee [] false [])) (mk_pub (dec_init blank) t false) ns_init (tic_make_timers 0 c timers_init) sse_init (perf_init 0) false.
Definition cfg_login : cfg := text_field Username "me" (text_field Password "pw" cfg0).
Definition dev_open : device := with_frame cfg0 (hp "00100").
Definition dev_login : device := with_frame cfg_login (hp "00100").
Definition dev_login2 : device := with_frame (text_field Username "them" (text_field Password "else" (text_field Psk "key" cfg0))) (hc "06000").

(** ** A new module *)
Definition start0 : start :=
  mk_start ConfigSamples.chip1 zeroed ConfigSamples.blank Stored Stored Stored (fun _ => 0) [] [] 0 blank blank.
Lemma start0_ok : start_ok start0.
Proof.
  split; [cbn; unfold ConfigSamples.chip1; lia|]. split; [apply zeroed_wf|]. split; [apply ConfigSamples.blank_ok|].
  split; [constructor|]. split; [constructor|]. split; reflexivity.
Qed.
Definition dev0 : device :=
  mk_dev ConfigSamples.fresh (pub_init blank blank) ns_init (tic_make_timers 0 (c_cfg ConfigSamples.fresh) timers_init) sse_init (perf_init 0) false.
Lemma dev0_cs : d_cs dev0 = ConfigSamples.fresh.
Proof. reflexivity. Qed.
Definition acts0 : list wifi_act :=
  [Leave; OpenAp (str "WifInfo-123456") None; ApStationMode; AutoReconnect].
Lemma view_texts : forall c s, view c = s -> text Ssid c = s_ssid s /\ text Username c = s_username s /\ text HUrl c = s_http_url s /\
  text Host c = s_host s /\ text ApPsk c = s_ap_psk s /\ text Password c = s_password s.
Proof. intros c s <-. repeat split. Qed.
Lemma fresh_texts : text Ssid (c_cfg ConfigSamples.fresh) = [] /\ text Username (c_cfg ConfigSamples.fresh) = [] /\
  unterminated (text HUrl (c_cfg ConfigSamples.fresh)) = false /\ text Host (c_cfg ConfigSamples.fresh) = str "WifInfo-123456" /\
  text ApPsk (c_cfg ConfigSamples.fresh) = [].
Proof.
  destruct (view_texts _ _ (proj1 (proj2 ConfigSamples.fresh_facts))) as (-> & -> & -> & -> & -> & _).
  repeat split; vm_compute; reflexivity.
Qed.
Lemma boot0 : boot start0 = Some (dev0, acts0).
Proof.
  destruct fresh_texts as (T1 & _ & _ & T4 & T5). unfold boot. cbn [start0 b_chip b_mem b_flash b_o1 b_o2 b_o3 b_status b_ssid b_psk b_now b_g1 b_g2].
  rewrite ConfigSamples.fresh_ok. unfold sys_wifi_connect, adopt_sdk. cbv iota beta zeta. rewrite T1. cbn [cstr]. rewrite T1, T4, T5. reflexivity.
Qed.

(** Histories without requests always end, the notification URL of a new module having no open label. *)
Definition no_request (e : devent) : Prop := match e with DHttp _ _ => False | _ => True end.
Lemma quiet_config : forall fuel sgn es d d' os, Forall no_request es -> drun fuel sgn es d = Done (d', os) -> d_cs d' = d_cs d.
Proof.
  intros fuel sgn. induction es as [|e es IH]; intros d d' os F H; cbn [drun] in H; [injection H as <- _; reflexivity|].
  apply Forall_cons_iff in F. destruct F as [F1 F2]. destruct (dstep fuel sgn e d) as [[d1 o]| |] eqn:E; try discriminate.
  destruct (drun fuel sgn es d1) as [[d2 os2]| |] eqn:R; try discriminate. injection H as <- _. rewrite (IH _ _ _ F2 R).
  destruct e; try contradiction; cbn [dstep] in E.
  - destruct (cpuload_loop _ _); [|discriminate]. injection E as <- _. reflexivity.
  - destruct (receive _ _ _ _ _ _) as [[x y]|] eqn:Q; [|discriminate]. injection E as <- _. apply (receive_keeps _ _ _ _ _ _ _ _ Q).
  - injection E as E. rewrite <- (proj1 (upload_keeps a u d)), E. reflexivity.
  - destruct (handle_clients _ _ _) as [[x y]|]; [|discriminate]. injection E as <- _. reflexivity.
Qed.
Lemma quiet_run : forall es, Forall ordinary_event es -> Forall no_request es ->
  exists d os, drun 256 true es dev0 = Done (d, os) /\ d_cs d = ConfigSamples.fresh.
Proof.
  intros es O N. destruct (c57 256 true start0 es start0_ok O (le_n _)) as (d0 & acts & B & H).
  assert (D : d_cs d0 = ConfigSamples.fresh /\ d0 = dev0) by (rewrite boot0 in B; injection B as <- _; split; [exact dev0_cs|reflexivity]).
  clear B. destruct D as [D D0]. rewrite <- D0. clear D0. destruct fresh_texts as (_ & _ & T & _).
  generalize dependent ConfigSamples.fresh. intros fr D T.
  destruct H as [(d & os & R)|(es1 & es2 & d & os & -> & R & U)].
  - exists d, os. split; [exact R|]. rewrite (quiet_config _ _ _ _ _ _ N R). exact D.
  - exfalso. apply Forall_app in N. assert (Q := quiet_config _ _ _ _ _ _ (proj1 N) R). unfold cfg_of in U. rewrite Q, D in U. congruence.
Qed.
Definition hear (l : list Z) : list devent := map (fun c => DByte around0 (fun _ => true) now0 c) l.
Lemma heard_hear : forall l, heard false (hear l) = ev l.
Proof. induction l; cbn [hear map heard]; auto. unfold hear in IHl. rewrite IHl. reflexivity. Qed.
Lemma hear_ordinary : forall l, bytesb l = true -> Forall ordinary_event (hear l) /\ Forall no_request (hear l).
Proof.
  intros l B. apply bytesb_spec in B. rewrite Forall_forall in B. split; apply Forall_forall; intros e H; apply in_map_iff in H; destruct H as (c & <- & I).
  - split; [|exact Logic.I]. apply B. exact I.
  - exact Logic.I.
Qed.

(** ** Two modules with different secrets, configured with the same form otherwise *)
Definition form_a : form := [ (str "save", str "1"); (str "ssid", str "home"); (str "psk", str "secret1"); (str "username", str "me");
  (str "password", str "pw"); (str "emon_host", str "emoncms.org"); (str "httpreq_host", str "10.0.0.2") ].
Definition form_b : form := [ (str "save", str "1"); (str "ssid", str "office"); (str "psk", str "another"); (str "username", str "you");
  (str "password", str "hidden"); (str "emon_host", str "emoncms.org"); (str "httpreq_host", str "10.0.0.2") ].
Lemma forms_ok : form_bytes form_a /\ form_bytes form_b.
Proof. split; apply ConfigSamples.form_ok; vm_compute; reflexivity. Qed.
Definition posted (fm : form) : cstate := ConfigSamples.unwrap (cstep (Post Stored false fm) ConfigSamples.fresh).
Lemma posted_reachable : forall fm, form_bytes fm -> ticked fm "save" = true -> reachable (posted fm).
Proof.
  intros fm B T. apply (ConfigSamples.from_fresh [Post Stored false fm]); [constructor; [exact B|constructor]|].
  exact (proj1 (ConfigSamples.post_step Stored fm B T)).
Qed.
Lemma posted_view : forall fm, form_bytes fm -> ticked fm "save" = true -> view (c_cfg (posted fm)) = after_form false fm (factory ConfigSamples.chip1).
Proof. intros fm B T. exact (proj2 (proj2 (ConfigSamples.post_step Stored fm B T))). Qed.
Lemma posted_get : forall s fm f, Inv s -> form_bytes fm -> ticked fm "save" = true -> secret f = false ->
  get f (c_cfg (ConfigSamples.unwrap (cstep (Post Stored false fm) s))) =
  (if is_text f then sec f (form_field false fm (fun x => get x (c_cfg s)) f) else form_field false fm (fun x => get x (c_cfg s)) f).
Proof.
  intros s fm f (W & _ & E) B T S. cbn [cstep]. unfold config_handle_form. rewrite has_arg_ticked, T.
  destruct (form_object false fm (c_cfg s) B W) as (a1 & b1 & A1 & B1 & J1). cbv iota. cbv iota in A1. rewrite A1, B1.
  destruct (config_save_spec Stored (mk_cs b1 (c_ee s)) (proj1 J1) E) as (s1' & -> & C1 & _).
  cbn [ConfigSamples.unwrap]. rewrite C1, get_secured. cbn [c_cfg]. unfold sealed.
  rewrite !get_set_other by (intros <-; discriminate S). rewrite (proj2 J1). reflexivity.
Qed.
Lemma ab_from : forall s, Inv s ->
  same_public (c_cfg (ConfigSamples.unwrap (cstep (Post Stored false form_a) s))) (c_cfg (ConfigSamples.unwrap (cstep (Post Stored false form_b) s))).
Proof.
  intros s I f S. rewrite !posted_get by (try exact S; try apply forms_ok; try exact I; reflexivity).
  replace (form_field false form_b (fun x => get x (c_cfg s)) f)
    with (form_field false form_a (fun x => get x (c_cfg s)) f); [reflexivity|].
  destruct f; try discriminate S; reflexivity.
Qed.
Lemma ab_public : same_public (c_cfg (posted form_a)) (c_cfg (posted form_b)).
Proof. exact (ab_from _ (reachable_inv _ ConfigSamples.fresh_reachable)). Qed.
Definition dev_of (s : cstate) : device :=
  mk_dev s (pub_init blank blank) ns_init timers_init sse_init (perf_init 0) false.
Lemma dev_of_same : forall s1 s2, same_public (c_cfg s1) (c_cfg s2) -> same_but_secrets (dev_of s1) (dev_of s2).
Proof. intros s1 s2 H. split; [exact H|]. repeat split. Qed.
Lemma ab_same : same_but_secrets (dev_of (posted form_a)) (dev_of (posted form_b)).
Proof. exact (dev_of_same _ _ ab_public). Qed.
Definition through_any (uri : String.string) : hreq := mk_hreq GET (str uri) [] (fun u _ => beq u (str "me") || beq u (str "you")) true.
Arguments through_any _%string_scope.
Lemma ab_login : text Username (c_cfg (posted form_a)) = str "me" /\ text Password (c_cfg (posted form_a)) = str "pw" /\
  text Username (c_cfg (posted form_b)) = str "you" /\ text Password (c_cfg (posted form_b)) = str "hidden".
Proof.
  destruct forms_ok as [A B].
  destruct (view_texts _ _ (posted_view form_a A eq_refl)) as (_ & -> & _ & _ & _ & ->).
  destruct (view_texts _ _ (posted_view form_b B eq_refl)) as (_ & -> & _ & _ & _ & ->).
  repeat split; vm_compute; reflexivity.
Qed.
Lemma outsider_of : forall s1 s2 uri, text Username (c_cfg s1) = str "me" /\ text Password (c_cfg s1) = str "pw" /\
  text Username (c_cfg s2) = str "you" /\ text Password (c_cfg s2) = str "hidden" ->
  outsider (dev_of s1) (dev_of s2) (DHttp around0 (through_any uri)).
Proof.
  intros s1 s2 uri (A & B & C & D). left. unfold restricted, cfg_of, dev_of. cbn [d_cs]. rewrite A, B, C, D.
  repeat split; discriminate.
Qed.
Lemma ab_outsider : forall uri, outsider (dev_of (posted form_a)) (dev_of (posted form_b)) (DHttp around0 (through_any uri)).
Proof. intros uri. exact (outsider_of _ _ uri ab_login). Qed.

(** Evaluating a history. *)
Definition result {A B} (f : device -> A -> B) (r : res (device * A)) : option B :=
  match r with Done (d, os) => Some (f d os) | _ => None end.
Lemma result_ok : forall A B (f : device -> A -> B) r x, result f r = Some x -> exists d os, r = Done (d, os) /\ f d os = x.
Proof. intros A B f [[d os]| |] x H; try discriminate. injection H as H. eauto. Qed.

(** Requests to a module without a login. *)
Lemma no_login : forall q d, text Username (cfg_of d) = [] -> fully_allowed q d.
Proof. intros q d H. left. exact H. Qed.
Lemma username_cs : forall d s, d_cs d = s -> text Username (c_cfg s) = [] -> text Username (cfg_of d) = [].
Proof. intros d s <- H. exact H. Qed.
Lemma dev0_login : text Username (cfg_of dev0) = [].
Proof. exact (username_cs _ _ dev0_cs (proj1 (proj2 fresh_texts))). Qed.
Lemma reset_example : forall sgn d, dev_ok sgn d -> text Username (cfg_of d) = [] ->
  exists d' os, dstep 256 sgn (DHttp around0 (ask "/factory_reset")) d = Done (d', os) /\ In EraseSdk os.
Proof.
  intros sgn d O U. assert (F := proj2 (full_iff _ _) (no_login (ask "/factory_reset") d U)).
  destruct (handle_some 256 sgn around0 (ask "/factory_reset") d O) as (d' & os & H).
  - split; [split; [constructor|cbn; lia]|]. cbn. split; [lia|]. split; [discriminate|lia].
  - apply le_n.
  - exists d', os. split; [exact H|]. unfold handle in H.
    replace (find_route routes (q_method (ask "/factory_reset")) (q_uri (ask "/factory_reset"))) with (Some HFactory) in H by reflexivity.
    cbn [serve] in H. unfold if_full in H. rewrite F in H. unfold factory_reset in H.
    destruct (config_reset _ _ _); [|discriminate]. injection H as _ <-. left. reflexivity.
Qed.
Lemma dev0_ok : dev_ok true dev0.
Proof. destruct (boot_dev_ok true start0 start0_ok) as (d & acts & B & O). rewrite boot0 in B. injection B as <- _. exact O. Qed.
Definition good_upload : list devent :=
  [DUpload around0 (UpStart (str "firmware.bin") 3 true true); DUpload around0 (UpWrite (str "abc") true true); DUpload around0 (UpEnd true)].
Lemma update_example : forall d, text Username (cfg_of d) = [] -> exists d1 os1, drun 256 true good_upload d = Done (d1, os1) /\
  handle 256 around0 (mk_hreq POST (str "/update") [] (fun _ _ => false) false) d1 = Done (d1, [RestartSoon]).
Proof.
  intros d U. do 2 eexists. split; [reflexivity|]. unfold handle. replace (find_route _ _ _) with (Some HUpdateDone) by reflexivity.
  cbn [serve]. unfold if_full. rewrite (proj2 (full_iff _ _)); [reflexivity|]. left. exact U.
Qed.
Lemma not_refused_open : forall q d, text Username (cfg_of d) = [] -> ~ refused q d.
Proof. intros q d U [X _]. exact (X U). Qed.
