(** Properties C75, C76 and C77: the preparation of the web site (prep_data_folder.py), until the browser. *)
From Coq Require Import ZArith List Bool Lia Sorted Permutation.
From Verif Require Import Base BaseFacts Publish Config ConfigSpec Erfs ErfsSpec Tic Pages PagesSamples Sse Cpu Web Device WebSpec Site SiteSpec Prep PrepSpec PrepText PrepProofs PrepMain PrepSite PrepStatic
  TicSamples WebSamples.
From Verif Require ErfsSamples SiteProofs.
Import ListNotations.
Open Scope Z_scope.

(** C75. The page for restricted clients is made of the public parts of the page, in order, and of nothing else. *)
Theorem C75_public_parts : forall first parts, well_marked first parts -> cut 0 (page_of first parts) = public_of first parts.
Proof. exact c75_marked. Qed.
Print Assumptions C75_public_parts.
(** So it does not depend on the private parts. *)
Theorem C75_private_parts : forall first parts parts', well_marked first parts -> well_marked first parts' -> map snd parts = map snd parts' ->
  cut 0 (page_of first parts) = cut 0 (page_of first parts').
Proof. exact c75_private. Qed.
Print Assumptions C75_private_parts.
(** For any text, well marked or not, exactly what remains. *)
Theorem C75_any_page : forall l r, cut 0 l = r <-> seen l r.
Proof. exact c75_exact. Qed.
Print Assumptions C75_any_page.
(** The names of the files: the usual one and the one asked for by the web server for restricted clients. *)
Theorem C75_names : forall dir b, b <> [] -> ~ In 46 b ->
  target (dir ++ [b ++ str ".html"]) = dir ++ [b ++ str ".html.gz"] /\
  restricted_target (dir ++ [b ++ str ".html"]) = dir ++ [b ++ str ".restrict.html.gz"].
Proof. intros dir b N D. exact (proj2 (plain_names dir b N D)). Qed.
Print Assumptions C75_names.
Lemma absent_by : forall w l, find_in w l = None -> ~ occurs w l.
Proof. intros w l H. apply find_none. exact H. Qed.
Definition parts1 : list (list Z * list Z) := [(str "<p>secret</p>", str "<p>public</p>"); (str "x", str "</html>")].
Definition head1 : list Z := str "<html><!--MAKE_RESTRICT-->".
Lemma marked1 : well_marked head1 parts1.
Proof.
  split; [apply absent_by; vm_compute; reflexivity|].
  repeat first [apply Forall_nil | apply Forall_cons; [split; apply absent_by; vm_compute; reflexivity|]].
Qed.
Example C75_case : well_marked head1 parts1 /\ length (page_of head1 parts1) = 134%nat /\
  cut 0 (page_of head1 parts1) = str "<html><!--MAKE_RESTRICT--><p>public</p></html>" /\
  target [str "index.html"] = [str "index.html.gz"] /\ restricted_target [str "index.html"] = [str "index.restrict.html.gz"].
Proof. split; [exact marked1|]. repeat split; vm_compute; reflexivity. Qed.
(** Without the condition: an opening mark that is not closed hides nothing; a private part inside another one uncovers the end
    of the latter. *)
Theorem C75_not_closed_refuted : exists public private, ~ occurs (str "<!--RESTRICT_ON-->") public /\ ~ occurs (str "<!--RESTRICT_OFF-->") private /\
  private = str "secret" /\ occurs private (cut 0 (public ++ str "<!--RESTRICT_ON-->" ++ private)).
Proof.
  exists (str "a"), (str "secret"). split; [apply absent_by; reflexivity|]. split; [apply absent_by; reflexivity|]. split; [reflexivity|].
  exists (str "a<!--RESTRICT_ON-->"), []. reflexivity.
Qed.
Print Assumptions C75_not_closed_refuted.
Theorem C75_nested_refuted : exists outer inner secret, secret = str "secret" /\
  occurs secret (cut 0 (page_of [] [(page_of outer [(inner, secret)], [])])).
Proof.
  exists (str "a"), (str "b"), (str "secret"). split; [reflexivity|]. exists [], (str "<!--RESTRICT_OFF-->"). vm_compute. reflexivity.
Qed.
Print Assumptions C75_nested_refuted.

(** C76. After any usual work in the sources (files created, modified, deleted at increasing dates, complete builds), a build leaves in the data
    directory the right file for each source and the right page for restricted clients; other files can only be restricted
    pages of former sources, or have the name of a present source, with .gz or not. *)
Theorem C76_up_to_date_partial : forall t U cs now v order,
  good_names U -> Forall (usual t) cs -> incl (edited cs) U -> StronglySorted Z.lt (dates cs ++ [now]) -> (forall s : tree, Permutation s (order s)) ->
  let '(s, d) := fold_left wstep (cs ++ [Build t now v order]) ([], []) in
  up_to_date t s d /\ get d [str "version"] = Some (mk_file now v) /\
  forall q, q <> [] -> get d q <> None -> q = [str "version"] \/ (exists p f, get s p = Some f /\ In q (outputs p)) \/
    In (str ".restrict") (suffixes (name_of q)) \/
    (exists p f n, get s p = Some f /\ (q = firstn n p \/ suffix (name_of q) = str ".gz" /\ with_name q (stem (name_of q)) = firstn n p)).
Proof. exact c76. Qed.
Print Assumptions C76_up_to_date_partial.
(** When the data directory has been deleted first, this holds for any sources, whatever their dates, and there is no other file. *)
Theorem C76_clean_build : forall t U s now v order,
  good_names U -> NoDup (map fst s) -> incl (map fst s) U -> (forall s : tree, Permutation s (order s)) ->
  up_to_date t s (build t now v (order s) []) /\ get (build t now v (order s) []) [str "version"] = Some (mk_file now v) /\
  forall q, get (build t now v (order s) []) q <> None -> q = [str "version"] \/ exists p f, get s p = Some f /\ In q (outputs p).
Proof. exact c76_clean. Qed.
Print Assumptions C76_clean_build.
Definition t1 : tools := mk_tools (fun l => l) (fun l => 31 :: l).
Definition same : tree -> tree := fun s => s.
Lemma same_perm : forall s : tree, Permutation s (same s).
Proof. intro s. apply Permutation_refl. Qed.
Definition home : path := [str "index.html"].
Definition names1 : list path := [home; [str "js"; str "app.js"]; [str "favicon.ico"]].
Lemma good1 : good_names names1.
Proof.
  split.
  - vm_compute. repeat (apply NoDup_cons; [cbn [In]; intuition discriminate|]). apply NoDup_nil.
  - repeat (apply Forall_cons; [split; [discriminate|intros _; vm_compute; discriminate]|]). apply Forall_nil.
Qed.
Definition work1 : list change :=
  [Edit home (page_of head1 parts1) 10; Edit [str "js"; str "app.js"] (str "let x") 20; Build t1 30 (str "v1") same; Edit [str "favicon.ico"] [1; 2] 35;
   Delete [str "js"; str "app.js"]; Edit home (page_of head1 (parts1 ++ parts1)) 40; Edit [str "js"; str "app.js"] (str "let y") 45].
Ltac dates_case := repeat (apply SSorted_cons || apply SSorted_nil || apply Forall_cons || apply Forall_nil || lia).
Lemma usual_build : forall t now v, usual t (Build t now v same).
Proof. intros. split; [reflexivity|exact same_perm]. Qed.
Lemma usual1 : Forall (usual t1) work1.
Proof. repeat (apply Forall_cons; [exact Logic.I || apply usual_build|]). apply Forall_nil. Qed.
Example C76_case : good_names names1 /\ Forall (usual t1) work1 /\ incl (edited work1) names1 /\ StronglySorted Z.lt (dates work1 ++ [50]) /\
  let '(s, d) := fold_left wstep (work1 ++ [Build t1 50 (str "v2") same]) ([], []) in
  map fst d = [[str "index.html.gz"]; [str "index.restrict.html.gz"]; [str "js"; str "app.js.gz"]; [str "favicon.ico"]; [str "version"]] /\ map fst s = [home; [str "favicon.ico"]; [str "js"; str "app.js"]].
Proof.
  split; [exact good1|]. split; [exact usual1|]. split; [intros p I; cbn in I |- *; tauto|]. split; [cbn; dates_case|]. vm_compute. split; reflexivity.
Qed.

(** The conditions matter. A build interrupted between a page and its restricted page: all the following builds leave the former
    restricted page, where a part which is now private is still public. *)
Definition before_change : list Z := page_of head1 [(str "x", str "secret")].
Definition after_change : list Z := page_of head1 [(str "secret", [])].
Theorem C76_interrupted_build_refuted : exists t cs now v k j cs' g, Forall (usual t) cs /\ Forall (usual t) cs' /\
  (forall t' now' v' order', In (Build t' now' v' order') cs' -> t' = t) /\ (exists now' v', In (Build t now' v' same) cs') /\
  StronglySorted Z.lt (dates (cs ++ Interrupt t now v same k j :: cs')) /\
  let '(s, d) := fold_left wstep (cs ++ Interrupt t now v same k j :: cs') ([], []) in
  (exists m, get s home = Some (mk_file m (page_of head1 [(str "secret", [])]))) /\ ~ occurs (str "secret") (public_of head1 [(str "secret", [])]) /\
  get d (restricted_target home) = Some g /\ occurs (str "secret") (f_data g) /\ ~ up_to_date t s d.
Proof.
  exists t1, [Edit home before_change 10; Build t1 20 (str "v1") same; Edit home after_change 30], 40, (str "v2"), 2%nat, None, [Build t1 50 (str "v2") same; Build t1 60 (str "v2") same].
  eexists. split; [repeat (apply Forall_cons; [exact Logic.I || apply usual_build|]); apply Forall_nil|].
  split; [repeat (apply Forall_cons; [exact Logic.I || apply usual_build|]); apply Forall_nil|].
  split; [intros t' n' v' o' [E|[E|[]]]; injection E as; congruence|]. split; [exists 50, (str "v2"); left; reflexivity|].
  split; [cbn; dates_case|].
  match goal with |- let '(s, d) := ?x in _ => let y := eval vm_compute in x in assert (X : x = y) by (vm_compute; reflexivity); rewrite X; clear X end.
  split; [exists 30; vm_compute; reflexivity|]. split; [apply absent_by; vm_compute; reflexivity|]. split; [vm_compute; reflexivity|]. split.
  - exists (31 :: head1), []. vm_compute. reflexivity.
  - intro UP. destruct (UP home (mk_file 30 after_change)) as [_ R]; [vm_compute; reflexivity|].
    destruct R as (g & G & D); [reflexivity|exists (str "<html>"), (skipn 26 after_change); vm_compute; reflexivity|].
    vm_compute in G. injection G as <-. vm_compute in D. discriminate.
Qed.
Print Assumptions C76_interrupted_build_refuted.

(** A build interrupted while a file is written: the part of it that was written is kept. *)
Theorem C76_truncated_file_refuted : exists t cs now v k j cs' g, Forall (usual t) cs /\ Forall (usual t) cs' /\ (exists now' v', In (Build t now' v' same) cs') /\
  StronglySorted Z.lt (dates (cs ++ Interrupt t now v same k (Some j) :: cs')) /\
  let '(s, d) := fold_left wstep (cs ++ Interrupt t now v same k (Some j) :: cs') ([], []) in
  (exists m, get s [str "js"; str "app.js"] = Some (mk_file m (str "let x"))) /\ get d [str "js"; str "app.js.gz"] = Some g /\ f_data g = firstn j (t_gzip t (str "let x")) /\
  ~ up_to_date t s d.
Proof.
  exists t1, [Edit [str "js"; str "app.js"] (str "let x") 10], 40, (str "v2"), 0%nat, 3%nat, [Build t1 50 (str "v2") same; Build t1 60 (str "v2") same].
  eexists. split; [repeat (apply Forall_cons; [exact Logic.I || apply usual_build|]); apply Forall_nil|].
  split; [repeat (apply Forall_cons; [exact Logic.I || apply usual_build|]); apply Forall_nil|].
  split; [exists 50, (str "v2"); left; reflexivity|]. split; [cbn; dates_case|].
  match goal with |- let '(s, d) := ?x in _ => let y := eval vm_compute in x in assert (X : x = y) by (vm_compute; reflexivity); rewrite X; clear X end.
  split; [exists 10; vm_compute; reflexivity|]. split; [vm_compute; reflexivity|]. split; [vm_compute; reflexivity|].
  intro UP. destruct (UP [str "js"; str "app.js"] (mk_file 10 (str "let x"))) as [(g & G & D) _]; [vm_compute; reflexivity|].
  vm_compute in G. injection G as <-. vm_compute in D. discriminate.
Qed.
Print Assumptions C76_truncated_file_refuted.
(** A source replaced by a file that is older than the last build is not seen. *)
Theorem C76_older_source_refuted : exists t cs p data m now v, Forall (usual t) cs /\ m < now /\ StronglySorted Z.lt (dates cs ++ [now]) /\
  let '(s, d) := fold_left wstep (cs ++ [Restore p data m; Build t now v same]) ([], []) in ~ up_to_date t s d.
Proof.
  exists t1, [Edit [str "favicon.ico"] [1] 10; Build t1 20 (str "v1") same], [str "favicon.ico"], [2], 5, 50, (str "v2").
  split; [repeat (apply Forall_cons; [exact Logic.I || apply usual_build|]); apply Forall_nil|]. split; [lia|]. split; [cbn; dates_case|].
  match goal with |- let '(s, d) := ?x in _ => let y := eval vm_compute in x in assert (X : x = y) by (vm_compute; reflexivity); rewrite X; clear X end.
  intro UP. destruct (UP [str "favicon.ico"] (mk_file 5 [2])) as [(g & G & D) _]; [vm_compute; reflexivity|].
  vm_compute in G. injection G as <-. vm_compute in D. discriminate.
Qed.
Print Assumptions C76_older_source_refuted.
(** A build where html-minifier fails and writes nothing is not noticed, neither by that build nor by the next ones. *)
Theorem C76_minifier_failure_refuted : exists t broken cs now v now' v', Forall (usual t) cs /\ t_gzip broken = t_gzip t /\ (forall l, t_minify broken l = []) /\
  StronglySorted Z.lt (dates cs ++ [now; now']) /\
  let '(s, d) := fold_left wstep (cs ++ [Build broken now v same; Build t now' v' same]) ([], []) in ~ up_to_date t s d.
Proof.
  exists t1, (mk_tools (fun _ => []) (t_gzip t1)), [Edit home (str "<html>") 10], 20, (str "v1"), 30, (str "v2").
  split; [repeat (apply Forall_cons; [exact Logic.I || apply usual_build|]); apply Forall_nil|]. split; [reflexivity|]. split; [reflexivity|]. split; [cbn; dates_case|].
  match goal with |- let '(s, d) := ?x in _ => let y := eval vm_compute in x in assert (X : x = y) by (vm_compute; reflexivity); rewrite X; clear X end.
  intro UP. destruct (UP home (mk_file 10 (str "<html>"))) as [(g & G & D) _]; [vm_compute; reflexivity|].
  vm_compute in G. injection G as <-. vm_compute in D. discriminate.
Qed.
Print Assumptions C76_minifier_failure_refuted.
(** The restricted page of a deleted page stays, in usual work too, and goes on being packed. *)
Theorem C76_deleted_page_refuted : exists t cs now v, Forall (usual t) cs /\ StronglySorted Z.lt (dates cs ++ [now]) /\
  let '(s, d) := fold_left wstep (cs ++ [Build t now v same]) ([], []) in
  s = [] /\ exists c, packed (to_pack d) (str "index.restrict.html.gz") = Some c.
Proof.
  exists t1, [Edit home before_change 10; Build t1 20 (str "v1") same; Delete home], 30, (str "v2").
  split; [repeat (apply Forall_cons; [exact Logic.I || apply usual_build|]); apply Forall_nil|]. split; [cbn; dates_case|].
  match goal with |- let '(s, d) := ?x in _ => let y := eval vm_compute in x in assert (X : x = y) by (vm_compute; reflexivity); rewrite X; clear X end.
  split; [reflexivity|]. eexists. vm_compute. reflexivity.
Qed.
Print Assumptions C76_deleted_page_refuted.

(** C77. From the sources to the browser: after any usual work and a build, the data directory is packed, written in the partition and mounted; then
    a restricted client who asks for the home page receives the public parts of its source, and a client with all the rights
    receives the whole page. *)
Theorem C77_sources_to_browser_partial : forall t U cs now v order s d a first parts data m,
  good_names U -> Forall (usual t) cs -> incl (edited cs) U -> StronglySorted Z.lt (dates cs ++ [now]) -> (forall s : tree, Permutation s (order s)) ->
  fold_left wstep (cs ++ [Build t now v order]) ([], []) = (s, d) -> on_device d a ->
  get s [str "index.html"] = Some (mk_file m data) -> data = page_of first parts -> well_marked first parts -> occurs (str "<!--MAKE_RESTRICT-->") data ->
  forall fuel q dev, q_uri q = str "/" ->
    (fully_allowed q dev -> handle fuel a q dev = Done (dev, [SendFile (str "/index.html.gz") (t_gzip t (t_minify t data))])) /\
    (restricted q dev -> handle fuel a q dev = Done (dev, [SendFile (str "/index.restrict.html.gz") (t_gzip t (t_minify t (public_of first parts)))])).
Proof. exact c77_home. Qed.
Print Assumptions C77_sources_to_browser_partial.
(** The other files, asked for by their name: whole, compressed when their kind says so. Names without slash in their components. *)
Theorem C77_static_files_partial : forall t U cs now v order s d a p m data,
  good_names U -> Forall slashless U -> Forall (usual t) cs -> incl (edited cs) U -> StronglySorted Z.lt (dates cs ++ [now]) -> (forall s : tree, Permutation s (order s)) ->
  fold_left wstep (cs ++ [Build t now v order]) ([], []) = (s, d) -> on_device d a ->
  get s p = Some (mk_file m data) -> name_of p <> str ".DS_Store" -> name_of p <> str ".git" ->
  forall fuel q dev, q_method q = GET -> q_uri q = 47 :: join p -> served_dir (q_uri q) -> ~ In (q_uri q) page_uris -> Forall (fun c => c <> 0) (join p) ->
    handle fuel a q dev = Done (dev, [match packing_of p with
      | Plain => SendFile (q_uri q) data
      | Zip => SendFile (q_uri q ++ str ".gz") (t_gzip t data)
      | Page => SendFile (q_uri q ++ str ".gz") (t_gzip t (t_minify t data))
      end]).
Proof. exact c77_static. Qed.
Print Assumptions C77_static_files_partial.
Definition data1 : tree := snd (fold_left wstep (work1 ++ [Build t1 5000000000 (str "v2") same]) ([], [])).
Definition files1 : list source := to_pack data1.
Definition disk1 : erfs := ErfsSamples.device (ErfsSamples.image_of files1 1024).
Definition site1 : list Z -> option (list Z) :=
  fun p => match stream_path (ErfsSamples.mount_of disk1) ErfsSamples.no_junk 2 16 (repeat 0 260) p with Some r => r | None => None end.
Definition around1 : around := mk_around env0 5000 info1 [] [] site1 Stored 1000000.
Example C77_case : on_device data1 around1 /\ fully_allowed (ask_in "/") dev_login /\ restricted (ask_through "/") dev_login /\
  handle 256 around1 (ask_through "/") dev_login =
    Done (dev_login, [SendFile (str "/index.restrict.html.gz") (31 :: public_of head1 (parts1 ++ parts1))]) /\
  Forall slashless names1 /\ served_dir (str "/js/app.js") /\ join [str "js"; str "app.js"] = str "js/app.js" /\
  handle 256 around1 (ask "/js/app.js") dev_login = Done (dev_login, [SendFile (str "/js/app.js.gz") (31 :: str "let y")]).
Proof.
  assert (DIR : directory files1) by ErfsSamples.dir_case.
  assert (L63 : Forall (fun f => size_of (src_name f) <= 63) files1).
  { apply Forall_forall. intros f I. vm_compute in I. repeat (destruct I as [<-|I]; [vm_compute; discriminate|]). destruct I. }
  assert (CR : create files1 1024 = Packed (ErfsSamples.image_of files1 1024)) by (vm_compute; reflexivity).
  assert (INS : installed disk1 (ErfsSamples.image_of files1 1024)) by (apply ErfsSamples.device_installed; vm_compute; reflexivity).
  assert (SP : forall before f after, files1 = before ++ f :: after -> name_at files1 before + 63 <= fs_size disk1).
  { intros before f after E. assert (LB : (length before < 5)%nat).
    { apply (f_equal (@length source)) in E. rewrite app_length in E. assert (LF : length files1 = 5%nat) by (vm_compute; reflexivity). rewrite LF in E. cbn in E. lia. }
    assert (EB : before = firstn (length before) files1) by (rewrite E; rewrite firstn_app; rewrite Nat.sub_diag; rewrite firstn_all; cbn; symmetry; apply app_nil_r).
    rewrite EB. destruct (length before) as [|[|[|[|[|n]]]]]; [vm_compute; discriminate|vm_compute; discriminate|vm_compute; discriminate|vm_compute; discriminate|vm_compute; discriminate|lia]. }
  assert (BEG : exists l, erfs_begin disk1 = (ErfsSamples.mount_of disk1, true, l)).
  { eexists. apply ErfsSamples.begins; vm_compute; reflexivity. }
  destruct BEG as [l0 BEG].
  split; [|split; [right; split; reflexivity|split; [split; [vm_compute; discriminate|split; reflexivity]|split; [vm_compute; reflexivity|]]]].
  2:{ split; [repeat constructor; cbn; intuition discriminate|]. split; [exists (str "/js"), (str "/app.js"); split; [cbn; tauto|reflexivity]|].
      split; vm_compute; reflexivity. }
  exists 1024, (ErfsSamples.image_of files1 1024), disk1, (ErfsSamples.mount_of disk1), l0.
  split; [exact DIR|]. split; [exact L63|]. split; [exact CR|]. split; [exact INS|]. split; [exact BEG|]. split; [exact SP|].
  exact (SiteProofs.site_exists _ _ _ _ _ _ DIR L63 CR INS BEG SP ErfsSamples.no_junk 2 16%positive (repeat 0 260) eq_refl eq_refl).
Qed.

(** C78. The version: what git says, after the kind of reference; nothing is built when git knows no reference (a bare identifier has no slash). *)
Theorem C78_version : forall c kind rest e spaces env, ~ white c -> ~ white e -> ~ In 47 (c :: kind) -> Forall white spaces ->
  get_version (Some ((c :: kind) ++ 47 :: rest ++ [e] ++ spaces)) env = Some (rest ++ [e]).
Proof. exact c78_named. Qed.
Print Assumptions C78_version.
Theorem C78_no_reference : forall l env, ~ In 47 l -> get_version (Some l) env = None.
Proof. exact version_bare. Qed.
Print Assumptions C78_no_reference.
Example C78_case : get_version (Some (str "heads/feature/x-0-g12ab" ++ [10])) None = Some (str "feature/x-0-g12ab") /\
  get_version (Some (str "12ab34c" ++ [10])) None = None /\ get_version None None = Some (str "develop") /\ get_version None (Some (str "v9")) = Some (str "v9").
Proof. repeat split; reflexivity. Qed.
