(** Property theorems C117: the development proxy (tools/default.conf, tools/httpdev.sh). *)
From Coq Require Import ZArith List Bool Lia.
From Verif Require Import Base BaseFacts Publish Config Tic Pages PagesSamples Sse Cpu Web WebSpec TicSamples WebSamples Proxy ProxySpec ProxyProofs.
Import ListNotations.
Open Scope Z_scope.

(** C117. What the page asks for its tabs, its gauges, its settings and its buttons is answered by the module, as if it was asked directly: with the same
    credentials, arguments and effects. *)
Theorem C117_page : forall fuel files a q d, In (q_uri q) asked_by_page -> proxy fuel files a q d = FromModule (handle fuel a q d).
Proof. exact c117_page. Qed.
Print Assumptions C117_page.
(** So is what begins with one of the addresses that the proxy knows. *)
Theorem C117_module : forall fuel files a q d, for_module (q_uri q) -> proxy fuel files a q d = FromModule (handle fuel a q d).
Proof. exact c117_module. Qed.
Print Assumptions C117_module.
(** All the rest comes from the files, whatever the module is: the module is not asked, and only GET is accepted. *)
Theorem C117_others : forall fuel files a q d, starts_with (str "/") (q_uri q) -> ~ for_module (q_uri q) ->
  (q_method q = GET -> last (q_uri q) 0 <> 47 -> proxy fuel files a q d = match files (q_uri q) with Some c => File c | None => Error 404 end) /\
  (q_method q = GET -> last (q_uri q) 0 = 47 -> proxy fuel files a q d = match files (q_uri q ++ str "index.html") with Some c => File c | None => Error 404 end) /\
  (q_method q <> GET -> proxy fuel files a q d = Error 405).
Proof. exact c117_others. Qed.
Print Assumptions C117_others.
(** The files of the folders of the site, and its icon, are those of data_src. *)
Theorem C117_site : forall fuel files a q d c, of_site (q_uri q) -> q_method q = GET -> last (q_uri q) 0 <> 47 -> files (q_uri q) = Some c ->
  proxy fuel files a q d = File c.
Proof. exact c117_site. Qed.
Print Assumptions C117_site.

(** The page also waits for the module to restart: it asks for /hb.htm until the answer is OK. The proxy knows only /hb.html: the module, which
    answers OK, is never asked. *)
Theorem C117_wait_refuted : exists q, q_method q = GET /\ q_uri q = str "/hb.htm" /\ forall fuel files a d, files (str "/hb.htm") = None ->
  handle fuel a q d = Done (d, [Reply 200 Text (str "OK")]) /\ proxy fuel files a q d = Error 404.
Proof. exists (ask "/hb.htm"). split; [reflexivity|]. split; [reflexivity|]. intros fuel files a d F. split; [reflexivity|]. change (match files (str "/hb.htm") with Some c => File c | None => Error 404 end = Error 404). rewrite F. reflexivity. Qed.
Print Assumptions C117_wait_refuted.
(** A file sent from the tab of updates does not reach the module. *)
Theorem C117_update_refuted : exists q, q_method q = POST /\ q_uri q = str "/update" /\ forall fuel files a d, proxy fuel files a q d = Error 405.
Proof. exists (mk_hreq POST (str "/update") [] (fun _ _ => false) false). split; [reflexivity|]. split; [reflexivity|]. intros. reflexivity. Qed.
Print Assumptions C117_update_refuted.
(** A file of data_src whose name begins like an address of the module is not served. *)
Theorem C117_file_refuted : exists q files c, q_method q = GET /\ files (q_uri q) = Some c /\ forall fuel a d, proxy fuel files a q d = FromModule (handle fuel a q d).
Proof.
  exists (ask "/tickets.css"), (fun u => if beq u (str "/tickets.css") then Some (str "p {}") else None), (str "p {}"). split; [reflexivity|]. split; [reflexivity|]. intros. reflexivity.
Qed.
Print Assumptions C117_file_refuted.

(** A page of the module that asks for credentials, with and without them; the home page; a script. *)
Definition files1 (u : list Z) : option (list Z) := if beq u (str "/index.html") then Some (str "<html>") else if beq u (str "/js/wifinfo.js") then Some (str "let a;") else None.
Example C117_case : In (str "/config.json") asked_by_page /\ of_site (str "/js/wifinfo.js") /\ ~ for_module (str "/") /\ for_module (str "/json") /\
  proxy 300 files1 around0 (ask "/") dev_login = File (str "<html>") /\ proxy 300 files1 around0 (ask "/js/wifinfo.js") dev_login = File (str "let a;") /\
  (match proxy 300 files1 around0 (ask "/config.json") dev_login, proxy 300 files1 around0 (ask_in "/config.json") dev_login with
   | FromModule (Done (_, [Reply 401 _ _])), FromModule (Done (_, [Reply 200 _ _])) => True | _, _ => False end).
Proof.
  split; [cbn; tauto|]. split; [exists (str "/js/"); split; [cbn; tauto|exists (str "wifinfo.js"); reflexivity]|].
  split; [intros (p & I & r & E); unfold known in I; cbn [In] in I; repeat (destruct I as [<-|I]; [cbn in E; discriminate|]); destruct I|].
  split; [exists (str "/json"); split; [left; reflexivity|exists []; reflexivity]|].
  split; [reflexivity|]. split; [reflexivity|]. vm_compute. exact I.
Qed.
