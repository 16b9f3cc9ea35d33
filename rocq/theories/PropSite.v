(** Properties C73 and C74: the files sent by the web server (src/webserver.cpp), from the data directory to the browser
    (mkerfs32.py, src/ERFS.cpp); and the end of uploads (C60, src/update.cpp). *)
From Coq Require Import ZArith List Bool Lia.
From Verif Require Import Base BaseFacts Publish Config ConfigSpec Erfs ErfsSpec ErfsProofs ErfsFinal Tic Pages PagesSamples Sse Cpu Web Device WebSpec WebProofs Site SiteSpec SiteProofs
  TicSamples WebSamples.
From Verif Require ErfsSamples.
Import ListNotations.
Open Scope Z_scope.

(** C73. The home page: the compressed file first; another page for restricted clients; nothing for refused ones. *)
Theorem C73_home_page : forall fuel a q d, q_uri q = str "/" ->
  (fully_allowed q d -> handle fuel a q d =
     Done (d, [first_file (a_site a) [str "/index.html.gz"; str "/index.html"] (Reply 304 Html link_to_update)])) /\
  (restricted q d -> handle fuel a q d =
     Done (d, [first_file (a_site a) [str "/index.restrict.html.gz"; str "/index.restrict.html"] (Reply 304 Html link_to_update)])) /\
  (refused q d -> handle fuel a q d = Done (d, [Reply 401 Html (str "Authentication Failed")])).
Proof. exact c73_home. Qed.
Print Assumptions C73_home_page.
(** Static files are sent for GET requests, whatever the client; the pages of the program come first (/json begins with /js). *)
Theorem C73_static_file : forall fuel a q d default, q_method q = GET -> served_dir (q_uri q) -> ~ In (q_uri q) page_uris ->
  a_site a (q_uri q) <> None \/ a_site a (q_uri q ++ str ".gz") <> None ->
  handle fuel a q d = Done (d, [first_file (a_site a) [q_uri q; q_uri q ++ str ".gz"] default]).
Proof. exact c73_static. Qed.
Print Assumptions C73_static_file.
(** And no other file is ever sent: whatever the request, a file in the response is one of these, as it is in the file
    system, and nothing else happens. *)
Theorem C73_no_other_file : forall fuel a q d d' os p c, handle fuel a q d = Done (d', os) -> In (SendFile p c) os ->
  a_site a p = Some c /\ d' = d /\ os = [SendFile p c] /\
  (q_uri q = str "/" /\ fully_allowed q d /\ In p [str "/index.html.gz"; str "/index.html"] \/
   q_uri q = str "/" /\ restricted q d /\ In p [str "/index.restrict.html.gz"; str "/index.restrict.html"] \/
   q_uri q = str "/version" /\ p = str "/version" \/
   q_method q = GET /\ served_dir (q_uri q) /\ In p [q_uri q; q_uri q ++ str ".gz"]).
Proof. exact c73_sent. Qed.
Print Assumptions C73_no_other_file.
Definition site1 (p : list Z) : option (list Z) :=
  if beq p (str "/index.html.gz") then Some (str "all") else if beq p (str "/index.restrict.html") then Some (str "part")
  else if beq p (str "/js/app.js.gz") then Some (str "code") else if beq p (str "/secret") then Some (str "s") else None.
Definition around1 : around := mk_around env0 5000 info1 [] [] site1 Stored 1000000.
Example C73_case : fully_allowed (ask_in "/") dev_login /\ restricted (ask_through "/") dev_login /\ refused (ask "/") dev_login /\
  handle 256 around1 (ask_in "/") dev_login = Done (dev_login, [SendFile (str "/index.html.gz") (str "all")]) /\
  handle 256 around1 (ask_through "/") dev_login = Done (dev_login, [SendFile (str "/index.restrict.html") (str "part")]) /\
  served_dir (str "/js/app.js") /\ served_dir (str "/json") /\
  handle 256 around1 (ask "/js/app.js") dev_login = Done (dev_login, [SendFile (str "/js/app.js.gz") (str "code")]) /\
  handle 256 around1 (ask "/secret") dev_login = Done (dev_login, [Reply 404 Text (not_found_text (ask "/secret"))]).
Proof.
  split; [right; split; reflexivity|]. split; [split; [vm_compute; discriminate|split; reflexivity]|].
  split; [split; [vm_compute; discriminate|reflexivity]|]. split; [reflexivity|]. split; [reflexivity|].
  split; [exists (str "/js"), (str "/app.js"); split; [cbn; tauto|reflexivity]|].
  split; [exists (str "/js"), (str "on"); split; [cbn; tauto|reflexivity]|]. split; [reflexivity|]. vm_compute. reflexivity.
Qed.

(** C74. From the data directory to the browser: the directory is packed in an image, the image is written in the partition,
    the module mounts it; then the home page and the static files are those of the directory, byte for byte, whatever the
    size of the blocks used to send them. The conditions on the names are those of C39. *)
Theorem C74_packed_home_partial : forall files size image s s1 l0 a, directory files -> Forall (fun f => size_of (src_name f) <= 63) files ->
  create files size = Packed image -> installed s image -> erfs_begin s = (s1, true, l0) ->
  (forall before f after, files = before ++ f :: after -> name_at files before + 63 <= fs_size s) ->
  site_is s1 (a_site a) ->
  forall fuel q d, q_uri q = str "/" ->
    (fully_allowed q d -> handle fuel a q d = Done (d,
       [match packed files (str "index.html.gz"), packed files (str "index.html") with
        | Some c, _ => SendFile (str "/index.html.gz") c
        | None, Some c => SendFile (str "/index.html") c
        | None, None => Reply 304 Html link_to_update
        end])) /\
    (restricted q d -> handle fuel a q d = Done (d,
       [match packed files (str "index.restrict.html.gz"), packed files (str "index.restrict.html") with
        | Some c, _ => SendFile (str "/index.restrict.html.gz") c
        | None, Some c => SendFile (str "/index.restrict.html") c
        | None, None => Reply 304 Html link_to_update
        end])).
Proof. exact c74_home. Qed.
Print Assumptions C74_packed_home_partial.
Theorem C74_packed_file_partial : forall files size image s s1 l0 a, directory files -> Forall (fun f => size_of (src_name f) <= 63) files ->
  create files size = Packed image -> installed s image -> erfs_begin s = (s1, true, l0) ->
  (forall before f after, files = before ++ f :: after -> name_at files before + 63 <= fs_size s) ->
  site_is s1 (a_site a) ->
  forall fuel q d name, q_method q = GET -> q_uri q = 47 :: name -> served_dir (q_uri q) -> ~ In (q_uri q) page_uris ->
    Forall (fun c => c <> 0) name ->
    match packed files name, packed files (name ++ str ".gz") with
    | Some c, _ => handle fuel a q d = Done (d, [SendFile (q_uri q) c])
    | None, Some c => handle fuel a q d = Done (d, [SendFile (q_uri q ++ str ".gz") c])
    | None, None => forall d' os p c, handle fuel a q d = Done (d', os) -> ~ In (SendFile p c) os
    end.
Proof. exact c74_static. Qed.
Print Assumptions C74_packed_file_partial.
(** Such a site exists for every image and every size of blocks. *)
Theorem C74_site_exists : forall files size image s s1 l0, directory files -> Forall (fun f => size_of (src_name f) <= 63) files ->
  create files size = Packed image -> installed s image -> erfs_begin s = (s1, true, l0) ->
  (forall before f after, files = before ++ f :: after -> name_at files before + 63 <= fs_size s) ->
  forall j addr block buf32, size_of buf32 = 260 -> Z.pos block < 2147483648 ->
    site_is s1 (fun path => match stream_path s1 j addr block buf32 path with Some r => r | None => None end).
Proof. exact site_exists. Qed.
Print Assumptions C74_site_exists.
Definition disk : erfs := ErfsSamples.device (ErfsSamples.image_of ErfsSamples.two_files 256).
Example C74_case : directory ErfsSamples.two_files /\ create ErfsSamples.two_files 256 = Packed (ErfsSamples.image_of ErfsSamples.two_files 256) /\
  installed disk (ErfsSamples.image_of ErfsSamples.two_files 256) /\
  (forall before f after, ErfsSamples.two_files = before ++ f :: after -> name_at ErfsSamples.two_files before + 63 <= fs_size disk) /\
  stream_path (ErfsSamples.mount_of disk) ErfsSamples.no_junk 2 4 (repeat 0 260) (str "/js/app.js") = Some (Some (str "let x = 1;")) /\
  packed ErfsSamples.two_files (str "js/app.js") = Some (str "let x = 1;").
Proof.
  split; [exact ErfsSamples.two_directory|]. split; [vm_compute; reflexivity|].
  split; [apply ErfsSamples.device_installed; vm_compute; reflexivity|].
  split; [|split; vm_compute; reflexivity].
  intros before f after E. destruct before as [|x [|y [|z t]]]; injection E as; subst; try (vm_compute; discriminate); discriminate.
Qed.

(** Without the last condition: the only file of an image that has just the size needed is not served. *)
Definition one_script : list source := [mk_source (str "js/a") (str "x") 1].
Theorem C74_end_of_partition_refuted : exists files size image s s1 l0, directory files /\ create files size = Packed image /\ installed s image /\
  erfs_begin s = (s1, true, l0) /\ packed files (str "js/a") = Some (str "x") /\ served_dir (str "/js/a") /\
  forall addr block buf32, stream_path s1 ErfsSamples.no_junk addr block buf32 (str "/js/a") = Some None.
Proof.
  exists one_script, 40, (ErfsSamples.image_of one_script 40), (ErfsSamples.device (ErfsSamples.image_of one_script 40)),
    (ErfsSamples.mount_of (ErfsSamples.device (ErfsSamples.image_of one_script 40))). eexists.
  split; [ErfsSamples.dir_case|]. split; [vm_compute; reflexivity|]. split; [apply ErfsSamples.device_installed; vm_compute; reflexivity|].
  split; [apply ErfsSamples.begins; vm_compute; reflexivity|]. split; [reflexivity|].
  split; [exists (str "/js"), (str "/a"); split; [cbn; tauto|reflexivity]|]. intros. vm_compute. reflexivity.
Qed.
Print Assumptions C74_end_of_partition_refuted.

(** C60. An upload that fails or is aborted is ended without being installed, the configuration does not change, the
    decoding resumes; whatever the event, an image is installed only by the normal end of an upload. *)
Theorem C60_failed_upload : forall fuel sgn a u d, match u with UpEnd _ => False | _ => upload_over u = true end ->
  exists d' os ended, dstep fuel sgn (DUpload a u) d = Done (d', os ++ [UpdateEnd false; Reply 200 Text (if ended : bool then str "OK" else str "FAIL")]) /\
    (forall f, ~ In (UpdateEnd f) os) /\ p_pause (d_pub d') = false /\ d_upd d' = ended /\ cfg_of d' = cfg_of d.
Proof. exact c60_failed. Qed.
Print Assumptions C60_failed_upload.
Theorem C60_installed_at_the_end : forall fuel sgn e d d' o, dstep fuel sgn e d = Done (d', o) -> In (UpdateEnd true) o ->
  exists a ended, e = DUpload a (UpEnd ended).
Proof. exact c60_end. Qed.
Print Assumptions C60_installed_at_the_end.
Example C60_failed_case : upload_over (UpAborted false) = true /\ upload_over (UpWrite (str "ab") false true) = true /\
  exists d', dstep 256 true (DUpload around0 (UpEnd true)) dev_login = Done (d', [UpdateEnd true; Reply 200 Text (str "OK")]).
Proof. split; [reflexivity|]. split; [reflexivity|]. eexists. reflexivity. Qed.
