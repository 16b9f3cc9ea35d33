(** Property theorem C91: the update form of the settings page (data_src/index.html:558-597, 1003-1083) and what the module
    does with the file (src/update.cpp). Specification: UpgradeSpec.v. *)
From Coq Require Import ZArith List Bool Lia.
From Verif Require Import Base BaseFacts Publish Config ConfigSpec Tic Pages Sse Cpu Web WebSpec Device Upgrade UpgradeSpec UpgradeProofs TicSamples WebSamples.
Import ListNotations.
Open Scope Z_scope.

(** C91. Which files are offered, and with which label: binary files whose name ends with bin after any character; the label is
    that of the web site if fs and any character come before. *)
Theorem C91_offered : forall u f,
  (u_button (choose u (Picks f)) <> None <->
     binary f /\ exists x c w, pk_name f = x ++ c :: w /\ c <> 10 /\ c <> 13 /\ map tolower w = str "bin") /\
  (u_button (choose u (Picks f)) = Some Website <->
     binary f /\ exists x v c w, pk_name f = x ++ v ++ c :: w /\ map tolower v = str "fs" /\ c <> 10 /\ c <> 13 /\ map tolower w = str "bin").
Proof. exact c91_offered. Qed.
Print Assumptions C91_offered.
Definition erfs : picked := mk_picked (str "erfs.bin") (str "application/octet-stream") (str "ERFSabcd").
Definition firmware : picked := mk_picked (str "firmware.bin") (str "application/macbinary") [233; 1; 2].
Example C91_offered_case : binary erfs /\ u_button (choose upform_start (Picks erfs)) = Some Website /\
  u_button (choose upform_start (Picks firmware)) = Some Software /\
  u_button (choose upform_start (Picks (mk_picked (str "firmware.bin") (str "text/plain") []))) = None /\
  u_button (choose upform_start (Picks (mk_picked (str "index.html") (str "application/octet-stream") []))) = None.
Proof. split; [exists [], (str "application/octet-stream"), []; split; [reflexivity|cbn [In]; auto]|]. repeat split. Qed.

(** Nothing can be sent before a file has been chosen. *)
Theorem C91_no_choice : forall cs, (forall f, ~ In (Picks f) cs) -> submit (fold_left choose cs upform_start) = None.
Proof. exact c91_no_choice. Qed.
Print Assumptions C91_no_choice.
Example C91_no_choice_case : submit (fold_left choose [Empties; Empties] upform_start) = None /\ submit (choose upform_start (Picks erfs)) <> None.
Proof. split; [reflexivity|discriminate]. Qed.

(** For the names announced by the form, and all those in small letters that end with .bin and hold fs.bin nowhere else, the
    module does what the button says: the file goes, whole, to the file system or to the program memory; the message shown at
    the end carries the verdict of the module. Missing: the other names, see below. *)
Theorem C91_written_partial : forall u f im, plain_name (pk_name f) -> u_button (choose u (Picks f)) = Some im ->
  submit (choose u (Picks f)) = Some (pk_name f, pk_bytes f) /\
  forall fuel sgn a len e0 ws a2 ended d,
  exists d' os, drun fuel sgn (DUpload a (UpStart (pk_name f) len true e0) ::
      map (fun w => DUpload (fst (fst w)) (UpWrite (snd (fst w)) true (snd w))) ws ++ [DUpload a2 (UpEnd ended)]) d = Done (d', os) /\
    concat os = UpdateBegin (match im with Website => true | Software => false end) (match im with Website => a_fs_size a | Software => len end) ::
      map (fun w => UpdateWrite (snd (fst w))) ws ++ [UpdateEnd true; Reply 200 Text (if ended then str "OK" else str "FAIL")] /\
    on_end (first_reply (concat os)) = GoodNews (if ended then str "200 OK" else str "200 FAIL").
Proof. exact c91_written. Qed.
Print Assumptions C91_written_partial.
Lemma plain_by : forall name, forallb (fun c => negb ((65 <=? c) && (c <=? 90))) name = true -> (exists x, name = x ++ str ".bin") ->
  (forall k, (k + 6 < length name)%nat -> firstn 6 (skipn k name) <> str "fs.bin") -> plain_name name.
Proof.
  intros name F E N. split; [|split; [exact E|]].
  - apply Forall_forall. intros c I. rewrite forallb_forall in F. specialize (F c I). lia.
  - intros x y Q. destruct y as [|c y]; [reflexivity|]. exfalso. apply (N (length x)).
    + rewrite Q, !app_length. cbn. lia.
    + rewrite Q, skipn_app, Nat.sub_diag, skipn_all. cbn [app skipn]. rewrite firstn_app. cbn. reflexivity.
Qed.
Example C91_written_case : plain_name (pk_name erfs) /\ plain_name (pk_name firmware) /\
  u_button (choose upform_start (Picks erfs)) = Some Website /\ u_button (choose upform_start (Picks firmware)) = Some Software.
Proof.
  split; [|split; [|split; reflexivity]].
  - apply plain_by; [reflexivity|exists (str "erfs"); reflexivity|]. cbn [pk_name erfs]. intros k L. change (length (str "erfs.bin")) with 8%nat in L.
    destruct k as [|[|k]]; [discriminate|discriminate|lia].
  - apply plain_by; [reflexivity|exists (str "firmware"); reflexivity|]. cbn [pk_name firmware]. intros k L. change (length (str "firmware.bin")) with 12%nat in L.
    do 6 (destruct k as [|k]; [discriminate|]). lia.
Qed.

(** C91 fails for names in capitals: the form announces the web site, the module writes its program memory. *)
Theorem C91_capitals_refuted : exists f, pk_name f = str "ERFS.BIN" /\ u_button (choose upform_start (Picks f)) = Some Website /\
  forall a len e d, snd (handle_upload a (UpStart (pk_name f) len true e) d) = [UpdateBegin false len].
Proof. exists (mk_picked (str "ERFS.BIN") (str "application/octet-stream") []). repeat split. Qed.
Print Assumptions C91_capitals_refuted.
(** ... and for names with another character than a dot. *)
Theorem C91_dot_refuted : exists f, pk_name f = str "erfs-bin" /\ u_button (choose upform_start (Picks f)) = Some Website /\
  forall a len e d, snd (handle_upload a (UpStart (pk_name f) len true e) d) = [UpdateBegin false len].
Proof. exists (mk_picked (str "erfs-bin") (str "application/octet-stream") []). repeat split. Qed.
Print Assumptions C91_dot_refuted.
(** ... and for names that hold fs.bin before their end: the form announces the program, the module writes its file system. *)
Theorem C91_inside_refuted : exists f, pk_name f = str "not-erfs.bin-but-firmware.bin" /\ u_button (choose upform_start (Picks f)) = Some Software /\
  forall a len e d, snd (handle_upload a (UpStart (pk_name f) len true e) d) = [UpdateBegin true (a_fs_size a)].
Proof. exists (mk_picked (str "not-erfs.bin-but-firmware.bin") (str "application/octet-stream") []). repeat split. Qed.
Print Assumptions C91_inside_refuted.
(** Names that do not end with .bin are offered too; and the button remains when the file box is emptied. *)
Theorem C91_robin_refuted : exists f, pk_name f = str "robin" /\ u_button (choose upform_start (Picks f)) = Some Software.
Proof. exists (mk_picked (str "robin") (str "application/octet-stream") []). repeat split. Qed.
Print Assumptions C91_robin_refuted.
Theorem C91_no_file_refuted : exists f, u_file (choose (choose upform_start (Picks f)) Empties) = None /\
  submit (choose (choose upform_start (Picks f)) Empties) = Some ([], []).
Proof. exists firmware. split; reflexivity. Qed.
Print Assumptions C91_no_file_refuted.

(** Whatever happens to the file, the text shown is the verdict of the module, and the module restarts if and only if the
    update went well (the request being fully allowed). Missing: bad news should be announced as such, see below. *)
Theorem C91_verdict_partial : forall fuel sgn a name len ups (well : bool) d, transfer name len ups well ->
  exists d' os, drun fuel sgn (map (DUpload a) ups) d = Done (d', os) /\
    on_end (first_reply (concat os)) = GoodNews (if well then str "200 OK" else str "200 FAIL") /\
    forall q, q_uri q = str "/update" -> q_method q = POST -> fully_allowed q d' ->
      handle fuel a q d' = Done (d', if well then [RestartSoon] else []).
Proof. exact c91_verdict. Qed.
Print Assumptions C91_verdict_partial.
Example C91_verdict_case : transfer (str "erfs.bin") 8 [UpStart (str "erfs.bin") 8 true false; UpWrite (str "ERFS") true false; UpEnd true] true /\
  transfer (str "erfs.bin") 8 [UpStart (str "erfs.bin") 8 true false; UpWrite (str "ERFS") true false; UpWrite (str "abcd") false false; UpEnd false] false.
Proof.
  split; [exact (goes_well _ _ [str "ERFS"] false false)|exact (goes_wrong _ _ true [(str "ERFS", true); (str "abcd", false)])].
Qed.

(** What the page says at the end: good news, with the code and the text of the answer, exactly when an answer came whose code
    is from 200 to 299, or 304. *)
Theorem C91_message : forall os,
  (forall text, on_end (first_reply os) = GoodNews text <->
     exists code body, first_reply os = Some (code, body) /\ (200 <= code <= 299 \/ code = 304) /\ text = dec code ++ str " " ++ body) /\
  (on_end (first_reply os) = BadNews <->
     forall code body, first_reply os = Some (code, body) -> ~ (200 <= code <= 299 \/ code = 304)).
Proof. exact c91_message. Qed.
Print Assumptions C91_message.
Example C91_message_case : on_end (first_reply [Reply 200 Text (str "OK")]) = GoodNews (str "200 OK") /\
  on_end (first_reply [Reply 403 Text (str "failed")]) = BadNews /\ on_end (first_reply []) = BadNews.
Proof. repeat split. Qed.

(** The page waits until the module answers OK to /hb.htm. *)
Theorem C91_wait : forall answers n, wait_restart answers = Some n <->
  exists before code rest, answers = before ++ Some (code, str "OK") :: rest /\ length before = (n - 1)%nat /\ (n > 0)%nat /\
    (200 <= code <= 299 \/ code = 304) /\
    Forall (fun a => forall c, 200 <= c <= 299 \/ c = 304 -> a <> Some (c, str "OK")) before.
Proof. exact c91_wait_codes. Qed.
Print Assumptions C91_wait.
Example C91_wait_case : wait_restart [None; Some (404, str "OK"); Some (200, str "OK"); None] = Some 3%nat.
Proof. reflexivity. Qed.

(** C91 fails for a failed update: it is announced with the same message as a success, the page says that the module restarts,
    and, since the module is still there, it says so for one second only. *)
Theorem C91_failure_refuted : exists name len ups a q d' os o, transfer name len ups false /\
  drun 256 true (map (DUpload a) ups) dev_login = Done (d', os) /\
  on_end (first_reply (concat os)) = GoodNews (str "200 FAIL") /\
  q_uri q = str "/hb.htm" /\ handle 256 a q d' = Done (d', o) /\ wait_restart [first_reply o] = Some 1%nat.
Proof.
  exists (str "erfs.bin"), 8, [UpStart (str "erfs.bin") 8 true false; UpWrite (str "abcd") false false; UpEnd false], around0, (ask "/hb.htm").
  eexists _, _, [Reply 200 Text (str "OK")]. split; [exact (goes_wrong _ _ true [(str "abcd", false)])|]. split; [reflexivity|]. repeat split.
Qed.
Print Assumptions C91_failure_refuted.

(** The sizes shown during the transfer: the unit is the largest that is not above the size, the number is the nearest. *)
Theorem C91_sizes : forall n, 0 <= n ->
  exists unit name k, In (unit, name) [(1, str " Bytes"); (1024, str " KB"); (1048576, str " MB"); (1073741824, str " GB")] /\
    format_size n = dec k ++ name /\ nearest n unit k /\
    (unit = 1 \/ unit <= n) /\ (n < 1024 * unit \/ unit = 1073741824).
Proof. exact c91_sizes. Qed.
Print Assumptions C91_sizes.
Example C91_sizes_case : format_size 1023 = str "1023 Bytes" /\ format_size 1536 = str "2 KB" /\ format_size 1048575 = str "1024 KB" /\
  format_size 3000000 = str "3 MB".
Proof. repeat split; vm_compute; reflexivity. Qed.
