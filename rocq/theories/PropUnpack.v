(** Property theorems C107: unpacking an image with mkerfs32.py. *)
From Coq Require Import ZArith List Bool Lia.
From Verif Require Import Base BaseFacts Json Clock Erfs ErfsSpec ErfsSamples Prep Unpack UnpackSpec UnpackProofs UnpackSamples.
From Verif Require SrvSpec SrvFinal.
Import ListNotations.
Open Scope Z_scope.

(** C107: -x DIR on an image made by the tool, alone or followed by anything (a copy of the partition of a module), creates in an empty directory
    exactly the files packed that are selected, with their names, contents and dates, in order, and nothing elsewhere. Missing: names with
    other characters than those of printed ASCII, dates that the local time does not determine; see the refutations. *)
Theorem C107_extract_partial : forall z selected files size image rest, directory files ->
  Forall (fun f => printable (src_name f) /\ proper (src_name f) /\ clear_date z f) files -> create files size = Packed image ->
  extract z selected (image ++ rest) [] = Extracted (map copy_of (filter (fun f => selected (src_name f)) files)) [] Complete.
Proof. exact c107_fresh. Qed.
Print Assumptions C107_extract_partial.
Example C107_ex_extract : directory two_files /\ Forall (fun f => printable (src_name f) /\ proper (src_name f) /\ clear_date utc f) two_files /\
  create two_files 256 = Packed (image_of two_files 256) /\
  extract utc (fun n => beq (firstn 3 n) (str "js/")) (image_of two_files 256 ++ str "after") [] =
    Extracted [([str "js"; str "app.js"], mk_file 1580000001000000000 (str "let x = 1;"))] [] Complete.
Proof. split; [exact two_directory|]. split; [exact two_clear|]. split; vm_compute; reflexivity. Qed.

(** C107: in a directory with other files, the files of the image replace those of the same names and the others are left alone. *)
Theorem C107_over_partial : forall z selected files size image rest dir, directory files ->
  Forall (fun f => printable (src_name f) /\ proper (src_name f) /\ clear_date z f) files -> create files size = Packed image ->
  exists dir', extract z selected (image ++ rest) dir = Extracted dir' [] Complete /\
    (forall f, In f files -> selected (src_name f) = true -> get dir' (parts (src_name f)) = Some (mk_file (src_time f * 1000000000) (src_data f))) /\
    (forall p, (forall f, In f files -> selected (src_name f) = true -> p <> parts (src_name f)) -> get dir' p = get dir p).
Proof. exact c107_over. Qed.
Print Assumptions C107_over_partial.
Example C107_ex_over : extract utc (fun _ => true) (image_of two_files 256) [([str "old"], mk_file 5 (str "kept")); ([str "index.html"], mk_file 6 (str "lost"))] =
  Extracted [([str "old"], mk_file 5 (str "kept")); ([str "index.html"], mk_file 1580000000000000000 (str "<html>hello</html>"));
             ([str "js"; str "app.js"], mk_file 1580000001000000000 (str "let x = 1;"))] [] Complete.
Proof. vm_compute. reflexivity. Qed.

(** C107: -x - writes the contents of the selected files one after the other. *)
Theorem C107_output_partial : forall z selected files size image rest, directory files ->
  Forall (fun f => printable (src_name f) /\ proper (src_name f) /\ clear_date z f) files -> create files size = Packed image ->
  extract_out z selected (image ++ rest) = Some (flat_map src_data (filter (fun f => selected (src_name f)) files)).
Proof. exact c107_out. Qed.
Print Assumptions C107_output_partial.
Example C107_ex_output : extract_out utc (fun _ => true) (image_of two_files 256) = Some (str "<html>hello</html>let x = 1;").
Proof. vm_compute. reflexivity. Qed.

(** C107: the directory extracted, packed again with the same size in the same order, gives the same image. *)
Theorem C107_again_partial : forall z files size image, directory files ->
  Forall (fun f => printable (src_name f) /\ proper (src_name f) /\ clear_date z f) files ->
  Forall (fun f => last (parts (src_name f)) [] <> str ".DS_Store" /\ last (parts (src_name f)) [] <> str ".git") files ->
  create files size = Packed image ->
  exists dir, extract z (fun _ => true) image [] = Extracted dir [] Complete /\ to_pack dir = files /\ create (to_pack dir) size = Packed image.
Proof. exact c107_again. Qed.
Print Assumptions C107_again_partial.
Example C107_ex_again : Forall (fun f => last (parts (src_name f)) [] <> str ".DS_Store" /\ last (parts (src_name f)) [] <> str ".git") two_files.
Proof. repeat constructor; vm_compute; discriminate. Qed.

(** C107: -l tells the version and the number of files, and has one line for each file, in order, with its size, its date and its name. *)
Theorem C107_list : forall z files size image rest, directory files -> create files size = Packed image ->
  list_text z (image ++ rest) = Some (str "Version: 3.2" ++ [10] ++ str "Number of files: " ++ dec (size_of files) ++ [10] ++ listing z 1 files).
Proof. exact c107_list. Qed.
Print Assumptions C107_list.
Example C107_ex_list : list_text utc (image_of two_files 256) = Some (
  str "Version: 3.2" ++ [10] ++ str "Number of files: 2" ++ [10] ++
  str "   1        18  2020-01-26T00:53:20Z  index.html" ++ [10] ++
  str "   2        10  2020-01-26T00:53:21Z  js/app.js" ++ [10]).
Proof. vm_compute. reflexivity. Qed.

(** C107: on a computer in UTC, the date listed says when the file was changed. *)
Theorem C107_list_date_partial : forall z t, z_local z t = gmtime t -> 0 <= t < 253402300800 -> SrvSpec.says_z (written_date (z_local z t)) t.
Proof. intros z t E H. rewrite E. exact (written_says t H). Qed.
Print Assumptions C107_list_date_partial.
Example C107_ex_date : z_local utc 1580000000 = gmtime 1580000000 /\ written_date (z_local utc 1580000000) = str "2020-01-26T00:53:20Z".
Proof. split; vm_compute; reflexivity. Qed.
(** The full claim is false elsewhere: in France, the local time is followed by Z, which says another instant. *)
Theorem C107_list_date_refuted : exists files size image, directory files /\ map src_time files = [1580000000; 1580000001] /\ create files size = Packed image /\
  (forall mktime, list_text (mk_zone localtime mktime) image = Some (
    str "Version: 3.2" ++ [10] ++ str "Number of files: 2" ++ [10] ++
    str "   1        18  2020-01-26T01:53:20Z  index.html" ++ [10] ++
    str "   2        10  2020-01-26T01:53:21Z  js/app.js" ++ [10])) /\
  forall t, SrvSpec.says_z (str "2020-01-26T01:53:20Z") t -> t = 1580000000 + 3600.
Proof.
  exists two_files, 256, (image_of two_files 256). split; [exact two_directory|]. split; [reflexivity|]. split; [vm_compute; reflexivity|].
  split; [intros m; vm_compute; reflexivity|]. intros t S. apply (SrvFinal.says_z_one _ _ _ S). exact (written_says 1580003600 ltac:(lia)).
Qed.
Print Assumptions C107_list_date_refuted.

(** C107, whatever the image and its records: the files taken are those of the records before the first one whose name starts with a byte 0
    (a message tells it) or is outside of the image (exception); the end is without message only when there is no such record. *)
Theorem C107_end : forall z selected fs records taken e, take z selected fs records = (taken, e) ->
  exists before left, records = before ++ left /\ Forall (fun r => exists c, name_start fs r = Some c /\ c <> 0) before /\
    take z selected fs before = (taken, Complete) /\
    match e with
    | Complete => left = []
    | BadEntry => exists r after, left = r :: after /\ name_start fs r = Some 0
    | Exception => exists r after, left = r :: after /\ name_start fs r = None
    end.
Proof. exact c107_end. Qed.
Print Assumptions C107_end.
Example C107_ex_end : extract utc (fun _ => true) (firstn 28 escaping ++ [0] ++ skipn 29 escaping) [] = Extracted [] [] BadEntry /\
  extract utc (fun _ => true) (firstn 28 escaping) [] = Extracted [] [] Exception.
Proof. split; vm_compute; reflexivity. Qed.

(** C107, any names and dates: every file comes out with its content, under the name [renamed], which is its name exactly when all the
    characters are those of printed ASCII, and with the date that the machine gives to its local time. *)
Theorem C107_any_names : forall z selected files size image rest, directory files -> create files size = Packed image ->
  (exists records, open_image (image ++ rest) = Table (3, 2) records /\ take z selected (image ++ rest) records =
    (map (fun f => mk_taken (renamed (src_name f)) (src_data f) (z_mktime z (z_local z (src_time f)))) (filter (fun f => selected (renamed (src_name f))) files), Complete)) /\
  forall f, In f files -> (renamed (src_name f) = src_name f <-> printable (src_name f)).
Proof.
  intros. split; [eapply c107_names; eauto|]. intros f I. apply renamed_same.
  destruct H as [D _]. rewrite Forall_forall in D. apply (D f I).
Qed.
Print Assumptions C107_any_names.
Example C107_ex_names : renamed (str "a" ++ [9] ++ str "b" ++ [195; 169]) = str "a<9>b" ++ [195; 131; 194; 169].
Proof. vm_compute. reflexivity. Qed.
(** A name with an accent comes out as another name. *)
Theorem C107_accent_refuted : exists files size image, directory files /\ map src_name files = [str "t" ++ [195; 169] ++ str ".txt"] /\ create files size = Packed image /\
  forall z, exists t, extract z (fun _ => true) image [] = Extracted [([str "t" ++ [195; 131; 194; 169] ++ str ".txt"], t)] [] Complete.
Proof.
  exists accent, 64, (image_of accent 64). split; [exact accent_directory|]. split; [reflexivity|]. split; [vm_compute; reflexivity|].
  intros [l m]. eexists. vm_compute. reflexivity.
Qed.
Print Assumptions C107_accent_refuted.
(** Two files come out under the same name: the first one is lost. *)
Theorem C107_lost_refuted : exists files size image, directory files /\ map src_data files = [str "first"; str "second"] /\ create files size = Packed image /\
  forall z, exists t, extract z (fun _ => true) image [] = Extracted [([str "<9>"], mk_file t (str "second"))] [] Complete.
Proof.
  exists tab_pair, 100, (image_of tab_pair 100). split; [exact tab_directory|]. split; [reflexivity|]. split; [vm_compute; reflexivity|].
  intros [l m]. eexists. vm_compute. reflexivity.
Qed.
Print Assumptions C107_lost_refuted.
(** In France, whatever the machine makes of the hour that comes twice, one of these two files gets a wrong date. *)
Theorem C107_date_refuted : exists files size image, directory files /\ map src_time files = [1603585800; 1603589400] /\ create files size = Packed image /\
  forall mktime, exists t1 t2, extract (mk_zone localtime mktime) (fun _ => true) image [] =
    Extracted [([str "a"], mk_file (t1 * 1000000000) (str "x")); ([str "b"], mk_file (t2 * 1000000000) (str "y"))] [] Complete /\
    (t1 <> 1603585800 \/ t2 <> 1603589400).
Proof.
  exists night, 100, (image_of night 100). split; [exact night_directory|]. split; [reflexivity|]. split; [vm_compute; reflexivity|].
  intros m. exists (m (mk_tm 2020 9 25 2 30 0 0)), (m (mk_tm 2020 9 25 2 30 0 0)). split; [vm_compute; reflexivity|].
  generalize (m (mk_tm 2020 9 25 2 30 0 0)). intros t. lia.
Qed.
Print Assumptions C107_date_refuted.

(** C107, whatever the image: only files whose name is absolute or has a part ".." are written outside the directory. *)
Theorem C107_inside_partial : forall z selected fs dir dir' elsewhere e, extract z selected fs dir = Extracted dir' elsewhere e ->
  Forall (fun k => hd 0 (k_name k) = 47 \/ In (str "..") (parts (k_name k))) elsewhere.
Proof. exact c107_inside. Qed.
Print Assumptions C107_inside_partial.
Example C107_ex_inside : extract utc (fun _ => true) (image_of two_files 256) [] = Extracted (map copy_of two_files) [] Complete.
Proof. vm_compute. reflexivity. Qed.
(** An image that the tool did not make writes outside the directory. *)
Theorem C107_escape_refuted : exists image, bytes image /\ forall z, exists t, extract z (fun _ => true) image [] = Extracted [] [mk_taken (str "../x") (str "hi") t] Complete.
Proof.
  exists escaping. split; [apply Forall_forall; intros x X; vm_compute in X; repeat (destruct X as [X|X]; [subst x; unfold is_byte; lia|]); destruct X|].
  intros [l m]. eexists. vm_compute. reflexivity.
Qed.
Print Assumptions C107_escape_refuted.
(** A cut image (incomplete download) gives files that are too short, and no message. *)
Theorem C107_cut_refuted : exists files size image n, directory files /\ create files size = Packed image /\ (n < length image)%nat /\
  extract utc (fun _ => true) (firstn n image) [] =
    Extracted [([str "index.html"], mk_file 1580000000000000000 (str "<html>hello</html>")); ([str "js"; str "app.js"], mk_file 1580000001000000000 (str "let"))] [] Complete.
Proof.
  exists two_files, 100, (image_of two_files 100), 91%nat. split; [exact two_directory|]. split; [vm_compute; reflexivity|]. split; [vm_compute; lia|]. vm_compute. reflexivity.
Qed.
Print Assumptions C107_cut_refuted.

(** C107: the size given with -s, in bytes, in kilobytes or in megabytes. With C43, the image has that size. *)
Theorem C107_size : forall n, 0 <= n -> read_size (dec n) = Some n /\ read_size (dec n ++ str "k") = Some (n * 1024) /\ read_size (dec n ++ str "K") = Some (n * 1024) /\
  read_size (dec n ++ str "m") = Some (n * 1048576) /\ read_size (dec n ++ str "M") = Some (n * 1048576).
Proof. exact c107_size. Qed.
Print Assumptions C107_size.
(** Any other text is an error: nothing else than digits and one of these letters is read as a size. *)
Theorem C107_size_only : forall s v, read_size s = Some v -> exists ds unit k, s = ds ++ unit /\ ds <> [] /\ Forall (fun c => 48 <= c <= 57) ds /\ v = dec_value ds * k /\
  In (unit, k) [([], 1); (str "k", 1024); (str "K", 1024); (str "m", 1048576); (str "M", 1048576)].
Proof. exact c107_size_only. Qed.
Print Assumptions C107_size_only.
Example C107_ex_size : read_size (str "192k") = Some 196608 /\ read_size (str "1000K") = Some 1024000 /\ read_size (str "1m") = Some 1048576 /\ read_size (str "12g") = None /\ read_size (str "k") = None /\ read_size [] = None.
Proof. repeat split. Qed.
