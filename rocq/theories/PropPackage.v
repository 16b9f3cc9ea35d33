(** Property theorems C116: the package made for the Arduino IDE (tools/mkarduinosrc.py). *)
From Coq Require Import ZArith List Bool Lia.
From Verif Require Import Base BaseFacts Amalg AmalgSpec Package PackageSpec PackageProofs.
Import ListNotations.
Open Scope Z_scope.

(** C116. Copied in a folder: each file of src and each file below data is in its place with its content; the other files of the folder and the archives
    do not change. *)
Theorem C116_copied : forall target src data d d', proper src data -> package true false target src data d = (d', true) ->
  (forall p, expected_at src data p (at_path (dk_folder d') p)) /\
  (forall p, ~ in_package src data p -> at_path (dk_folder d') p = at_path (dk_folder d) p) /\
  dk_archives d' = dk_archives d.
Proof. exact c116_copied. Qed.
Print Assumptions C116_copied.
(** The copy succeeds in any folder in which no file is in the place of a folder, or a folder in the place of a file. *)
Theorem C116_succeeds : forall target src data d, proper src data ->
  (forall p q, In p (map fst (dk_folder d)) -> in_package src data q -> ~ inside p q /\ ~ inside q p) ->
  exists d', package true false target src data d = (d', true).
Proof. exact c116_succeeds. Qed.
Print Assumptions C116_succeeds.
(** With the single source file, too, if it can be made (C89). *)
Theorem C116_succeeds_single : forall target src data d, consistent (map fst data) -> complete src ->
  (forall p q, In p (map fst (dk_folder d)) -> in_package [(str "wifinfo.ino", [])] data q -> ~ inside p q /\ ~ inside q p) ->
  exists d', package true true target src data d = (d', true).
Proof. exact c116_succeeds_single. Qed.
Print Assumptions C116_succeeds_single.
(** As an archive: it has all these files and no other, whatever was in an older archive of this name; nothing else changes. *)
Theorem C116_archive : forall target src data d, proper src data -> exists d' entries, package false false target src data d = (d', true) /\
  dk_archives d' (archive_name target) = Some entries /\
  (forall p, expected_at src data p (at_path (unpack entries []) p)) /\
  (forall p, ~ in_package src data p -> at_path (unpack entries []) p = None) /\
  dk_folder d' = dk_folder d /\ forall n, n <> archive_name target -> dk_archives d' n = dk_archives d n.
Proof. exact c116_archive. Qed.
Print Assumptions C116_archive.
(** With the single source file: it is there under the name of the sketch, with the files of data, without the other sources. *)
Theorem C116_single : forall (copy : bool) target src data d d' a, NoDup (map fst data) -> amalgamate src = Made a ->
  package copy true target src data d = (d', true) -> exists t,
  (if copy then dk_folder d' = t else exists entries, dk_archives d' (archive_name target) = Some entries /\ t = unpack entries []) /\
  at_path t [str "wifinfo"; str "wifinfo.ino"] = Some (concat (map snd (am_lines a))) /\
  (forall q c, In (q, c) data -> at_path t (place_of_data q) = Some c) /\
  (forall p, p <> [str "wifinfo"; str "wifinfo.ino"] -> (forall q, In q (map fst data) -> p <> place_of_data q) ->
    at_path t p = if copy then at_path (dk_folder d) p else None).
Proof. exact c116_single. Qed.
Print Assumptions C116_single.
(** Both ways agree: the archive, unpacked in a folder, gives what the copy gives. *)
Theorem C116_same : forall one target src data d d1 d2 ok entries, package true one target src data d = (d1, true) -> package false one target src data d = (d2, ok) ->
  dk_archives d2 (archive_name target) = Some entries -> dk_folder d1 = unpack entries (dk_folder d).
Proof. exact c116_same. Qed.
Print Assumptions C116_same.
(** If the single source file cannot be made, nothing is copied. *)
Theorem C116_failed : forall target src data d d', package true true target src data d = (d', false) -> (forall a, amalgamate src <> Made a) -> d' = d.
Proof. exact c116_failed. Qed.
Print Assumptions C116_failed.
(** The archive has the name given if it has an extension; otherwise .zip is added, also if its only dot is the first character, or a dot is the last one. *)
Theorem C116_name : (forall n, ~ In 46 n -> archive_name n = n ++ str ".zip" /\ archive_name (46 :: n) = 46 :: n ++ str ".zip") /\
  (forall n, archive_name (n ++ [46]) = n ++ [46] ++ str ".zip") /\
  (forall n e, n <> [] -> e <> [] -> ~ In 46 e -> archive_name (n ++ 46 :: e) = n ++ 46 :: e).
Proof. exact c116_name. Qed.
Print Assumptions C116_name.

(** A small source tree. *)
Definition line (s : list Z) : list Z := s ++ [10].
Definition src1 : sources :=
  [(str "main.cpp", [line (str "#include " ++ [34] ++ str "tic.h" ++ [34]); line (str "void setup();")]); (str "tic.h", [line (str "#pragma once"); line (str "int tic();")]); (str "wifinfo.ino", [line (str "//")])].
Definition data1 : tree := [([str "index.html.gz"], [31; 139]); ([str "js"; str "app.js.gz"], [31; 139; 8])].
Definition nothing : disk := mk_disk [] (fun _ => None).
Definition copied1 : disk := fst (package true false (str "out") src1 data1 nothing).
Definition twice : disk := fst (package true true (str "out") src1 data1 copied1).
Definition src_bad : sources := [(str "main.cpp", [line (str "#include MACRO")])].

(** A version number is taken for an extension: the archive has no .zip. *)
Theorem C116_version_refuted : exists target, archive_name target = target /\ forall n, target <> n ++ str ".zip".
Proof.
  exists (str "wifinfo-1.2"). split; [reflexivity|]. intros n E. apply (f_equal (@rev Z)) in E. rewrite rev_app_distr in E. vm_compute in E. discriminate.
Qed.
Print Assumptions C116_version_refuted.
(** Copying the single source file in the folder of an earlier copy leaves the separate sources beside it: the same functions are compiled twice. *)
Theorem C116_both_refuted : exists target src data d1 d2 text, proper src data /\ package true false target src data nothing = (d1, true) /\
  package true true target src data d1 = (d2, true) /\ at_path (dk_folder d2) (place_of_source (str "wifinfo.ino")) = Some text /\
  (exists a, amalgamate src = Made a /\ text = concat (map snd (am_lines a)) /\ taken (str "main.cpp") (am_lines a) <> []) /\
  at_path (dk_folder d2) (place_of_source (str "main.cpp")) <> None.
Proof.
  exists (str "out"), src1, data1, copied1, twice. eexists.
  split; [|split; [vm_compute; reflexivity|split; [vm_compute; reflexivity|split; [vm_compute; reflexivity|split; [|vm_compute; discriminate]]]]].
  - split; [repeat constructor; cbn; intuition discriminate|]. split; [|split; cbn; intuition discriminate].
    split; [repeat constructor; cbn; intuition discriminate|]. intros p q [<-|[<-|[]]] [<-|[<-|[]]] (x & r & E); cbn in E; discriminate.
  - eexists. split; [vm_compute; reflexivity|]. split; [vm_compute; reflexivity|vm_compute; discriminate].
Qed.
Print Assumptions C116_both_refuted.
(** If the single source file cannot be made, the archive made before is lost. *)
Theorem C116_lost_refuted : exists target src d d' old, dk_archives d (archive_name target) = Some old /\ old <> [] /\
  package false true target src [] d = (d', false) /\ dk_archives d' (archive_name target) = Some [].
Proof.
  exists (str "wifinfo"), src_bad, (fst (package false false (str "wifinfo") src1 data1 nothing)). do 2 eexists.
  split; [vm_compute; reflexivity|]. split; [discriminate|]. split; [vm_compute; reflexivity|vm_compute; reflexivity].
Qed.
Print Assumptions C116_lost_refuted.

(** The tree copied, and packed again over an older archive. *)
Example C116_case : proper src1 data1 /\ complete src1 /\
  snd (package true false (str "out") src1 data1 nothing) = true /\
  at_path (dk_folder copied1) [str "wifinfo"; str "data"; str "js"; str "app.js.gz"] = Some [31; 139; 8] /\
  at_path (dk_folder copied1) [str "wifinfo"; str "tic.h"] = Some (line (str "#pragma once") ++ line (str "int tic();")) /\
  option_map (@length _) (dk_archives (fst (package false true (str "out") src1 data1 (fst (package false false (str "out") src1 data1 nothing)))) (str "out.zip")) = Some 3%nat.
Proof.
  split; [|split].
  - split; [repeat constructor; cbn; intuition discriminate|]. split; [|split; cbn; intuition discriminate].
    split; [repeat constructor; cbn; intuition discriminate|]. intros p q [<-|[<-|[]]] [<-|[<-|[]]] (x & r & E); cbn in E; discriminate.
  - intros f ls l F I. cbn [src1 lines_named] in F.
    repeat (destruct (beq _ f); [injection F as <-; cbn in I; repeat (destruct I as [<-|I]; [split; [vm_compute; discriminate|intros h H; vm_compute in H; first [discriminate H|injection H as <-; vm_compute; discriminate]]|]); destruct I|]).
    discriminate.
  - repeat (split; [vm_compute; reflexivity|]). vm_compute. reflexivity.
Qed.
