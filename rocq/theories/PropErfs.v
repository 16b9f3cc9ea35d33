(** Property theorems C39 to C45: the read-only file system (mkerfs32.py, src/ERFS.cpp). *)
From Coq Require Import ZArith List Bool Lia.
From Verif Require Import Base BaseFacts Erfs ErfsSpec ErfsProofs ErfsRead ErfsFinal ErfsSamples ErfsDir ErfsDirSpec ErfsDirProofs.
Import ListNotations.
Open Scope Z_scope.

(** C39, C41: an image accepted by the builder mounts; a file is found by its name, with or without a leading slash, with its
    size, date and name, and any series of reads (any sizes, any buffer addresses) and seeks gives its content ([expected],
    ErfsSpec.v). Missing: names of more than 63 bytes, names whose place is less than 63 bytes from the end of the partition;
    see the refutations. *)
Theorem C39_round_trip_partial : forall files size image s, directory files -> Forall (fun f => size_of (src_name f) <= 63) files ->
  create files size = Packed image -> installed s image ->
  exists s1 l0, erfs_begin s = (s1, true, l0) /\
    forall before f after path j, files = before ++ f :: after -> name_at files before + 63 <= fs_size s ->
      path = src_name f \/ path = 47 :: src_name f ->
      exists e l, erfs_open s1 path j = Some (Some e, l) /\ ef_size e = size_of (src_data f) /\ ef_time e = src_time f /\
        ef_full_name e = Some (src_name f) /\
        forall calls buf32, Forall sensible calls -> size_of buf32 = 260 ->
          exists l', session s1 buf32 e calls = Some (expected (src_data f) 0 calls, l').
Proof. exact c39. Qed.
Print Assumptions C39_round_trip_partial.
Example C39_case : directory two_files /\ create two_files 256 = Packed (image_of two_files 256) /\
  installed (device (image_of two_files 256)) (image_of two_files 256) /\ name_at two_files [hd (mk_source [] [] 0) two_files] + 63 <= 256 /\
  exists e l, erfs_open (mount_of (device (image_of two_files 256))) (str "/js/app.js") no_junk = Some (Some e, l) /\
    (exists l', session (mount_of (device (image_of two_files 256))) (repeat 0 260) e
      [Read 0 (repeat 0 4) 4; Seek (-2) SeekCur; Read 3 (repeat 0 20) 20; Read 0 (repeat 7 3) 3] =
      Some ([(Got 4 (str "let "), 4); (Sought true, 2); (Got 8 (str "t x = 1;" ++ repeat 0 12), 10); (Got 0 [7; 7; 7], 10)], l')).
Proof.
  split; [exact two_directory|].
  split; [vm_compute; reflexivity|]. split; [apply device_installed; vm_compute; reflexivity|]. split; [vm_compute; discriminate|].
  do 2 eexists. split; [vm_compute; reflexivity|]. eexists. vm_compute. reflexivity.
Qed.
(** C39 fails for a small image filled by its files: the only file is never found. *)
Theorem C39_end_of_partition_refuted : exists files size image s s1 l0, directory files /\ create files size = Packed image /\ installed s image /\
  erfs_begin s = (s1, true, l0) /\ map src_name files = [str "a"] /\ forall j, erfs_exists s1 (str "/a") j = Some false.
Proof.
  exists one_tiny, 36, (image_of one_tiny 36), (device (image_of one_tiny 36)), (mount_of (device (image_of one_tiny 36))). eexists.
  split; [exact one_tiny_directory|]. split; [vm_compute; reflexivity|]. split; [apply device_installed; vm_compute; reflexivity|].
  split; [apply begins; vm_compute; reflexivity|]. split; [reflexivity|]. intros [c r]. exact (one_tiny_lost c r).
Qed.
Print Assumptions C39_end_of_partition_refuted.
(** C39 fails for a name of 64 bytes, in an image as large as you like; C40 fails too: the first 63 bytes are "found". *)
Theorem C39_long_name_refuted : exists files size image s s1 l0, directory files /\ create files size = Packed image /\ installed s image /\
  erfs_begin s = (s1, true, l0) /\ map src_name files = [repeat 97 64] /\ forall j, erfs_exists s1 (repeat 97 64) j = Some false.
Proof.
  exists a64, 256, (image_of a64 256), (device (image_of a64 256)), (mount_of (device (image_of a64 256))). eexists.
  split; [exact a64_directory|]. split; [vm_compute; reflexivity|]. split; [apply device_installed; vm_compute; reflexivity|].
  split; [apply begins; vm_compute; reflexivity|]. split; [reflexivity|]. intros [c r]. exact (a64_lost c r).
Qed.
Print Assumptions C39_long_name_refuted.

(** C40: a path that names no packed file is not found. Missing: names of more than 63 bytes; the empty path. *)
Theorem C40_absent_file_partial : forall files size image s s1 l0 path j, directory files -> Forall (fun f => size_of (src_name f) <= 63) files ->
  create files size = Packed image -> installed s image -> erfs_begin s = (s1, true, l0) ->
  Forall (fun c => c <> 0) path -> path <> [] -> path <> [47] ->
  ~ In path (map src_name files) -> (forall p, path = 47 :: p -> ~ In p (map src_name files)) ->
  (exists l, erfs_open s1 path j = Some (None, l)) /\ erfs_exists s1 path j = Some false.
Proof. exact c40_full. Qed.
Print Assumptions C40_absent_file_partial.
(** A path with the hash of a packed file. *)
Example C40_case : name_hash (str "js/app.js") = name_hash (str "js/app.kq") /\ ~ In (str "js/app.kq") (map src_name two_files).
Proof. split; [reflexivity|]. cbn [map two_files src_name]. intros [H|[H|[]]]; discriminate H. Qed.
Theorem C40_long_name_refuted : exists files size image s s1 l0, directory files /\ create files size = Packed image /\ installed s image /\
  erfs_begin s = (s1, true, l0) /\ ~ In (repeat 97 63) (map src_name files) /\ forall j, erfs_exists s1 (repeat 97 63) j = Some true.
Proof.
  exists a64, 256, (image_of a64 256), (device (image_of a64 256)), (mount_of (device (image_of a64 256))). eexists.
  split; [exact a64_directory|]. split; [vm_compute; reflexivity|]. split; [apply device_installed; vm_compute; reflexivity|].
  split; [apply begins; vm_compute; reflexivity|]. split; [cbn [map a64 src_name]; intros [H|[]]; discriminate H|]. intros [c r]. exact (a64_prefix c r).
Qed.
Print Assumptions C40_long_name_refuted.
(** The empty path is "found" when the hash of an unreadable name is 0. *)
Theorem C40_empty_path_refuted : exists files size image s s1 l0, directory files /\ create files size = Packed image /\ installed s image /\
  erfs_begin s = (s1, true, l0) /\ forall j, erfs_exists s1 (str "/") j = Some true.
Proof.
  exists hash0, 52, (image_of hash0 52), (device (image_of hash0 52)), (mount_of (device (image_of hash0 52))). eexists.
  split; [exact hash0_directory|]. split; [vm_compute; reflexivity|]. split; [apply device_installed; vm_compute; reflexivity|].
  split; [apply begins; vm_compute; reflexivity|]. intros [c r]. exact (hash0_root c r).
Qed.
Print Assumptions C40_empty_path_refuted.

(** C41: any series of reads and seeks on a file opened at its beginning, whatever the sizes and the buffer addresses. [on_content]
    (ErfsFinal.v): the record of the file designates this content in the partition, as for every file of C39. *)
Theorem C41_any_reads : forall s content e calls buf32, on_content s content e -> ef_pos e = 0 -> Forall sensible calls -> size_of buf32 = 260 ->
  exists l, session s buf32 e calls = Some (expected content 0 calls, l) /\ inside s l.
Proof. exact c41_start. Qed.
Print Assumptions C41_any_reads.
(** In particular, successive reads give successive pieces. *)
Example C41_case : expected (str "let x = 1;") 0 [Read 1 (repeat 0 3) 3; Read 2 (repeat 0 5) 5; Read 3 (repeat 0 8) 8; Read 0 (repeat 0 8) 8] =
  [(Got 3 (str "let"), 3); (Got 5 (str " x = "), 8); (Got 2 (str "1;" ++ repeat 0 6), 10); (Got 0 (repeat 0 8), 10)].
Proof. reflexivity. Qed.

(** C42: on any file of any image, good or bad, the position stays in the file; a seek that fails does not move; one that
    succeeds goes where it was asked. *)
Theorem C42_position : forall s calls buf32 e rs l, session s buf32 e calls = Some (rs, l) -> 0 <= ef_size e < 4294967296 -> 0 <= ef_pos e <= ef_size e ->
  Forall (fun c => match c with Read _ _ n => 0 <= n | _ => True end) calls ->
  Forall (fun r => 0 <= snd r <= ef_size e) rs /\
  forall k mode o ok p, nth_error calls k = Some (Seek o mode) -> nth_error rs k = Some (Sought ok, p) ->
    let before := nth k (ef_pos e :: map snd rs) 0 in
    if ok then p = match mode with SeekSet => u32 o | SeekCur => u32 (before + o) | SeekEnd => ef_size e - u32 o end else p = before.
Proof. exact c42. Qed.
Print Assumptions C42_position.
Example C42_case : exists e l l', erfs_open (mount_of (device (image_of two_files 256))) (str "index.html") no_junk = Some (Some e, l) /\ ef_size e = 18 /\ ef_pos e = 0 /\
  session (mount_of (device (image_of two_files 256))) (repeat 0 260) e [Seek 17 SeekSet; Seek 1 SeekCur; Seek (-18) SeekCur; Seek (-9) SeekCur; Seek 18 SeekSet; Seek 19 SeekEnd; Seek 0 SeekEnd] =
  Some ([(Sought true, 17); (Sought false, 17); (Sought false, 17); (Sought true, 8); (Sought false, 8); (Sought false, 8); (Sought true, 18)], l').
Proof. do 3 eexists. split; [vm_compute; reflexivity|]. repeat split; vm_compute; reflexivity. Qed.

(** C43: the tool refuses exactly the files that do not fit, and says how much is missing; when it accepts, everything it
    writes is in the image, which has the requested size (zeros at the end). The remaining outcome is an exception: too many
    files, image too large, date that does not fit in 32 bits. *)
Theorem C43_accounting : forall files size,
  match create files size with
  | TooSmall missing => image_end files > size /\ missing = image_end files - size
  | Packed image => image_end files <= size /\ size_of image = size /\
      exists w, written files = Some w /\ size_of w = image_end files /\ image = w ++ zeros (size - image_end files)
  | PackError => image_end files <= size /\
      (size_of files >= 65536 \/ size > 4294967295 \/ ~ Forall (fun f => 0 <= src_time f < 4294967296) files)
  end.
Proof. exact c43. Qed.
Print Assumptions C43_accounting.
Example C43_case : image_end two_files = 100 /\ create two_files 99 = TooSmall 1 /\ (exists i, create two_files 100 = Packed i) /\
  create [mk_source (str "a") [] 4294967296] 108 = PackError.
Proof. split; [reflexivity|]. split; [reflexivity|]. split; [eexists; vm_compute; reflexivity|reflexivity]. Qed.

(** C44: on an image made by the tool, mounting, opening, reading, listing and measuring only read the partition. Missing: any
    other image, see the refutation; names as in C39. *)
Theorem C44_built_image_partial : forall files size image s s1 l0, directory files -> Forall (fun f => size_of (src_name f) <= 63) files ->
  create files size = Packed image -> installed s image -> erfs_begin s = (s1, true, l0) -> inside s l0 /\
  (forall path j r l, Forall (fun c => c <> 0) path -> path <> [] -> path <> [47] -> erfs_open s1 path j = Some (r, l) -> inside s l /\
    forall e calls buf32 rs l', r = Some e -> Forall sensible calls -> size_of buf32 = 260 -> session s1 buf32 e calls = Some (rs, l') -> inside s l') /\
  (forall j t u l, erfs_info s1 j = (t, u, l) -> inside s l) /\
  ((forall before f after, files = before ++ f :: after -> name_at files before + 63 <= fs_size s) -> forall r l, erfs_list s1 = Some (r, l) -> inside s l).
Proof. exact c44. Qed.
Print Assumptions C44_built_image_partial.
(** Any image of 8 bytes or more: it is mounted exactly when it begins with ERFS and the version 3.2, and then the number of files is
    that of its header; only the header is read. *)
Theorem C44_mount : forall s a b c d e f g h image, installed s (a :: b :: c :: d :: e :: f :: g :: h :: image) ->
  Forall (fun x => 0 <= x < 256) [a; b; c; d; e; f; g; h] ->
  exists s1 ok, erfs_begin s = (s1, ok, [(fs_start s, 8)]) /\ (ok = true <-> [a; b; c; d; e; f] = str "ERFS" ++ [3; 2]) /\
    (ok = true -> fs_files s1 = g + 256 * h).
Proof. exact c44_mount. Qed.
Print Assumptions C44_mount.
Example C44_ex_mount : let i := str "ERFS" ++ [2; 2; 0; 0] in installed (device i) i /\ snd (fst (erfs_begin (device i))) = false /\
  let j := str "ERFS" ++ [3; 2; 1; 1] in installed (device j) j /\ snd (fst (erfs_begin (device j))) = true /\ fs_files (fst (fst (erfs_begin (device j)))) = 257.
Proof.
  cbv zeta. split; [apply device_installed; vm_compute; reflexivity|]. split; [vm_compute; reflexivity|].
  split; [apply device_installed; vm_compute; reflexivity|]. split; vm_compute; reflexivity.
Qed.
(** For any image, an access is in the partition unless its end exceeds 2^32. *)
Theorem C44_any_image_partial : forall s addr n got l, 0 <= fs_start s -> fs_start s + fs_size s < 4294967296 -> 0 <= addr < 4294967296 -> 0 <= n < 4294967296 ->
  hal_read s addr n = (got, l) -> addr + n < 4294967296 -> inside s l.
Proof. exact hal_any. Qed.
Print Assumptions C44_any_image_partial.
Theorem C44_bad_image_refuted : exists s image s1 l0 e l rs l', installed s image /\ erfs_begin s = (s1, true, l0) /\
  erfs_open s1 (str "/a") no_junk = Some (Some e, l) /\ session s1 (repeat 0 260) e [Read 0 (repeat 0 16) 16] = Some (rs, l') /\
  l' = [(fs_start s - 16, 16)] /\ ~ inside s l'.
Proof.
  exists (device evil), evil, (mount_of (device evil)). do 5 eexists. split; [apply device_installed; vm_compute; reflexivity|].
  split; [apply begins; vm_compute; reflexivity|].
  split; [vm_compute; reflexivity|]. split; [vm_compute; reflexivity|]. split; [reflexivity|]. intros H. inversion H as [|x y [A _] _ Q]. apply A. reflexivity.
Qed.
Print Assumptions C44_bad_image_refuted.

(** C45: the directory lists the packed files, in order, with their names and sizes (names as in C39); the usage is the place of
    everything the tool wrote, up to the padding of the last file. *)
Theorem C45_directory_partial : forall files size image s s1 l0, directory files -> Forall (fun f => size_of (src_name f) <= 63) files ->
  create files size = Packed image -> installed s image -> erfs_begin s = (s1, true, l0) ->
  ((forall before f after, files = before ++ f :: after -> name_at files before + 63 <= fs_size s) ->
   exists l, erfs_list s1 = Some (map (fun f => (src_name f, size_of (src_data f))) files, l)) /\
  forall j, exists used l, erfs_info s1 j = (fs_size s, used, l) /\ image_end files - 3 <= used <= image_end files.
Proof. exact c45. Qed.
Print Assumptions C45_directory_partial.
Example C45_case : exists l l', erfs_list (mount_of (device (image_of two_files 256))) = Some ([(str "index.html", 18); (str "js/app.js", 10)], l) /\
  erfs_info (mount_of (device (image_of two_files 256))) [] = (256, 98, l').
Proof. do 2 eexists. split; vm_compute; reflexivity. Qed.
(** C45 fails near the end of the partition: the name of the first file is listed twice. *)
Theorem C45_end_of_partition_refuted : exists files size image s s1 l0 l, directory files /\ create files size = Packed image /\ installed s image /\
  erfs_begin s = (s1, true, l0) /\ map src_name files = [repeat 97 56; str "b"] /\
  erfs_list s1 = Some ([(repeat 97 56, 1); (repeat 97 56, 1)], l).
Proof.
  exists stale_pair, 116, (image_of stale_pair 116), (device (image_of stale_pair 116)), (mount_of (device (image_of stale_pair 116))). do 2 eexists.
  split; [exact stale_directory|]. split; [vm_compute; reflexivity|]. split; [apply device_installed; vm_compute; reflexivity|].
  split; [apply begins; vm_compute; reflexivity|]. split; [reflexivity|]. vm_compute. reflexivity.
Qed.
Print Assumptions C45_end_of_partition_refuted.
(** C45: any series of calls on the root directory of an image made by the tool - next, rewind, name, size, date, opening the current
    file and using it - answers what the list of the packed files says (names as in C39). Before the first next and after rewind there
    is no current file; at the end the last one stays the current one. *)
Theorem C45_walk_partial : forall files size image s s1 l0, directory files -> Forall (fun f => size_of (src_name f) <= 63) files ->
  create files size = Packed image -> installed s image -> erfs_begin s = (s1, true, l0) ->
  (forall before f after, files = before ++ f :: after -> name_at files before + 63 <= fs_size s) ->
  exists d, erfs_open_dir (str "/") = Some d /\ forall cs, Forall sensible_walk cs -> walk s1 d cs = Some (walked files 0 cs).
Proof. exact c45_walk. Qed.
Print Assumptions C45_walk_partial.
Example C45_ex_walk : let cs := [Name; IsFile; Next; Name; Size; Rewind; OpenFile true no_junk (repeat 0 260) []; Next; Next; Next; Name;
    OpenFile true no_junk (repeat 0 260) [Read 0 (repeat 0 4) 4]; OpenFile false no_junk (repeat 0 260) []] in
  Forall sensible_walk cs /\ walk (mount_of (device (image_of two_files 256))) dir_open cs =
  Some [Words []; Yes false; Yes true; Words (str "index.html"); Number 18; Yes true; NoFile; Yes true; Yes true; Yes false; Words (str "js/app.js");
    AFile (str "js/app.js") (str "app.js") 10 (src_time (nth 1 two_files (mk_source [] [] 0))) [(Got 4 (str "let "), 4)]; NoFile].
Proof. cbv zeta. split; [|vm_compute; reflexivity]. repeat constructor; cbn; lia. Qed.
(** No other directory is opened. *)
Theorem C45_other_directory : forall path, path <> str "/" -> erfs_open_dir path = None.
Proof. exact c45_other_dir. Qed.
Print Assumptions C45_other_directory.
Example C45_ex_other : erfs_open_dir (str "/js") = None /\ erfs_open_dir [] = None.
Proof. split; reflexivity. Qed.
