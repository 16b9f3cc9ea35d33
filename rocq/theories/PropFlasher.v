(** Property C113: a file sent through the update page, down to the flash memory (src/update.cpp, library Updater, src/ERFS.cpp). *)
From Coq Require Import ZArith List Bool Lia.
From Verif Require Import Base BaseFacts Publish Config ConfigSpec Erfs ErfsSpec Tic Pages PagesSamples Sse Cpu Web Device WebSpec WebProofs Site SiteSpec TicSamples WebSamples
  Flasher FlasherSpec FlasherMain FlasherFinal FlasherRepair FlasherFail FlasherShort.
From Verif Require ErfsSamples.
Import ListNotations.
Open Scope Z_scope.

(** A new site: the image of a directory, sent whole in any pieces, is accepted; the request that carried it has the module restarted; then the
    file system mounts and the home page and the static files are those of the new directory. Missing: the conditions of C39 on the names. *)
Theorem C113_site_partial : forall l name len a pieces a' s files image, sound_layout l -> for_site name -> a_fs_size a = ly_fs_size l -> up_size (mo_upd s) = 0 ->
  Forall (fun p => snd p <> [] /\ Forall is_octet (snd p)) pieces -> concat (map snd pieces) = image ->
  directory files -> Forall (fun f => size_of (src_name f) <= 63) files -> create files (ly_fs_size l) = Packed image ->
  (forall before f after, files = before ++ f :: after -> name_at files before + 63 <= ly_fs_size l) ->
  exists s' s1 l0, take_parts l (whole name len a pieces a') s =
      (s', UpdateBegin true (ly_fs_size l) :: map (fun p => UpdateWrite (snd p)) pieces ++ [UpdateEnd true; Reply 200 Text (str "OK")]) /\
    (forall fuel b q, q_uri q = str "/update" -> q_method q = POST -> fully_allowed q (mo_dev s') ->
      handle fuel b q (mo_dev s') = Done (mo_dev s', [RestartSoon])) /\
    erfs_begin (partition l (mo_flash s')) = (s1, true, l0) /\
    forall b, site_is s1 (a_site b) ->
    (forall fuel q d, q_uri q = str "/" -> fully_allowed q d -> handle fuel b q d = Done (d,
       [match packed files (str "index.html.gz"), packed files (str "index.html") with
        | Some c, _ => SendFile (str "/index.html.gz") c
        | None, Some c => SendFile (str "/index.html") c
        | None, None => Reply 304 Html link_to_update
        end])) /\
    (forall fuel q d name, q_method q = GET -> q_uri q = 47 :: name -> served_dir (q_uri q) -> ~ In (q_uri q) page_uris ->
      Forall (fun c => c <> 0) name ->
      match packed files name, packed files (name ++ str ".gz") with
      | Some c, _ => handle fuel b q d = Done (d, [SendFile (q_uri q) c])
      | None, Some c => handle fuel b q d = Done (d, [SendFile (q_uri q ++ str ".gz") c])
      | None, None => forall d' os p c, handle fuel b q d = Done (d', os) -> ~ In (SendFile p c) os
      end).
Proof. exact new_site. Qed.
Print Assumptions C113_site_partial.
(** Its image fills the partition exactly and nothing else changes; the decoding resumes and the update is ready to be used. *)
Theorem C113_image : forall l name len a pieces a' s image, sound_layout l -> for_site name -> a_fs_size a = ly_fs_size l -> up_size (mo_upd s) = 0 ->
  Forall (fun p => snd p <> [] /\ Forall is_octet (snd p)) pieces -> concat (map snd pieces) = image -> size_of image = ly_fs_size l ->
  exists s', take_parts l (whole name len a pieces a') s =
      (s', UpdateBegin true (ly_fs_size l) :: map (fun p => UpdateWrite (snd p)) pieces ++ [UpdateEnd true; Reply 200 Text (str "OK")]) /\
    (forall i, 0 <= i < ly_fs_size l -> mo_flash s' (ly_fs l + i) = nth (Z.to_nat i) image 0) /\
    (forall i, ~ in_partition l i -> mo_flash s' i = mo_flash s i) /\
    mo_dev s' = with_upload false true (mo_dev s) /\ up_size (mo_upd s') = 0.
Proof. exact site_written. Qed.
Print Assumptions C113_image.
(** A new program, of more than the buffer of the library, with an announced length that covers it and leaves room after the running program: it is
    written as received just before the partition; the running program, the partition and the settings do not change. *)
Theorem C113_program : forall l name len a pieces a' s file, sound_layout l -> ~ for_site name -> up_size (mo_upd s) = 0 ->
  Forall (fun p => snd p <> [] /\ Forall is_octet (snd p)) pieces -> concat (map snd pieces) = file -> ly_buffer l < size_of file <= len ->
  rounded_up l len < ly_fs l -> ly_sketch l <= ly_fs l - rounded_up l len ->
  exists s', take_parts l (whole name len a pieces a') s =
      (s', UpdateBegin false len :: map (fun p => UpdateWrite (snd p)) pieces ++ [UpdateEnd true; Reply 200 Text (str "OK")]) /\
    (forall i, 0 <= i < size_of file -> mo_flash s' (ly_fs l - rounded_up l len + i) = nth (Z.to_nat i) file 0) /\
    (forall i, i < ly_fs l - rounded_up l len \/ ly_fs l <= i -> mo_flash s' i = mo_flash s i) /\
    mo_dev s' = with_upload false true (mo_dev s) /\ up_size (mo_upd s') = 0.
Proof. exact program_written. Qed.
Print Assumptions C113_program.
(** Whatever is posted (files of any kind, any lengths, interruptions at any time): the running program and what comes after the partition, the
    settings, do not change. *)
Theorem C113_rest : forall l ps s s' o, sound_layout l -> up_size (mo_upd s) = 0 -> Forall fair ps -> take_parts l ps s = (s', o) ->
  forall i, i < ly_sketch l \/ ly_fs l + ly_fs_size l <= i -> mo_flash s' i = mo_flash s i.
Proof. exact rest_kept. Qed.
Print Assumptions C113_rest.
(** Whatever is posted, without a file for the site: the site does not change. *)
Theorem C113_site_kept : forall l ps s s' o, sound_layout l -> up_size (mo_upd s) = 0 -> Forall fair ps -> (forall a name len, In (a, Begins name len) ps -> ~ for_site name) ->
  take_parts l ps s = (s', o) -> forall i, in_partition l i -> mo_flash s' i = mo_flash s i.
Proof. exact site_kept. Qed.
Print Assumptions C113_site_kept.
(** An update of the site that is interrupted is answered by FAIL; its beginning, less the buffer, is in the partition; what follows the sectors
    it reached is untouched. *)
Theorem C113_interrupted : forall l name len a pieces a' s, sound_layout l -> for_site name -> a_fs_size a = ly_fs_size l -> up_size (mo_upd s) = 0 ->
  Forall (fun p => snd p <> [] /\ Forall is_octet (snd p)) pieces -> size_of (concat (map snd pieces)) < ly_fs_size l ->
  exists s', take_parts l (begun name len a pieces ++ [(a', Aborts)]) s =
      (s', UpdateBegin true (ly_fs_size l) :: map (fun p => UpdateWrite (snd p)) pieces ++ [UpdateEnd false; Reply 200 Text (str "FAIL")]) /\
    (forall i, 0 <= i < size_of (concat (map snd pieces)) - ly_buffer l -> mo_flash s' (ly_fs l + i) = nth (Z.to_nat i) (concat (map snd pieces)) 0) /\
    (forall i, i < ly_fs l \/ rounded_up l (ly_fs l + size_of (concat (map snd pieces))) <= i -> mo_flash s' i = mo_flash s i) /\
    up_size (mo_upd s') = 0.
Proof. exact interrupted. Qed.
Print Assumptions C113_interrupted.

(** A small flash memory with the site of ErfsSamples. *)
Definition small : layout := mk_layout 64 16 4096 256 1024.
Lemma small_sound : sound_layout small.
Proof. unfold sound_layout, small. cbn [ly_sector ly_buffer ly_fs ly_fs_size ly_sketch]. repeat split; try lia; try reflexivity. exists 4. lia. Qed.
(** The layout eagle.flash.4m1m.ld (platformio.ini:26) with a program of 400 kB *)
Definition big : layout := mk_layout 4096 4096 3145728 1024000 409600.
Lemma big_sound : sound_layout big.
Proof. unfold sound_layout, big. cbn [ly_sector ly_buffer ly_fs ly_fs_size ly_sketch]. repeat split; try lia; try reflexivity. exists 1. lia. Qed.
Definition there (n : Z) : around := mk_around env0 5000 info1 [] [] (fun _ => None) Stored n.
Definition old_image : list Z := ErfsSamples.image_of ErfsSamples.two_files 256.
Definition before_update (d : device) : module := mk_module d (idle false) (ErfsSamples.flash_with 4096 old_image).

(** An interrupted update loses the site that was there. *)
Theorem C113_interrupted_refuted : exists l a s files image s1 l0, sound_layout l /\ up_size (mo_upd s) = 0 /\ a_fs_size a = ly_fs_size l /\ directory files /\
  create files (ly_fs_size l) = Packed image /\ installed (partition l (mo_flash s)) image /\ erfs_begin (partition l (mo_flash s)) = (s1, true, l0) /\
  exists piece s' o, take_parts l [(a, Begins (str "fs.bin") 300); (a, Piece piece); (a, Aborts)] s = (s', o) /\
    snd (fst (erfs_begin (partition l (mo_flash s')))) = false.
Proof.
  exists small, (there 256), (before_update dev_login), ErfsSamples.two_files, old_image, (ErfsSamples.mount_of (partition small (mo_flash (before_update dev_login)))). eexists.
  split; [exact small_sound|]. split; [reflexivity|]. split; [reflexivity|]. split; [exact ErfsSamples.two_directory|]. split; [vm_compute; reflexivity|].
  split; [apply (ErfsSamples.device_installed old_image); vm_compute; reflexivity|]. split; [apply ErfsSamples.begins; vm_compute; reflexivity|].
  exists (repeat 0 (Z.to_nat 40)). destruct (site_lost small (str "fs.bin") 300 (there 256) (there 256) (before_update dev_login) 40 small_sound) as (s' & T & M).
  - exists [], []. reflexivity.
  - reflexivity.
  - reflexivity.
  - cbn. lia.
  - exists s'. eexists. split; [exact T|exact M].
Qed.
Print Assumptions C113_interrupted_refuted.
(** The site is replaced before the client is known: one that is refused gets the page of refusal, after the partition has been written. *)
Theorem C113_anyone_refuted : exists d q, refused q d /\ q_uri q = str "/update" /\ q_method q = POST /\
  forall l name len a pieces a' m image, sound_layout l -> for_site name -> a_fs_size a = ly_fs_size l ->
    Forall (fun p => snd p <> [] /\ Forall is_octet (snd p)) pieces -> concat (map snd pieces) = image -> size_of image = ly_fs_size l ->
    exists s' o, take_parts l (whole name len a pieces a') (mk_module d (idle false) m) = (s', o) /\
      (forall i, 0 <= i < ly_fs_size l -> mo_flash s' (ly_fs l + i) = nth (Z.to_nat i) image 0) /\
      forall fuel b, handle fuel b q (mo_dev s') = Done (mo_dev s', [challenge]).
Proof.
  exists dev_login, (mk_hreq POST (str "/update") [] (fun _ _ => false) false).
  split; [split; [vm_compute; discriminate|reflexivity]|]. split; [reflexivity|]. split; [reflexivity|].
  intros l name len a pieces a' m image SL FS AS F CI SZ.
  destruct (site_written l name len a pieces a' (mk_module dev_login (idle false) m) image SL FS AS eq_refl F CI SZ) as (s' & T & M & _ & D & _).
  exists s'. eexists. split; [exact T|]. split; [exact M|]. rewrite D. reflexivity.
Qed.
Print Assumptions C113_anyone_refuted.

(** Real layouts are sound. In the small one: the image is cut in pieces of several sizes, across buffers and sectors; the module serves it afterwards;
    a program of 100 bytes in a request of 150 bytes is put before the partition. *)
Fixpoint cut (n : nat) (k : nat) (b : list Z) : list (list Z) :=
  match n, b with
  | _, [] => []
  | O, _ => [b]
  | S n', _ => firstn k b :: cut n' k (skipn k b)
  end.
Definition old_pieces : list (around * list Z) := map (fun p => (there 256, p)) (cut 6 37 old_image).
Definition after_update : module := fst (take_parts small (whole (str "image-fs.bin") 500 (there 256) old_pieces (there 256)) (mk_module dev_login (idle false) (fun i => i mod 251))).
Definition program100 : list Z := map (fun i => Z.of_nat i) (seq 0 100).
Definition after_program : module := fst (take_parts small (whole (str "firmware.bin") 150 (there 256) [(there 256, program100)] (there 256)) (mk_module dev_login (idle false) (fun i => i mod 251))).
Example C113_case : sound_layout small /\ sound_layout big /\ for_site (str "image-fs.bin") /\ ~ for_site (str "firmware.bin") /\
  forallb (fun p => negb (size_of (snd p) =? 0) && forallb (fun b => (0 <=? b) && (b <? 256)) (snd p)) old_pieces = true /\ concat (map snd old_pieces) = old_image /\
  length old_pieces = 7%nat /\
  create ErfsSamples.two_files 256 = Packed old_image /\
  stream_path (ErfsSamples.mount_of (partition small (mo_flash after_update))) ErfsSamples.no_junk 2 4 (repeat 0 260) (str "/js/app.js") = Some (Some (str "let x = 1;")) /\
  mo_flash after_update 4095 = 79 /\ mo_flash after_update 4352 = 85 /\
  map (fun i => mo_flash after_program (3904 + Z.of_nat i)) (seq 0 100) = program100 /\ mo_flash after_program 3903 = 138.
Proof.
  split; [exact small_sound|]. split; [exact big_sound|]. split; [exists (str "image-"), []; reflexivity|].
  split; [intros H; apply DevicePages.contains_iff in H; discriminate H|].
  repeat split; vm_compute; reflexivity.
Qed.

(** Whatever was posted before (any files, refused, cut short or too long, whatever state the library was in), provided that the last upload came to an end or
    was interrupted: the image of a site, sent whole, is accepted and fills the partition. A site that an interrupted update destroyed is so repaired. *)
Theorem C113_repair : forall l ps b p name len a pieces a' s image, sound_layout l -> p = Ends \/ p = Aborts -> for_site name -> a_fs_size a = ly_fs_size l ->
  Forall (fun p => snd p <> [] /\ Forall is_octet (snd p)) pieces -> concat (map snd pieces) = image -> size_of image = ly_fs_size l ->
  exists s' before, take_parts l ((ps ++ [(b, p)]) ++ whole name len a pieces a') s =
      (s', before ++ UpdateBegin true (ly_fs_size l) :: map (fun p => UpdateWrite (snd p)) pieces ++ [UpdateEnd true; Reply 200 Text (str "OK")]) /\
    (forall i, 0 <= i < ly_fs_size l -> mo_flash s' (ly_fs l + i) = nth (Z.to_nat i) image 0) /\
    up_size (mo_upd s') = 0.
Proof. exact repaired. Qed.
Print Assumptions C113_repair.
(** Three pieces of the image then an interruption: the site is lost; the whole image is sent again: the site is back. *)
Definition cut_short : list (around * part) := begun (str "image-fs.bin") 500 (there 256) (firstn 3 old_pieces).
Definition module0 : module := mk_module dev_login (idle false) (fun i => i mod 251).
Definition lost : module := fst (take_parts small (cut_short ++ [(there 256, Aborts)]) module0).
Definition mended : module := fst (take_parts small ((cut_short ++ [(there 256, Aborts)]) ++ whole (str "image-fs.bin") 500 (there 256) old_pieces (there 256)) module0).
Example C113_repair_case : size_of old_image = ly_fs_size small /\
  map (fun i => mo_flash lost (ly_fs small + Z.of_nat i)) (seq 0 256) <> old_image /\
  map (fun i => mo_flash mended (ly_fs small + Z.of_nat i)) (seq 0 256) = old_image.
Proof. split; [vm_compute; reflexivity|]. split; [vm_compute; discriminate|vm_compute; reflexivity]. Qed.

(** A file that does not fit (no partition or one too small, nothing announced, not enough room above the program): nothing is written, the answer is
    never OK, and the request that carried the file does not restart the module. *)
Theorem C113_refused : forall l name len a pieces a' s, 0 < ly_sketch l -> up_size (mo_upd s) = 0 ->
  for_site name /\ (a_fs_size a = 0 \/ ly_fs_size l < rounded_up l (a_fs_size a)) \/
  ~ for_site name /\ (len = 0 \/ ly_fs l - rounded_up l len < ly_sketch l) ->
  Forall (fun p => snd p <> []) pieces ->
  exists s' o, take_parts l (whole name len a pieces a') s = (s', o) /\ mo_flash s' = mo_flash s /\
    In (Reply 200 Text (str "FAIL")) o /\ ~ In (Reply 200 Text (str "OK")) o /\
    forall fuel b q, q_uri q = str "/update" -> q_method q = POST -> fully_allowed q (mo_dev s') -> handle fuel b q (mo_dev s') = Done (mo_dev s', []).
Proof. exact refused_whole. Qed.
Print Assumptions C113_refused.
Example C113_refused_case : 0 < ly_sketch small /\ up_size (mo_upd (before_update dev_login)) = 0 /\ ~ for_site (str "firmware.bin") /\
  ly_fs small - rounded_up small 4000000 < ly_sketch small.
Proof.
  split; [vm_compute; reflexivity|]. split; [reflexivity|]. split; [|vm_compute; reflexivity].
  intros S. apply site_contains in S. vm_compute in S. discriminate S.
Qed.
(** A file longer than what was announced: the answer is never OK and the module does not restart. *)
Theorem C113_too_long : forall l name len a pieces a' s size, (for_site name -> size = a_fs_size a) -> (~ for_site name -> size = len) -> 0 <= size ->
  up_size (mo_upd s) = 0 -> Forall (fun p => snd p <> []) pieces -> size < size_of (concat (map snd pieces)) ->
  exists s' o, take_parts l (whole name len a pieces a') s = (s', o) /\
    In (Reply 200 Text (str "FAIL")) o /\ ~ In (Reply 200 Text (str "OK")) o /\
    forall fuel b q, q_uri q = str "/update" -> q_method q = POST -> fully_allowed q (mo_dev s') -> handle fuel b q (mo_dev s') = Done (mo_dev s', []).
Proof. exact too_long. Qed.
Print Assumptions C113_too_long.
Example C113_too_long_case : ~ for_site (str "firmware.bin") /\ snd (take_parts small (whole (str "firmware.bin") 3 (there 256) [(there 256, [1; 2]); (there 256, [3; 4])] (there 256)) (before_update dev_login)) =
  [UpdateBegin false 3; UpdateWrite [1; 2]; UpdateWrite [3; 4]; UpdateEnd false; Reply 200 Text (str "FAIL"); UpdateEnd true; Reply 200 Text (str "FAIL")].
Proof. split; [intros S; apply site_contains in S; vm_compute in S; discriminate S | vm_compute; reflexivity]. Qed.
(** After a part that is answered FAIL, and until another file begins, the flash memory does not change, no part is answered OK, and the module does
    not restart. *)
Theorem C113_failed : forall l a p s s1 o1 ps s2 o2, take_part l a p s = (s1, o1) -> In (Reply 200 Text (str "FAIL")) o1 ->
  Forall (fun x => (forall name len, snd x <> Begins name len) /\ snd x <> Piece []) ps -> take_parts l ps s1 = (s2, o2) ->
  mo_flash s2 = mo_flash s1 /\ ~ In (Reply 200 Text (str "OK")) o2 /\
  forall fuel b q, q_uri q = str "/update" -> q_method q = POST -> fully_allowed q (mo_dev s2) -> handle fuel b q (mo_dev s2) = Done (mo_dev s2, []).
Proof. exact after_failure. Qed.
Print Assumptions C113_failed.
Example C113_failed_case : exists s1 o1, take_part small (there 256) (Begins (str "firmware.bin") 4000000) (before_update dev_login) = (s1, o1) /\
  In (Reply 200 Text (str "FAIL")) o1.
Proof. eexists. eexists. split; [reflexivity|]. right. right. left. reflexivity. Qed.

(** C113_program asks for a file longer than the buffer: with a smaller one nothing has been written when it ends, which the library takes as an
    error. Nothing is ever written and the module does not restart. *)
Theorem C113_small : forall l name len a pieces a' s, ~ for_site name -> up_size (mo_upd s) = 0 ->
  size_of (concat (map snd pieces)) <= ly_buffer l -> size_of (concat (map snd pieces)) < len ->
  rounded_up l len < ly_fs l -> ly_sketch l <= ly_fs l - rounded_up l len ->
  exists s', take_parts l (whole name len a pieces a') s =
      (s', UpdateBegin false len :: map (fun p => UpdateWrite (snd p)) pieces ++ [UpdateEnd true; Reply 200 Text (str "FAIL")]) /\
    mo_flash s' = mo_flash s /\
    forall fuel b q, q_uri q = str "/update" -> q_method q = POST -> fully_allowed q (mo_dev s') -> handle fuel b q (mo_dev s') = Done (mo_dev s', []).
Proof. exact small_file. Qed.
Print Assumptions C113_small.
Example C113_small_case : ~ for_site (str "firmware.bin") /\ size_of (concat [[1; 2]; [3; 4]]) <= ly_buffer small /\
  rounded_up small 300 < ly_fs small /\ ly_sketch small <= ly_fs small - rounded_up small 300.
Proof. split; [intros S; apply site_contains in S; vm_compute in S; discriminate S|]. repeat split; vm_compute; discriminate. Qed.

(** An image of the site shorter than the partition, of more than the buffer of the library: it is accepted as C113_image says of a whole one, the
    module restarts, and what follows the last sector written is still that of the former site. *)
Theorem C113_truncated : forall l name len a pieces a' s file, sound_layout l -> for_site name -> a_fs_size a = ly_fs_size l -> up_size (mo_upd s) = 0 ->
  Forall (fun p => snd p <> [] /\ Forall is_octet (snd p)) pieces -> concat (map snd pieces) = file -> ly_buffer l < size_of file <= ly_fs_size l ->
  exists s', take_parts l (whole name len a pieces a') s =
      (s', UpdateBegin true (ly_fs_size l) :: map (fun p => UpdateWrite (snd p)) pieces ++ [UpdateEnd true; Reply 200 Text (str "OK")]) /\
    (forall i, 0 <= i < size_of file -> mo_flash s' (ly_fs l + i) = nth (Z.to_nat i) file 0) /\
    (forall i, i < ly_fs l \/ rounded_up l (ly_fs l + size_of file) <= i -> mo_flash s' i = mo_flash s i) /\
    forall fuel b q, q_uri q = str "/update" -> q_method q = POST -> fully_allowed q (mo_dev s') -> handle fuel b q (mo_dev s') = Done (mo_dev s', [RestartSoon]).
Proof. exact truncated. Qed.
Print Assumptions C113_truncated.
Example C113_truncated_case : sound_layout small /\ for_site (str "fs.bin") /\ a_fs_size (there 256) = ly_fs_size small /\
  ly_buffer small < size_of (firstn 100 old_image) < ly_fs_size small.
Proof. split; [exact small_sound|]. split; [exists [], []; reflexivity|]. split; [reflexivity|]. vm_compute. split; reflexivity. Qed.
(** The content is not looked at: a file that is no image is accepted in the place of the site that was there, which is lost. *)
Theorem C113_unchecked_refuted : exists l a s files image s1 l0, sound_layout l /\ up_size (mo_upd s) = 0 /\ a_fs_size a = ly_fs_size l /\ directory files /\
  create files (ly_fs_size l) = Packed image /\ installed (partition l (mo_flash s)) image /\ erfs_begin (partition l (mo_flash s)) = (s1, true, l0) /\
  exists piece s' o, take_parts l [(a, Begins (str "fs.bin") 300); (a, Piece piece); (a, Ends)] s = (s', o) /\ In (Reply 200 Text (str "OK")) o /\
    (forall fuel b q, q_uri q = str "/update" -> q_method q = POST -> fully_allowed q (mo_dev s') -> handle fuel b q (mo_dev s') = Done (mo_dev s', [RestartSoon])) /\
    snd (fst (erfs_begin (partition l (mo_flash s')))) = false.
Proof.
  exists small, (there 256), (before_update dev_login), ErfsSamples.two_files, old_image, (ErfsSamples.mount_of (partition small (mo_flash (before_update dev_login)))). eexists.
  split; [exact small_sound|]. split; [reflexivity|]. split; [reflexivity|]. split; [exact ErfsSamples.two_directory|]. split; [vm_compute; reflexivity|].
  split; [apply (ErfsSamples.device_installed old_image); vm_compute; reflexivity|]. split; [apply ErfsSamples.begins; vm_compute; reflexivity|].
  exists (repeat 0 (Z.to_nat 40)). destruct (zeros_accepted small (str "fs.bin") 300 (there 256) (there 256) (before_update dev_login) 40 small_sound) as (s' & T & R & M).
  - exists [], []. reflexivity.
  - reflexivity.
  - reflexivity.
  - cbn. lia.
  - lia.
  - exists s'. eexists. split; [exact T|]. split; [right; right; right; left; reflexivity|]. split; [exact R|exact M].
Qed.
Print Assumptions C113_unchecked_refuted.
