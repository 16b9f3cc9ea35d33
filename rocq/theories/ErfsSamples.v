(** Concrete file systems for the examples. *)
From Coq Require Import ZArith List Bool Lia ZifyBool.
From Verif Require Import Base Erfs ErfsSpec.
Import ListNotations.
Open Scope Z_scope.

(** A flash memory with the image at [start] and 255 elsewhere. *)
Definition flash_with (start : Z) (image : list Z) (i : Z) : Z :=
  if (start <=? i) && (i <? start + size_of image) then nth (Z.to_nat (i - start)) image 0 else 255.
Definition device (image : list Z) : erfs := mk_erfs 4096 (size_of image) 0 (flash_with 4096 image).
Definition image_of (files : list source) (size : Z) : list Z := match create files size with Packed i => i | _ => [] end.

Definition two_files : list source :=
  [mk_source (str "index.html") (str "<html>hello</html>") 1580000000; mk_source (str "js/app.js") (str "let x = 1;") 1580000001].
Definition one_tiny : list source := [mk_source (str "a") (str "x") 1].
Definition a64 : list source := [mk_source (repeat 97 64) (str "x") 1].
Definition hash0 : list source := [mk_source (str "ppppppppqqqpppp") (str "x") 1].
Definition stale_pair : list source := [mk_source (repeat 97 56) (str "x") 1; mk_source (str "b") (str "y") 2].

Lemma device_installed : forall image, size_of image < 2147479552 -> installed (device image) image.
Proof.
  intros image H. unfold installed, device, size_of in *. cbn [fs_start fs_size fs_files fs_flash]. repeat split; try lia.
  intros i I. unfold flash_with, size_of. replace ((4096 <=? 4096 + i) && (4096 + i <? 4096 + Z.of_nat (length image))) with true by lia.
  f_equal. lia.
Qed.
(** An image that nobody built: one file "a" whose data pointer is 2^32 - 16. *)
Definition evil : list Z :=
  str "ERFS" ++ [3; 2; 1; 0] ++ [194; 0; 0; 0] ++ [28; 0; 0; 0] ++ [240; 255; 255; 255] ++ [32; 0; 0; 0] ++ [0; 0; 0; 0] ++ str "a" ++ repeat 0 99.
Definition no_junk : junk := mk_junk (repeat 0 16) (repeat 0 16).
Definition mount_of (s : erfs) : erfs := fst (fst (erfs_begin s)).
Lemma regular_one : forall n d t, n <> [] -> forallb (fun c => (0 <? c) && (c <? 256)) n = true -> hd 0 n <> 47 ->
  forallb (fun c => (0 <=? c) && (c <? 256)) d = true -> 0 <= t -> regular (mk_source n d t).
Proof.
  intros n d t N F H D T. unfold regular. cbn [src_name src_data src_time]. rewrite forallb_forall in F, D. repeat split; auto; apply Forall_forall; intros x X.
  - specialize (F x X). lia.
  - specialize (D x X). unfold is_byte. lia.
Qed.
Ltac dir_case := split; [repeat (constructor; [apply regular_one; try discriminate; try reflexivity; lia|]); constructor|
  cbn [map src_name]; repeat (constructor; [let H := fresh in intros H; repeat (destruct H as [H|H]; [discriminate H|]); destruct H|]); constructor].
Lemma one_tiny_directory : directory one_tiny. Proof. dir_case. Qed.
Lemma a64_directory : directory a64. Proof. dir_case. Qed.
Lemma hash0_directory : directory hash0. Proof. dir_case. Qed.
Lemma stale_directory : directory stale_pair. Proof. dir_case. Qed.
Lemma two_directory : directory two_files. Proof. dir_case. Qed.
Lemma one_tiny_lost : forall c r, erfs_exists (mount_of (device (image_of one_tiny 36))) (str "/a") (mk_junk c r) = Some false.
Proof. intros. vm_compute. reflexivity. Qed.
Lemma a64_lost : forall c r, erfs_exists (mount_of (device (image_of a64 256))) (repeat 97 64) (mk_junk c r) = Some false.
Proof. intros. vm_compute. reflexivity. Qed.
Lemma a64_prefix : forall c r, erfs_exists (mount_of (device (image_of a64 256))) (repeat 97 63) (mk_junk c r) = Some true.
Proof. intros. vm_compute. reflexivity. Qed.
Lemma hash0_root : forall c r, erfs_exists (mount_of (device (image_of hash0 52))) (str "/") (mk_junk c r) = Some true.
Proof. intros. vm_compute. reflexivity. Qed.
Lemma begins : forall s l, snd (erfs_begin s) = l -> snd (fst (erfs_begin s)) = true -> erfs_begin s = (mount_of s, true, l).
Proof. intros s l L B. unfold mount_of. destruct (erfs_begin s) as [[s' b] l']. cbn in *. congruence. Qed.
