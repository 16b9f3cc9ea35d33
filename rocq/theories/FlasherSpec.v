(** Specification of an update down to the flash memory. *)
From Coq Require Import ZArith List Bool Lia.
From Verif Require Import Base Web Device Erfs Flasher.
Import ListNotations.
Open Scope Z_scope.

(** Layouts that make sense: the buffer is a part of a sector; the partition is made of whole sectors and comes after the program. *)
Definition sound_layout (l : layout) : Prop :=
  0 < ly_buffer l /\ (exists n, 0 < n /\ ly_sector l = n * ly_buffer l) /\ ly_fs l mod ly_sector l = 0 /\ ly_fs_size l mod ly_sector l = 0 /\
  0 < ly_sketch l <= ly_fs l /\ 0 < ly_fs_size l /\ ly_fs l + ly_fs_size l < 2147483648.
Definition in_partition (l : layout) (i : Z) : Prop := ly_fs l <= i < ly_fs l + ly_fs_size l.
Definition is_octet (b : Z) : Prop := 0 <= b < 256.
(** The partition as the program finds it when it starts. *)
Definition partition (l : layout) (m : Z -> Z) : erfs := mk_erfs (ly_fs l) (ly_fs_size l) 0 m.
(** Whether a file is for the file system *)
Definition for_site (name : list Z) : Prop := exists x y, name = x ++ str "fs.bin" ++ y.
(** A file posted in pieces, whole *)
Definition whole (name : list Z) (len : Z) (a : around) (pieces : list (around * list Z)) (a' : around) : list (around * part) :=
  (a, Begins name len) :: map (fun p => (fst p, Piece (snd p))) pieces ++ [(a', Ends)].
(** The beginning of a file, then nothing (a power cut), or an interruption *)
Definition begun (name : list Z) (len : Z) (a : around) (pieces : list (around * list Z)) : list (around * part) :=
  (a, Begins name len) :: map (fun p => (fst p, Piece (snd p))) pieces.
(** What the web server gives: pieces of bytes that are not empty, lengths that are not negative. *)
Definition fair (p : around * part) : Prop :=
  match snd p with Begins _ len => 0 <= len /\ 0 <= a_fs_size (fst p) | Piece data => data <> [] /\ Forall is_octet data | _ => True end.
