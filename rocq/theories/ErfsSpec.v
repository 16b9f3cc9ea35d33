(** Specification of the file system image: where each thing is. *)
From Coq Require Import ZArith List Bool Lia.
From Verif Require Import Base Erfs.
Import ListNotations.
Open Scope Z_scope.

(** Next multiple of 4 *)
Definition round4 (n : Z) : Z := (n + 3) / 4 * 4.
Definition sum (l : list Z) : Z := fold_right Z.add 0 l.
Definition name_room (f : source) : Z := round4 (size_of (src_name f) + 1).
Definition data_room (f : source) : Z := round4 (size_of (src_data f)).

(** Positions in the image: the header (8 bytes), the hashes (2 bytes each, together rounded), the records (16 bytes each), the
    names (each with a final NUL and rounded), the contents (each rounded). [before]: the files packed before this one. *)
Definition names_start (files : list source) : Z := 8 + round4 (2 * size_of files) + 16 * size_of files.
Definition name_at (files before : list source) : Z := names_start files + sum (map name_room before).
Definition data_at (files before : list source) : Z := names_start files + sum (map name_room files) + sum (map data_room before).
Definition image_end (files : list source) : Z := data_at files files.

(** What a directory gives: distinct names, not empty, without NUL, not starting with a slash; bytes; dates after 1970. *)
Definition regular (f : source) : Prop :=
  src_name f <> [] /\ Forall (fun c => 0 < c < 256) (src_name f) /\ hd 0 (src_name f) <> 47 /\ bytes (src_data f) /\ 0 <= src_time f.
Definition directory (files : list source) : Prop := Forall regular files /\ NoDup (map src_name files).

(** The partition begins with the image, the rest of the flash memory (less than 2 GB) is unknown; nothing is
    mounted. *)
Definition installed (s : erfs) (image : list Z) : Prop :=
  0 <= fs_start s /\ fs_start s + fs_size s < 2147483648 /\ size_of image <= fs_size s /\ fs_files s = 0 /\
  forall i, 0 <= i < size_of image -> fs_flash s (fs_start s + i) = nth (Z.to_nat i) image 0.

(** The accesses are inside the partition. *)
Definition inside (s : erfs) (l : accesses) : Prop :=
  Forall (fun a => fs_start s <= fst a /\ 0 <= snd a /\ fst a + snd a <= fs_start s + fs_size s) l.

(** Calls made on an open file: read(buffer, size) with the address and the former content of the buffer; seek(offset, mode). *)
Inductive call := Read (buf_addr : Z) (buf : list Z) (size : Z) | Seek (offset : Z) (mode : seek_mode).
(** The result of read() with the new content of the buffer, the result of seek(). *)
Inductive answer := Got (n : Z) (buf : list Z) | Sought (ok : bool).
(** A series of calls: the answers, with position() after each one. *)
Fixpoint session (s : erfs) (buf32 : list Z) (f : efile) (calls : list call) : option (list (answer * Z) * accesses) :=
  match calls with
  | [] => Some ([], [])
  | Read a buf n :: r =>
      '(m, buf', buf32', f', l) <- erfs_read s a buf n buf32 f ;; '(rs, l') <- session s buf32' f' r ;; Some ((Got m buf', ef_pos f') :: rs, l ++ l')
  | Seek o mode :: r =>
      let '(f', ok) := erfs_seek (u32 o) mode f in
      '(rs, l') <- session s buf32 f' r ;; Some ((Sought ok, ef_pos f') :: rs, l')
  end.
(** The calls that make sense: the buffer is large enough (and small enough to exist); relative offsets have a sign. *)
Definition sensible (c : call) : Prop :=
  match c with
  | Read a buf n => 0 <= n <= size_of buf /\ size_of buf < 2147483648
  | Seek o SeekCur => -2147483648 <= o < 2147483648
  | Seek o _ => 0 <= o < 4294967296
  end.

(** What the calls must answer, for a file with this content, from position [pos]: the next bytes, as many as possible; a
    seek inside the content (at its end too with SeekEnd) succeeds. *)
Fixpoint expected (content : list Z) (pos : Z) (calls : list call) : list (answer * Z) :=
  match calls with
  | [] => []
  | Read a buf n :: r =>
      let p := firstn (Z.to_nat n) (skipn (Z.to_nat pos) content) in
      (Got (size_of p) (p ++ skipn (length p) buf), pos + size_of p) :: expected content (pos + size_of p) r
  | Seek o mode :: r =>
      let target := match mode with SeekSet => o | SeekCur => pos + o | SeekEnd => size_of content - o end in
      let ok := (0 <=? target) && match mode with SeekEnd => target <=? size_of content | _ => target <? size_of content end in
      let pos := if ok then target else pos in
      (Sought ok, pos) :: expected content pos r
  end.
