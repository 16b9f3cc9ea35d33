(** Model of the read-only file system: image builder mkerfs32.py, src/ERFS.cpp. *)
From Coq Require Import ZArith List Bool Lia.
From Verif Require Import Base.
Import ListNotations.
Open Scope Z_scope.

Definition size_of {A} (l : list A) : Z := Z.of_nat (length l).

(** ** The image builder *)

(** A file of the data directory: name relative to the directory (encoded), content, int(st_mtime). st_size is the length of
    the content (the file does not change between stat() and read_bytes()). *)
Record source := mk_source { src_name : list Z; src_data : list Z; src_time : Z }.

(** align32, mkerfs32.py:82-86 (Python integers) *)
Definition py_align32 (i : Z) : Z := if Z.land i 3 =? 0 then i else Z.lor i 3 + 1.

(** struct.pack "<H" and "<I": [None] is struct.error *)
Definition pack_H (v : Z) : option (list Z) := if (0 <=? v) && (v <? 65536) then Some [v mod 256; v / 256] else None.
Definition pack_I (v : Z) : option (list Z) :=
  if (0 <=? v) && (v <? 4294967296) then Some [v mod 256; v / 256 mod 256; v / 65536 mod 256; v / 16777216] else None.

(** The name hash, mkerfs32.py:139-143 *)
Definition py_hash (name : list Z) : Z := Z.land (fold_left (fun h c => (h + c) * 2) name 0) 65535.

(** total_size, mkerfs32.py:103-119 *)
Definition total_size (files : list source) : Z :=
  py_align32 (fold_left (fun t f => t + (2 + 16 + py_align32 (size_of (src_name f) + 1) + py_align32 (size_of (src_data f)))) files 8).

(** The loops of mkerfs32.py:139-177: hash table, FAT, names, contents *)
Fixpoint hash_table (files : list source) : option (list Z) :=
  match files with
  | [] => Some []
  | f :: r => h <- pack_H (py_hash (src_name f)) ;; t <- hash_table r ;; Some (h ++ t)
  end.
Fixpoint fat_table (files : list source) (names_ptr data_ptr : Z) : option (list Z) :=
  match files with
  | [] => Some []
  | f :: r =>
      a <- pack_I names_ptr ;; b <- pack_I data_ptr ;; c <- pack_I (size_of (src_data f)) ;; d <- pack_I (src_time f) ;;
      t <- fat_table r (names_ptr + py_align32 (size_of (src_name f) + 1)) (data_ptr + py_align32 (size_of (src_data f))) ;;
      Some (a ++ b ++ c ++ d ++ t)
  end.
Definition zeros (n : Z) : list Z := repeat 0 (Z.to_nat n).
Definition name_table (files : list source) : list Z :=
  flat_map (fun f => src_name f ++ zeros (py_align32 (size_of (src_name f) + 1) - size_of (src_name f))) files.
Definition data_table (files : list source) : list Z :=
  flat_map (fun f => src_data f ++ zeros (py_align32 (size_of (src_data f)) - size_of (src_data f))) files.

(** All that is written before truncate(), mkerfs32.py:130-177 *)
Definition written (files : list source) : option (list Z) :=
  n <- pack_H (size_of files) ;;
  hashes <- hash_table files ;;
  let names_ptr := 8 + py_align32 (2 * size_of files) + 16 * size_of files in
  let names_len := fold_left (fun t f => t + py_align32 (size_of (src_name f) + 1)) files 0 in
  fat <- fat_table files names_ptr (names_ptr + names_len) ;;
  Some (str "ERFS" ++ [3; 2] ++ n ++ hashes ++ (if Z.odd (size_of files) then [0; 0] else []) ++ fat ++ name_table files ++ data_table files).

(** create, mkerfs32.py:89-186, with the size already read. [TooSmall n]: exit(2) with "missing n bytes"; [PackError]:
    uncaught struct.error (an incomplete file remains); [Packed image]: the final content of the image file (truncate cuts or
    fills with zeros). *)
Inductive created := TooSmall (missing : Z) | PackError | Packed (image : list Z).
Definition create (files : list source) (size : Z) : created :=
  if size <? total_size files then TooSmall (total_size files - size)
  else match written files with
       | None => PackError
       | Some w => Packed (firstn (Z.to_nat size) w ++ zeros (size - size_of w))
       end.

(** ** The firmware *)

(** align32, src/ERFS.cpp:71-81 *)
Definition align32 (n : Z) : Z := if Z.land n 3 =? 0 then n else u32 (Z.lor n 3 + 1).

(** ERFSImpl: FS_PHYS_ADDR, FS_PHYS_SIZE, the number of files; [flash] is the content of the flash memory. *)
Record erfs := mk_erfs { fs_start : Z; fs_size : Z; fs_files : Z; fs_flash : Z -> Z }.

(** The accesses to the flash memory: address and number of bytes. *)
Definition accesses := list (Z * Z).

(** [n] bytes of flash at [addr]: flash_hal_read, from the SDK, supposed never to fail and to copy exactly [n] bytes. *)
Definition flash_bytes (fl : Z -> Z) (addr n : Z) : list Z := map (fun i => fl (addr + Z.of_nat i)) (seq 0 (Z.to_nat n)).

(** hal_read, src/ERFS.cpp:105-114: [None] if refused (the destination is not written). *)
Definition hal_read (s : erfs) (addr size : Z) : option (list Z) * accesses :=
  if u32 (addr + size) >? fs_size s then (None, [])
  else (Some (flash_bytes (fs_flash s) (u32 (fs_start s + addr)) size), [(u32 (fs_start s + addr), size)]).
(** The callers ignore the result: the destination keeps its content [old] when the read is refused (reads shorter than the
    destination overwrite its beginning). *)
Definition read_into (s : erfs) (addr size : Z) (old : list Z) : list Z * accesses :=
  match hal_read s addr size with
  | (Some b, l) => (b ++ skipn (length b) old, l)
  | (None, l) => (old, l)
  end.

(** Little-endian words *)
Definition word16 (b : list Z) : Z := nth 0 b 0 + 256 * nth 1 b 0.
Definition word32 (b : list Z) : Z := nth 0 b 0 + 256 * nth 1 b 0 + 65536 * nth 2 b 0 + 16777216 * nth 3 b 0.
(** FATRecord, src/ERFS.cpp:60-66, on its 16 bytes *)
Definition rec_name (r : list Z) : Z := word32 r.
Definition rec_data (r : list Z) : Z := word32 (skipn 4 r).
Definition rec_len (r : list Z) : Z := word32 (skipn 8 r).
Definition rec_time (r : list Z) : Z := word32 (skipn 12 r).

(** ERFSImpl::begin, src/ERFS.cpp:231-250 *)
Definition erfs_begin (s : erfs) : erfs * bool * accesses :=
  match hal_read s 0 8 with
  | (None, l) => (s, false, l)
  | (Some h, l) =>
      if (word32 h =? 1397117509) && (nth 4 h 0 =? 3) && (nth 5 h 0 =? 2) then
        (mk_erfs (fs_start s) (fs_size s) (word16 (skipn 6 h)) (fs_flash s), true, l)
      else (s, false, l)
  end.

(** Address of the FAT: sizeof(ERFSHeader) + align32(2 * num_files) *)
Definition fat_addr (s : erfs) : Z := u32 (8 + align32 (2 * fs_files s)).

(** strncmp(a, b, k) == 0; [None]: read outside one of the arrays *)
Fixpoint strncmp_eq (k : nat) (a b : list Z) : option bool :=
  match k with
  | O => Some true
  | S k' => match a, b with
            | x :: a', y :: b' => if x =? y then (if x =? 0 then Some true else strncmp_eq k' a' b') else Some false
            | _, _ => None
            end
  end.

(** name_hash, src/ERFS.cpp:344-349 (uint16_t) *)
Definition name_hash (path : list Z) : Z := fold_left (fun h c => u16 (2 * u16 (h + c))) path 0.

(** An open file: record_, name_, pos_. *)
Record efile := mk_efile { ef_rec : list Z; ef_name : list Z; ef_pos : Z }.

(** The search loop of the constructor of ERFSFileImpl, src/ERFS.cpp:353-376: [n] files remain from index [i]. [cache]: the 16
    bytes of hash_cache; [rec], [name]: record_ and name_. *)
Fixpoint search (s : erfs) (path : list Z) (n : nat) (i : Z) (cache rec name : list Z) : option (option efile * accesses) :=
  match n with
  | O => Some (None, [])
  | S n' =>
      let '(cache, l1) := if i mod 8 =? 0 then read_into s (u32 (8 + i * 2)) 16 cache else (cache, []) in
      if name_hash path =? word16 (skipn (Z.to_nat (2 * (i mod 8))) cache) then
        let '(rec, l2) := read_into s (u32 (fat_addr s + 16 * i)) 16 rec in
        let '(name, l3) := read_into s (rec_name rec) 63 name in
        eq <- strncmp_eq 64 name (path ++ [0]) ;;
        if eq then Some (Some (mk_efile rec name 0), l1 ++ l2 ++ l3)
        else '(r, l) <- search s path n' (i + 1) cache rec name ;; Some (r, l1 ++ l2 ++ l3 ++ l)
      else '(r, l) <- search s path n' (i + 1) cache rec name ;; Some (r, l1 ++ l)
  end.
(** The initial content of hash_cache and record_, which the constructor does not initialize. *)
Record junk := mk_junk { j_cache : list Z; j_rec : list Z }.
(** Constructor, src/ERFS.cpp:329-377, and ERFSImpl::open, ERFSImpl::exists (:295-327), for a path given as a C string, in
    read mode: [Some None] when the file is not found. *)
Definition erfs_open (s : erfs) (path : list Z) (j : junk) : option (option efile * accesses) :=
  let path := match path with 47 :: p => p | _ => path end in
  search s path (Z.to_nat (fs_files s)) 0 (j_cache j) (j_rec j) (repeat 0 64).
Definition erfs_exists (s : erfs) (path : list Z) (j : junk) : option bool :=
  '(r, l) <- erfs_open s path j ;; Some (match r with Some _ => true | None => false end).

(** size(), getLastWrite(), fullName(), name(), position(): src/ERFS.cpp:133-150 *)
Definition ef_size (f : efile) : Z := rec_len (ef_rec f).
Definition ef_time (f : efile) : Z := rec_time (ef_rec f).
Definition ef_full_name (f : efile) : option (list Z) := cstr_from (ef_name f).
Fixpoint after_slash (s : list Z) (best : list Z) : list Z :=
  match s with [] => best | c :: r => after_slash r (if c =? 47 then r else best) end.
Definition ef_short_name (f : efile) : option (list Z) := n <- cstr_from (ef_name f) ;; Some (after_slash n n).

(** ERFSFileImpl::seek, src/ERFS.cpp:379-406 *)
Inductive seek_mode := SeekSet | SeekCur | SeekEnd.
Definition at_pos (f : efile) (p : Z) : efile := mk_efile (ef_rec f) (ef_name f) p.
Definition erfs_seek (pos : Z) (mode : seek_mode) (f : efile) : efile * bool :=
  match mode with
  | SeekSet => if pos <? ef_size f then (at_pos f pos, true) else (f, false)
  | SeekCur => if u32 (pos + ef_pos f) <? ef_size f then (at_pos f (u32 (ef_pos f + pos)), true) else (f, false)
  | SeekEnd => if pos <=? ef_size f then (at_pos f (u32 (ef_size f - pos)), true) else (f, false)
  end.

(** Write [b] at [off] in the array [m]; [None] outside. *)
Definition put (m : list Z) (off : Z) (b : list Z) : option (list Z) :=
  if off + size_of b <=? size_of m then Some (splice (Z.to_nat off) b m) else None.

(** The copy loop of ERFSFileImpl::read, src/ERFS.cpp:432-450. [buf], [off]: the destination and how far it is filled; [buf32]:
    the static intermediate buffer. [fuel]: number of passes; exhaustion is [None] (it does not happen). *)
Fixpoint read_loop (fuel : nat) (s : erfs) (addr remain : Z) (buf : list Z) (off : Z) (buf32 : list Z) : option (list Z * list Z * accesses) :=
  if remain =? 0 then Some (buf, buf32, [])
  else match fuel with
       | O => None
       | S k =>
           let align := 4 - u32 (align32 addr - addr) in
           let chunk := if remain >? 256 then 256 else remain in
           let '(got, l1) := hal_read s addr chunk in
           buf32 <- (match got with Some b => put buf32 align b | None => Some buf32 end) ;;
           buf <- put buf off (slice (Z.to_nat align) (Z.to_nat chunk) buf32) ;;
           '(buf, buf32, l) <- read_loop k s (u32 (addr + chunk)) (remain - chunk) buf (off + chunk) buf32 ;;
           Some (buf, buf32, l1 ++ l)
       end.
(** ERFSFileImpl::read, src/ERFS.cpp:408-456, for an open file and a buffer that is not null; [buf_addr]: its address, [buf]: its
    content. *)
Definition erfs_read (s : erfs) (buf_addr : Z) (buf : list Z) (size : Z) (buf32 : list Z) (f : efile)
  : option (Z * list Z * list Z * efile * accesses) :=
  if size =? 0 then Some (0, buf, buf32, f, [])
  else
    let size := if u32 (ef_pos f + size) >? ef_size f then u32 (ef_size f - ef_pos f) else size in
    let addr := u32 (rec_data (ef_rec f) + ef_pos f) in
    '(buf, buf32, l) <-
      (if Z.land addr 3 =? Z.land buf_addr 3 then
         let '(got, l) := hal_read s addr size in
         buf <- (match got with Some b => put buf 0 b | None => Some buf end) ;; Some (buf, buf32, l)
       else read_loop (Z.to_nat (size / 256 + 1)) s addr size buf 0 buf32) ;;
    Some (size, buf, buf32, at_pos f (u32 (ef_pos f + size)), l).

(** ERFSDirImpl, src/ERFS.cpp:159-227. [ed_index] is a uint16_t. *)
Record edir := mk_edir { ed_rec : list Z; ed_name : list Z; ed_index : Z }.
Definition dir_open : edir := mk_edir (repeat 0 16) (repeat 0 64) 0.
Definition dir_next (s : erfs) (d : edir) : edir * bool * accesses :=
  if ed_index d <? fs_files s then
    let '(rec, l1) := read_into s (u32 (fat_addr s + 16 * ed_index d)) 16 (ed_rec d) in
    let '(name, l2) := read_into s (rec_name rec) 63 (ed_name d) in
    (mk_edir rec name (u16 (ed_index d + 1)), true, l1 ++ l2)
  else (d, false, []).
Definition dir_valid (s : erfs) (d : edir) : bool := negb (ed_index d =? 0) && (ed_index d <=? fs_files s).
Definition dir_name (s : erfs) (d : edir) : option (list Z) := if dir_valid s d then cstr_from (ed_name d) else Some [].
Definition dir_size (s : erfs) (d : edir) : Z := if dir_valid s d then rec_len (ed_rec d) else 0.
(** The loop of fs_get_json and fs_ls (src/filesystem.cpp:26-35, 54-59): names and sizes until next() fails. [fuel]: number of
    calls; exhaustion is [None] (it does not happen). *)
Fixpoint dir_list (fuel : nat) (s : erfs) (d : edir) : option (list (list Z * Z) * accesses) :=
  match fuel with
  | O => None
  | S k =>
      match dir_next s d with
      | (_, false, l) => Some ([], l)
      | (d, true, l) => n <- dir_name s d ;; '(r, l') <- dir_list k s d ;; Some ((n, dir_size s d) :: r, l ++ l')
      end
  end.
Definition erfs_list (s : erfs) : option (list (list Z * Z) * accesses) := dir_list (S (Z.to_nat (fs_files s))) s dir_open.

(** ERFSImpl::info, src/ERFS.cpp:257-281: total and used bytes. [junk_rec]: the local variable record, not initialized. *)
Definition erfs_info (s : erfs) (junk_rec : list Z) : Z * Z * accesses :=
  if fs_files s >? 0 then
    let '(rec, l) := read_into s (u32 (fat_addr s + 16 * (fs_files s - 1))) 16 junk_rec in
    (fs_size s, u32 (rec_data rec + rec_len rec), l)
  else (fs_size s, 8, []).
