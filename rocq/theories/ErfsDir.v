(** Model of the remaining calls on directories and names, src/ERFS.cpp:156-227 and 305-327. *)
From Coq Require Import ZArith List Bool.
From Verif Require Import Base Erfs.
Import ListNotations.
Open Scope Z_scope.

(** ERFSImpl::openDir, src/ERFS.cpp:308-315: only the root, written "/". [path]: a C string without its final NUL. *)
Definition erfs_open_dir (path : list Z) : option edir := if beq path [47] then Some dir_open else None.
(** ERFSImpl::open, src/ERFS.cpp:317-333. [reading]: the mode is OM_DEFAULT and AM_READ ("r"); any other one gives no file. *)
Definition erfs_open_mode (s : erfs) (reading : bool) (path : list Z) (j : junk) : option (option efile * accesses) :=
  if reading then erfs_open s path j else Some (None, []).
(** rewind(), fileTime(), openFile(): src/ERFS.cpp:216-220, 187-190, 168-175 *)
Definition dir_rewind (d : edir) : edir := mk_edir (ed_rec d) (ed_name d) 0.
Definition dir_time (s : erfs) (d : edir) : Z := if dir_valid s d then rec_time (ed_rec d) else 0.
Definition dir_file (s : erfs) (d : edir) (reading : bool) (j : junk) : option (option efile * accesses) :=
  if dir_valid s d then n <- cstr_from (ed_name d) ;; erfs_open_mode s reading n j else Some (None, []).
