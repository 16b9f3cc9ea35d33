(** Model of an update of the site or of the program by the update page, down to the flash memory: src/update.cpp:34-57, 101-174 over the
    library Updater of the ESP8266 core (not in /repo: modelled from its source as known, core 2.7, without signature nor MD5). *)
From Coq Require Import ZArith List Bool Lia.
From Verif Require Import Base Publish Config Tic Pages Sse Cpu Web Device Erfs.
Import ListNotations.
Open Scope Z_scope.

(** The flash memory: size of a sector (4096); size of the buffer of the library (4096, or 256 if memory is short); place and size of the
    partition of the file system; size of the running program, rounded to sectors. *)
Record layout := mk_layout { ly_sector : Z; ly_buffer : Z; ly_fs : Z; ly_fs_size : Z; ly_sketch : Z }.
(** The attributes of UpdaterClass: _size (0: nothing is running), _startAddress, _currentAddress, the buffer, hasError(). *)
Record updater := mk_updater { up_size : Z; up_start : Z; up_addr : Z; up_buf : list Z; up_error : bool }.
Definition idle (error : bool) : updater := mk_updater 0 0 0 [] error.
Definition rounded_up (l : layout) (n : Z) : Z := (n + ly_sector l - 1) / ly_sector l * ly_sector l.

(** begin *)
Definition up_begin (l : layout) (to_fs : bool) (size : Z) (u : updater) : updater * bool :=
  if 0 <? up_size u then (u, false)
  else if size =? 0 then (idle true, false)
  else
    let rounded := rounded_up l size in
    if to_fs then
      if ly_fs l + rounded >? ly_fs l + ly_fs_size l then (idle true, false)
      else (mk_updater size (ly_fs l) (ly_fs l) [] false, true)
    else
      let start := if ly_fs l >? rounded then ly_fs l - rounded else 0 in
      if start <? ly_sketch l then (idle true, false)
      else (mk_updater size start start [] false, true).

(** ESP.flashEraseSector of the sector that holds [addr], ESP.flashWrite: writing can only clear bits. Both are supposed to succeed; a length
    that is not a multiple of four is supposed to be written as it is. *)
Definition erase (l : layout) (addr : Z) (m : Z -> Z) : Z -> Z :=
  fun i => if i / ly_sector l =? addr / ly_sector l then 255 else m i.
Definition program (addr : Z) (b : list Z) (m : Z -> Z) : Z -> Z :=
  fun i => if (addr <=? i) && (i <? addr + size_of b) then Z.land (m i) (nth (Z.to_nat (i - addr)) b 0) else m i.
(** _writeBuffer *)
Definition flush (l : layout) (um : updater * (Z -> Z)) : updater * (Z -> Z) :=
  let '(u, m) := um in
  let m1 := if up_addr u mod ly_sector l =? 0 then erase l (up_addr u) m else m in
  (mk_updater (up_size u) (up_start u) (up_addr u + size_of (up_buf u)) [] (up_error u), program (up_addr u) (up_buf u) m1).
Definition progress (u : updater) : Z := up_addr u - up_start u.
(** write: the loop of the library fills the buffer and empties it when more is to come; the same thing is done here byte by byte. *)
Definition push (l : layout) (um : updater * (Z -> Z)) (b : Z) : updater * (Z -> Z) :=
  let '(u, m) := if size_of (up_buf (fst um)) =? ly_buffer l then flush l um else um in
  (mk_updater (up_size u) (up_start u) (up_addr u) (up_buf u ++ [b]) (up_error u), m).
Definition up_write (l : layout) (data : list Z) (um : updater * (Z -> Z)) : updater * (Z -> Z) * bool :=
  let '(u, m) := um in
  if up_error u || (up_size u =? 0) then (um, match data with [] => true | _ => false end)
  else if progress u + size_of (up_buf u) + size_of data >? up_size u then
    (mk_updater (up_size u) (up_start u) (up_addr u) (up_buf u) true, m, false)
  else
    let um1 := fold_left (push l) data um in
    (if size_of (up_buf (fst um1)) =? up_size (fst um1) - progress (fst um1) then flush l um1 else um1, true).
(** end *)
Definition up_end (l : layout) (even : bool) (um : updater * (Z -> Z)) : updater * (Z -> Z) * bool :=
  let '(u, m) := um in
  if up_size u =? 0 then (um, false)
  else
    let error := up_error u || (progress u =? 0) in
    if error || (negb (progress u =? up_size u) && negb even) then (idle error, m, false)
    else (idle error, snd (if even && (0 <? size_of (up_buf u)) then flush l um else um), true).

(** The parts of a file posted to /update, as the web server gives them: its name and the length announced, pieces, the end or an interruption. *)
Inductive part := Begins (name : list Z) (len : Z) | Piece (data : list Z) | Ends | Aborts.
(** The handler of src/update.cpp with the answers of the library. *)
Record module := mk_module { mo_dev : device; mo_upd : updater; mo_flash : Z -> Z }.
Definition take_part (l : layout) (a : around) (p : part) (s : module) : module * list out :=
  let '(d, um) := (mo_dev s, (mo_upd s, mo_flash s)) in
  match p with
  | Begins name len =>
      let to_fs := contains (str "fs.bin") name in
      let '(u1, ok) := up_begin l to_fs (if to_fs then a_fs_size a else len) (mo_upd s) in
      let '(um2, ended) := if ok then ((u1, mo_flash s), false) else up_end l false (u1, mo_flash s) in
      let '(d', o) := handle_upload a (UpStart name len ok ended) d in
      (mk_module d' (fst um2) (snd um2), o)
  | Piece data =>
      let '(um1, ok) := up_write l data um in
      let '(um2, ended) := if ok then (um1, false) else up_end l false um1 in
      let '(d', o) := handle_upload a (UpWrite data ok ended) d in
      (mk_module d' (fst um2) (snd um2), o)
  | Ends =>
      let '(um2, ended) := up_end l true um in
      let '(d', o) := handle_upload a (UpEnd ended) d in
      (mk_module d' (fst um2) (snd um2), o)
  | Aborts =>
      let '(um2, ended) := up_end l false um in
      let '(d', o) := handle_upload a (UpAborted ended) d in
      (mk_module d' (fst um2) (snd um2), o)
  end.
Fixpoint take_parts (l : layout) (ps : list (around * part)) (s : module) : module * list out :=
  match ps with
  | [] => (s, [])
  | (a, p) :: r => let '(s1, o) := take_part l a p s in let '(s2, os) := take_parts l r s1 in (s2, o ++ os)
  end.
