(** Model of the reading side of mkerfs32.py: the option -l (list) and the option -x (extract), and the text of the option -s (size). *)
From Coq Require Import ZArith List Bool Lia.
From Verif Require Import Base Json Clock Erfs Prep.
Import ListNotations.
Open Scope Z_scope.

(** The size given with -s, mkerfs32.py:94-99. Only digits, with or without a final letter; the other texts that int() reads (signs, spaces,
    underscores) are taken as errors. [None]: exception. *)
Definition number_text (s : list Z) : option Z := match s with [] => None | _ => if forallb isdigit s then Some (dec_value s) else None end.
Definition read_size (s : list Z) : option Z :=
  let c := last s 0 in
  if (c =? 107) || (c =? 75) then n <- number_text (removelast s) ;; Some (n * 1024)
  else if (c =? 109) || (c =? 77) then n <- number_text (removelast s) ;; Some (n * 1048576)
  else number_text s.

(** fs[ptr : ptr + n] *)
Definition part (fs : list Z) (ptr n : Z) : list Z := slice (Z.to_nat ptr) (Z.to_nat n) fs.

(** get_string, mkerfs32.py:65-79, for a first byte that is not 0. The result is encoded in UTF-8, as print() and the names of files are. *)
Fixpoint get_string (fs : list Z) : list Z :=
  match fs with
  | [] => []
  | i :: r => if i =? 0 then [] else (if i <? 32 then [60] ++ dec i ++ [62] else utf8_of i) ++ get_string r
  end.

(** struct.unpack of the header, the hashes and the records, mkerfs32.py:196-213. [Raised]: struct.error, one of these is cut; [NotErfs]: exit(2).
    The version and the hashes are not used. *)
Inductive table := NotErfs | Raised | Table (version : Z * Z) (records : list (list Z)).
Fixpoint read_table (n : nat) (offset : Z) (fs : list Z) : option (list (list Z)) :=
  match n with
  | O => Some []
  | S k => let r := part fs offset 16 in
           if size_of r =? 16 then t <- read_table k (offset + 16) fs ;; Some (r :: t) else None
  end.
Definition open_image (fs : list Z) : table :=
  if size_of fs <? 8 then Raised
  else if negb (beq (part fs 0 4) (str "ERFS")) then NotErfs
  else let n := word16 (part fs 6 2) in
       if size_of fs <? 8 + 2 * n then Raised
       else match read_table (Z.to_nat n) (py_align32 (8 + 2 * n)) fs with
            | None => Raised
            | Some rs => Table (nth 4 fs 0, nth 5 fs 0) rs
            end.

(** datetime.fromtimestamp and time.mktime of the machine. The timetuple of a date without zone does not say whether it is summer time. *)
Record zone := mk_zone { z_local : Z -> tm; z_mktime : tm -> Z }.

(** A file extracted: name, content, date. *)
Record taken := mk_taken { k_name : list Z; k_data : list Z; k_time : Z }.
(** How the loop ends: after the last record; at a record without name (message and break); with an exception. *)
Inductive ending := Complete | BadEntry | Exception.
Definition content (fs r : list Z) : list Z := part fs (rec_data r) (rec_len r).
(** The loop over the records with -x, mkerfs32.py:222-252. [selected]: no pattern is given, or fnmatch accepts the name for one of them. *)
Fixpoint take (z : zone) (selected : list Z -> bool) (fs : list Z) (rs : list (list Z)) : list taken * ending :=
  match rs with
  | [] => ([], Complete)
  | r :: rest =>
      match skipn (Z.to_nat (rec_name r)) fs with
      | [] => ([], Exception)
      | c :: s =>
          if c =? 0 then ([], BadEntry)
          else let name := get_string (c :: s) in
               let '(l, e) := take z selected fs rest in
               if selected name then (mk_taken name (content fs r) (z_mktime z (z_local z (rec_time r))) :: l, e) else (l, e)
      end
  end.

(** Where DIR / name is: the parts under DIR, [None] when it is not under DIR (absolute name, or more ".." than directories). Symbolic links
    are not modelled. *)
Fixpoint resolve (above : path) (parts : path) : option path :=
  match parts with
  | [] => Some (rev above)
  | p :: r =>
      if beq p [] || beq p [46] then resolve above r
      else if beq p [46; 46] then match above with [] => None | _ :: a => resolve a r end
      else resolve (p :: above) r
  end.
Definition place (name : list Z) : option path := if hd 0 name =? 47 then None else resolve [] (split_on 47 name).

(** -x DIR: the files of DIR, and the files written elsewhere. Failures of the file system (a file where a directory is needed) are not modelled. *)
Definition store (w : tree * list taken) (k : taken) : tree * list taken :=
  match place (k_name k) with
  | Some p => (put (fst w) p (mk_file (k_time k * 1000000000) (k_data k)), snd w)
  | None => (fst w, snd w ++ [k])
  end.
Inductive result := Refused | Crashed | Extracted (dir : tree) (elsewhere : list taken) (e : ending).
Definition extract (z : zone) (selected : list Z -> bool) (fs : list Z) (dir : tree) : result :=
  match open_image fs with
  | NotErfs => Refused
  | Raised => Crashed
  | Table _ rs =>
      let '(l, e) := take z selected fs rs in
      let '(t, out) := fold_left store l (dir, []) in Extracted t out e
  end.
(** -x -: what goes to the standard output. *)
Definition extract_out (z : zone) (selected : list Z -> bool) (fs : list Z) : option (list Z) :=
  match open_image fs with
  | Table _ rs => Some (flat_map k_data (fst (take z selected fs rs)))
  | _ => None
  end.

(** -l, mkerfs32.py:218-220, 222-228, 254-265 (without -v): the text written. *)
Definition right (n : nat) (s : list Z) : list Z := repeat 32 (n - length s) ++ s.
Definition stamp (r : tm) : list Z :=
  padded 4 (tm_year r) ++ [45] ++ padded 2 (tm_mon r + 1) ++ [45] ++ padded 2 (tm_mday r) ++ [84] ++
  padded 2 (tm_hour r) ++ [58] ++ padded 2 (tm_min r) ++ [58] ++ padded 2 (tm_sec r) ++ [90].
Fixpoint list_lines (z : zone) (fs : list Z) (i : Z) (rs : list (list Z)) : list Z :=
  match rs with
  | [] => []
  | r :: rest =>
      match skipn (Z.to_nat (rec_name r)) fs with
      | [] => []
      | c :: s =>
          if c =? 0 then []
          else right 4 (dec i) ++ [32; 32] ++ right 8 (dec (rec_len r)) ++ [32; 32] ++ stamp (z_local z (rec_time r)) ++ [32; 32] ++
               get_string (c :: s) ++ [10] ++ list_lines z fs (i + 1) rest
      end
  end.
Definition list_text (z : zone) (fs : list Z) : option (list Z) :=
  match open_image fs with
  | Table (hi, lo) rs =>
      Some (str "Version: " ++ dec hi ++ [46] ++ dec lo ++ [10] ++ str "Number of files: " ++ dec (size_of rs) ++ [10] ++ list_lines z fs 1 rs)
  | _ => None
  end.
