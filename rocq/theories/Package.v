(** Model of the package made for the Arduino IDE: the command of tools/mkarduinosrc.py. *)
From Coq Require Import ZArith List Bool Lia.
From Verif Require Import Base Amalg.
Import ListNotations.
Open Scope Z_scope.

(** A path is the list of its components; a tree is the list of its files (empty folders, dates and rights are not kept). *)
Definition path := list (list Z).
Definition tree := list (path * list Z).
Fixpoint peq (p q : path) : bool :=
  match p, q with
  | [], [] => true
  | a :: p', b :: q' => beq a b && peq p' q'
  | _, _ => false
  end.
Fixpoint at_path (t : tree) (p : path) : option (list Z) :=
  match t with [] => None | (q, c) :: r => if peq q p then Some c else at_path r p end.
(** [p] is a folder in which [q] is, at any depth. *)
Fixpoint above (p q : path) : bool :=
  match p, q with
  | [], _ :: _ => true
  | a :: p', b :: q' => beq a b && above p' q'
  | _, _ => false
  end.
Fixpoint put (p : path) (c : list Z) (t : tree) : tree :=
  match t with [] => [(p, c)] | (q, d) :: r => if peq q p then (p, c) :: r else (q, d) :: put p c r end.

(** Path.suffix and Path.with_suffix of pathlib, on the last component: the suffix begins at the last dot, which is neither the first nor the last character. *)
Definition suffix (n : list Z) : list Z :=
  match last_at 46 n with
  | Some (S i) => if Nat.ltb (S (S i)) (length n) then skipn (S i) n else []
  | _ => []
  end.
(** tools/mkarduinosrc.py:109-110 *)
Definition archive_name (target : list Z) : list Z := match suffix target with [] => target ++ str ".zip" | _ => target end.

(** What is given to [op], in order: tools/mkarduinosrc.py:114-137. [src]: the files of src, one directory as in Amalg.v (the folders in it are passed over by
    f.is_file()); [data]: the files below data, at any depth. [None]: the single file cannot be made (class Amalgamation, exception or exit(2)). *)
Definition root : list Z := str "wifinfo".
Definition given (one : bool) (src : sources) (data : tree) : option tree :=
  let rest := map (fun f => (root :: str "data" :: fst f, snd f)) data in
  if one then
    match amalgamate src with
    | Made a => Some (([root; str "wifinfo.ino"], concat (map snd (am_lines a))) :: rest)
    | _ => None
    end
  else Some (map (fun f => ([root; fst f], concat (snd f))) src ++ rest).

(** The function cp, tools/mkarduinosrc.py:101-104, for all the files: the folder in which [target] is, and whether all were copied. A file where a folder is
    needed stops the program. Simplification: so does a folder where a file is needed (shutil.copy2 puts the file in it). *)
Fixpoint copy_all (fs : tree) (t : tree) : tree * bool :=
  match fs with
  | [] => (t, true)
  | (p, c) :: r => if existsb (fun f => above (fst f) p || above p (fst f)) t then (t, false) else copy_all r (put p c t)
  end.

(** The disk: the folder named [target], and the archives by name with their entries. *)
Record disk := mk_disk { dk_folder : tree; dk_archives : list Z -> option tree }.
(** cmd_arduino_ide, tools/mkarduinosrc.py:83-137. zipfile.ZipFile(target, "w") empties the archive at once; the entries are complete when it is
    closed, at the end of the program, whatever the end is. *)
Definition package (copy one : bool) (target : list Z) (src : sources) (data : tree) (d : disk) : disk * bool :=
  if copy then
    match given one src data with
    | None => (d, false)
    | Some fs => let '(t, ok) := copy_all fs (dk_folder d) in (mk_disk t (dk_archives d), ok)
    end
  else
    let write entries := mk_disk (dk_folder d) (fun n => if beq n (archive_name target) then Some entries else dk_archives d n) in
    match given one src data with
    | None => (write [], false)
    | Some fs => (write fs, true)
    end.
