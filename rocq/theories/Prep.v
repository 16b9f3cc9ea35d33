(** Model of the preparation of the data directory from its sources: prep_data_folder.py. *)
From Coq Require Import ZArith List Bool Lia.
From Verif Require Import Base Erfs.
Import ListNotations.
Open Scope Z_scope.

(** ** Names of files (Python's pathlib) *)

(** A path relative to data_src or data: its components, the last one is the name. *)
Definition path := list (list Z).
Definition name_of (p : path) : list Z := last p [].
(** Path.with_name *)
Definition with_name (p : path) (n : list Z) : path := removelast p ++ [n].

(** str.rfind *)
Fixpoint rfind (c : Z) (l : list Z) : option nat :=
  match l with
  | [] => None
  | x :: r => match rfind c r with Some i => Some (S i) | None => if x =? c then Some O else None end
  end.
(** str.split *)
Fixpoint split_on (c : Z) (l : list Z) : list (list Z) :=
  match l with
  | [] => [[]]
  | x :: r => let s := split_on c r in if x =? c then [] :: s else (x :: hd [] s) :: tl s
  end.
(** str.lstrip *)
Fixpoint lstrip (c : Z) (l : list Z) : list Z := match l with x :: r => if x =? c then lstrip c r else l | [] => [] end.

(** Path.suffix: from the last dot, unless it is the first or the last character. *)
Definition suffix (n : list Z) : list Z :=
  match rfind 46 n with
  | Some i => if (Nat.ltb 0 i && Nat.ltb (S i) (length n))%bool then skipn i n else []
  | None => []
  end.
(** Path.suffixes *)
Definition suffixes (n : list Z) : list (list Z) :=
  if last n 0 =? 46 then [] else map (cons 46) (tl (split_on 46 (lstrip 46 n))).
(** Path.with_suffix with an empty suffix *)
Definition stem (n : list Z) : list Z := firstn (length n - length (suffix n)) n.

(** ** Directories *)

(** st_mtime_ns and the content. Names are used either for files or for directories; directories exist as long as there are files in them. *)
Record file := mk_file { f_time : Z; f_data : list Z }.
(** In the order of rglob. *)
Definition tree := list (path * file).

Fixpoint path_eq (a b : path) : bool :=
  match a, b with
  | [], [] => true
  | x :: a', y :: b' => beq x y && path_eq a' b'
  | _, _ => false
  end.
Fixpoint get (t : tree) (p : path) : option file :=
  match t with [] => None | (q, f) :: r => if path_eq q p then Some f else get r p end.
Fixpoint put (t : tree) (p : path) (f : file) : tree :=
  match t with [] => [(p, f)] | (q, g) :: r => if path_eq q p then (q, f) :: r else (q, g) :: put r p f end.
Definition remove (t : tree) (p : path) : tree := filter (fun e => negb (path_eq (fst e) p)) t.
(** Path.exists: a file, or a directory *)
Definition exists_in (t : tree) (p : path) : bool := existsb (fun e => path_eq (firstn (length p) (fst e)) p) t.

(** ** Pages for restricted clients *)

Definition make_mark : list Z := str "<!--MAKE_RESTRICT-->".
Definition mark_on : list Z := str "<!--RESTRICT_ON-->".
Definition mark_off : list Z := str "<!--RESTRICT_OFF-->".

Definition starts (w l : list Z) : bool := beq (firstn (length w) l) w.
(** Position of the first occurrence (w in l, and the search of the end of a match). *)
Fixpoint find_in (w l : list Z) : option nat :=
  if starts w l then Some O else match l with [] => None | _ :: r => option_map S (find_in w r) end.

(** re.sub of prep_data_folder.py:58: from left to right, each part from mark_on to the first mark_off that follows is removed; a mark_on without
    mark_off is left as it is. [skip]: characters of the match that remain. The text is taken as bytes (read_text and write
    decode and encode it, and change the ends of lines on some systems). *)
Fixpoint cut (skip : nat) (l : list Z) : list Z :=
  match l with
  | [] => []
  | c :: r =>
      match skip with
      | S k => cut k r
      | O =>
          if starts mark_on l then
            match find_in mark_off (skipn (length mark_on) l) with
            | Some n => cut (length mark_on + n + length mark_off - 1) r
            | None => c :: cut 0 r
            end
          else c :: cut 0 r
      end
  end.

(** ** Preparation *)

(** The external programs: html-minifier with its options, gzip. What they write depends on what they read only (gzip also writes a
    date in its header). A failure of html-minifier does not stop the script, gzip compresses what it has written. *)
Record tools := mk_tools { t_minify : list Z -> list Z; t_gzip : list Z -> list Z }.

(** get_minifier, prep_data_folder.py:15-28 *)
Inductive packing := Page | Zip | Plain.
Definition packing_of (p : path) : packing :=
  let s := suffix (name_of p) in
  if beq s (str ".htm") || beq s (str ".html") then Page
  else if beq s (str ".js") || beq s (str ".css") || beq s (str ".ttf") then Zip else Plain.
Definition produce (t : tools) (k : packing) (data : list Z) : list Z :=
  match k with Page => t_gzip t (t_minify t data) | Zip => t_gzip t data | Plain => data end.
(** prep_data_folder.py:134-139 *)
Definition target (p : path) : path :=
  match packing_of p with Plain => p | _ => with_name p (name_of p ++ str ".gz") end.
(** make_restrict, prep_data_folder.py:66-70 *)
Definition restricted_target (p : path) : path :=
  with_name p (stem (name_of p) ++ str ".restrict" ++ concat (suffixes (name_of p)) ++ str ".gz").

(** A change in the data directory: a file is removed, or written with the date [time]. *)
Inductive op := Remove (p : path) | Write (p : path) (time : Z) (data : list Z).
Definition apply (t : tree) (o : op) : tree :=
  match o with Remove p => remove t p | Write p m d => put t p (mk_file m d) end.

(** prep_data_folder.py:112-121: the entries without source are removed. A directory is removed with its files. *)
Definition obsolete (src : tree) (e : path) : bool :=
  negb (exists_in src e) &&
  negb (beq (suffix (name_of e)) (str ".gz") && exists_in src (with_name e (stem (name_of e)))) &&
  negb (existsb (beq (str ".restrict")) (suffixes (name_of e))).
Definition entries (p : path) : list path := map (fun n => firstn (S n) p) (seq 0 (length p)).
Definition cleaning (src d : tree) : list op :=
  map (fun e => Remove (fst e)) (filter (fun e => existsb (obsolete src) (entries (fst e))) d).

(** prep_data_folder.py:129-160 for one file of data_src, and make_restrict (51-74). All the commands of one build write at the date [now]; copy2
    keeps the date of the source. *)
Definition file_ops (t : tools) (now : Z) (d : tree) (e : path * file) : list op :=
  let '(p, f) := e in
  if match get d (target p) with Some g => f_time f <=? f_time g | None => false end then []
  else match packing_of p with
       | Plain => [Write (target p) (f_time f) (f_data f)]
       | k => Write (target p) now (produce t k (f_data f)) ::
              (if beq (suffix (name_of p)) (str ".html") && match find_in make_mark (f_data f) with Some _ => true | None => false end
               then [Write (restricted_target p) now (produce t Page (cut 0 (f_data f)))] else [])
       end.
Fixpoint files_ops (t : tools) (now : Z) (src d : tree) : list op :=
  match src with
  | [] => []
  | e :: r => let o := file_ops t now d e in o ++ files_ops t now r (fold_left apply o d)
  end.
Definition version_path : path := [str "version"].
(** prepare_www_files, prep_data_folder.py:77-164: [listing] is what rglob gives for data_src, [version] the result of get_version. *)
Definition build_ops (t : tools) (now : Z) (version : list Z) (listing d : tree) : list op :=
  let c := cleaning listing d in
  c ++ files_ops t now listing (fold_left apply c d) ++ [Write version_path now version].
Definition build (t : tools) (now : Z) (version : list Z) (listing d : tree) : tree :=
  fold_left apply (build_ops t now version listing d) d.
(** The same, interrupted after [k] changes, the next file being written up to [j] bytes ([None]: not opened yet). *)
Definition partial_op (now : Z) (j : option nat) (o : option op) : list op :=
  match o, j with Some (Write p _ c), Some n => [Write p now (firstn n c)] | _, _ => [] end.
Definition interrupted (t : tools) (now : Z) (version : list Z) (listing d : tree) (k : nat) (j : option nat) : tree :=
  let o := build_ops t now version listing d in
  fold_left apply (firstn k o ++ partial_op now j (nth_error o k)) d.

(** get_version, prep_data_folder.py:37-49: [describe] is the output of git (bytes.strip removes the spaces at both ends), [env] the environment variable when there
    is no git directory. [None]: the exception of index("/"). *)
Definition is_space (c : Z) : bool := (c =? 32) || ((9 <=? c) && (c <=? 13)).
Fixpoint skip_spaces (l : list Z) : list Z := match l with c :: r => if is_space c then skip_spaces r else l | [] => [] end.
Definition strip_spaces (l : list Z) : list Z := rev (skip_spaces (rev (skip_spaces l))).
Fixpoint past_slash (l : list Z) : option (list Z) :=
  match l with [] => None | c :: r => if c =? 47 then Some r else past_slash r end.
Definition get_version (describe env : option (list Z)) : option (list Z) :=
  match describe with
  | Some o => past_slash (strip_spaces o)
  | None => Some match env with Some v => v | None => str "develop" end
  end.

(** ** What happens to the two directories *)

Inductive change :=
| Edit (p : path) (data : list Z) (time : Z)      (** a source is created or modified, at that date *)
| Restore (p : path) (data : list Z) (time : Z)   (** a source is replaced by a file that keeps its date (mv, cp -p, tar) *)
| Delete (p : path)                               (** a source is deleted *)
| Build (t : tools) (now : Z) (version : list Z) (order : tree -> tree)
| Interrupt (t : tools) (now : Z) (version : list Z) (order : tree -> tree) (k : nat) (j : option nat).

Definition work := (tree * tree)%type.
Definition wstep (w : work) (c : change) : work :=
  let '(s, d) := w in
  match c with
  | Edit p data m | Restore p data m => (put s p (mk_file m data), d)
  | Delete p => (remove s p, d)
  | Build t now v order => (s, build t now v (order s) d)
  | Interrupt t now v order k j => (s, interrupted t now v (order s) d k j)
  end.

(** The files given to mkerfs32.py (create, mkerfs32.py:100-110): names with slashes, dates in seconds. *)
Fixpoint join (p : path) : list Z :=
  match p with [] => [] | [n] => n | n :: r => n ++ 47 :: join r end.
Definition to_pack (d : tree) : list source :=
  map (fun e => mk_source (join (fst e)) (f_data (snd e)) (f_time (snd e) / 1000000000))
    (filter (fun e => negb (beq (name_of (fst e)) (str ".DS_Store") || beq (name_of (fst e)) (str ".git"))) d).
