(** Specification of the walk of a directory. *)
From Coq Require Import ZArith List Bool.
From Verif Require Import Base Erfs ErfsSpec ErfsDir.
Import ListNotations.
Open Scope Z_scope.

(** Calls made on an open directory: next(), rewind(), fileName(), fileSize(), fileTime(), isFile(), openFile(mode) followed by a
    series of calls on the file. *)
Inductive dcall := Next | Rewind | Name | Size | Time | IsFile | OpenFile (reading : bool) (j : junk) (buf32 : list Z) (calls : list call).
(** A file given by openFile(): fullName(), name(), size(), getLastWrite(), the answers to the calls. *)
Inductive danswer := Yes (b : bool) | Words (t : list Z) | Number (n : Z) | NoFile
| AFile (full short : list Z) (size time : Z) (answers : list (answer * Z)).

(** A series of calls on a directory. [None]: undefined behaviour. *)
Definition on_file (s : erfs) (buf32 : list Z) (calls : list call) (r : option efile) : option danswer :=
  match r with
  | None => Some NoFile
  | Some e => full <- ef_full_name e ;; short <- ef_short_name e ;; '(rs, l) <- session s buf32 e calls ;;
      Some (AFile full short (ef_size e) (ef_time e) rs)
  end.
Fixpoint walk (s : erfs) (d : edir) (cs : list dcall) : option (list danswer) :=
  match cs with
  | [] => Some []
  | Next :: r => let '(d', b, _) := dir_next s d in rs <- walk s d' r ;; Some (Yes b :: rs)
  | Rewind :: r => rs <- walk s (dir_rewind d) r ;; Some (Yes true :: rs)
  | Name :: r => n <- dir_name s d ;; rs <- walk s d r ;; Some (Words n :: rs)
  | Size :: r => rs <- walk s d r ;; Some (Number (dir_size s d) :: rs)
  | Time :: r => rs <- walk s d r ;; Some (Number (dir_time s d) :: rs)
  | IsFile :: r => rs <- walk s d r ;; Some (Yes (dir_valid s d) :: rs)
  | OpenFile m j b calls :: r => '(f, _) <- dir_file s d m j ;; a <- on_file s b calls f ;; rs <- walk s d r ;; Some (a :: rs)
  end.
Definition sensible_walk (c : dcall) : Prop := match c with OpenFile _ _ b calls => Forall sensible calls /\ size_of b = 260 | _ => True end.

(** The last part of a name: what follows its last slash, or all of it. *)
Fixpoint until_slash (t : list Z) : list Z := match t with [] => [] | c :: r => if c =? 47 then [] else c :: until_slash r end.
Definition last_part (name : list Z) : list Z := rev (until_slash (rev name)).

(** What the calls must answer: [k] files have been passed; the current one is the last of these, if there is one. *)
Definition current (files : list source) (k : nat) : option source := match k with O => None | S i => nth_error files i end.
Fixpoint walked (files : list source) (k : nat) (cs : list dcall) : list danswer :=
  match cs with
  | [] => []
  | Next :: r => if Nat.ltb k (length files) then Yes true :: walked files (S k) r else Yes false :: walked files k r
  | Rewind :: r => Yes true :: walked files 0 r
  | Name :: r => Words (match current files k with Some f => src_name f | None => [] end) :: walked files k r
  | Size :: r => Number (match current files k with Some f => size_of (src_data f) | None => 0 end) :: walked files k r
  | Time :: r => Number (match current files k with Some f => src_time f | None => 0 end) :: walked files k r
  | IsFile :: r => Yes (match current files k with Some _ => true | None => false end) :: walked files k r
  | OpenFile m _ _ calls :: r =>
      match m, current files k with
      | true, Some f => AFile (src_name f) (last_part (src_name f)) (size_of (src_data f)) (src_time f) (expected (src_data f) 0 calls)
      | _, _ => NoFile
      end :: walked files k r
  end.
