(** Model of the single source file made for the Arduino IDE: class Amalgamation of tools/mkarduinosrc.py. *)
From Coq Require Import ZArith List Bool Lia.
From Verif Require Import Base.
Import ListNotations.
Open Scope Z_scope.

(** The files of src: name and lines, in the order of Path.glob (that of the file system). A line keeps its end of line, there is none
    inside it. All the files are in one directory. *)
Definition sources := list (list Z * list (list Z)).
Fixpoint lines_named (src : sources) (n : list Z) : option (list (list Z)) :=
  match src with [] => None | (m, ls) :: r => if beq m n then Some ls else lines_named r n end.

(** str.startswith *)
Definition begins (w l : list Z) : bool := beq (firstn (length w) l) w.
(** str.lstrip, for ASCII *)
Definition white (c : Z) : bool := (c =? 32) || ((9 <=? c) && (c <=? 13)) || ((28 <=? c) && (c <=? 31)).
Fixpoint unindent (l : list Z) : list Z := match l with c :: r => if white c then unindent r else l | [] => [] end.
(** Path.match with *.ext *)
Definition has_extension (e n : list Z) : bool := beq (skipn (length n - length e) n) e.

(** The greedy group (.+) followed by the character [c]: up to the last [c], and not empty. *)
Fixpoint last_at (c : Z) (l : list Z) : option nat :=
  match l with
  | [] => None
  | x :: r => match last_at c r with Some i => Some (S i) | None => if x =? c then Some O else None end
  end.
Definition group_upto (c : Z) (l : list Z) : option (list Z) :=
  match last_at c l with Some (S i) => Some (firstn (S i) l) | _ => None end.
(** re.search of [w](.+)[c] *)
Fixpoint search (w : list Z) (c : Z) (l : list Z) : option (list Z) :=
  match (if begins w l then group_upto c (skipn (length w) l) else None) with
  | Some g => Some g
  | None => match l with [] => None | _ :: r => search w c r end
  end.

(** tools/mkarduinosrc.py:48-76: the kinds of lines *)
Inductive kind := Once | Local (header : list Z) | System | Wrong | Other.
Definition kind_of (l : list Z) : kind :=
  if begins (str "#pragma once") (unindent l) then Once
  else if begins (str "#include") (unindent l) then
    match search (str "#include " ++ [34]) 34 l with
    | Some h => Local h
    | None => match search (str "#include <") 62 l with Some _ => System | None => Wrong end
    end
  else Other.
Definition commented (l : list Z) : list Z := str "// " ++ l.

(** A line of the result; [Some (f, k)]: it comes from line [k] of the file [f] (the program does not keep this); [None]: it was added. *)
Definition item := (option (list Z * nat) * list Z)%type.
(** self.included and self.lines *)
Record amalgam := mk_am { am_included : list (list Z); am_lines : list item }.
Definition emit (i : item) (a : amalgam) : amalgam := mk_am (am_included a) (am_lines a ++ [i]).
(** The program ends with an exception if a file does not exist, with an error for an include that it does not understand. *)
Inductive made := Made (a : amalgam) | NoFile (n : list Z) | BadInclude (l : list Z) | NoFuel.
Definition included (n : list Z) (a : amalgam) : bool := existsb (beq n) (am_included a).

(** The loop over the lines of the file [n], tools/mkarduinosrc.py:48-78 *)
Fixpoint add_lines (add : list Z -> amalgam -> made) (n : list Z) (k : nat) (ls : list (list Z)) (a : amalgam) : made :=
  match ls with
  | [] => Made a
  | l :: r =>
      match kind_of l with
      | Once => add_lines add n (S k) r (emit (Some (n, k), commented l) a)
      | Local h =>
          if included h a then add_lines add n (S k) r (emit (Some (n, k), commented l) a)
          else match add h (emit (Some (n, k), commented l) a) with
               | Made a' => add_lines add n (S k) r a'
               | e => e
               end
      | Wrong => BadInclude l
      | System | Other => add_lines add n (S k) r (emit (Some (n, k), l) a)
      end
  end.
(** Amalgamation._add, tools/mkarduinosrc.py:35-80. [fuel] bounds the depth of inclusion. *)
Fixpoint add (fuel : nat) (src : sources) (n : list Z) (a : amalgam) : made :=
  if included n a then Made a
  else match lines_named src n with
       | None => NoFile n
       | Some ls =>
           match fuel with
           | O => NoFuel
           | S f =>
               match add_lines (add f src) n 0 ls
                 (emit (None, str "//begin: " ++ n ++ [10]) (emit (None, [10]) (mk_am (n :: am_included a) (am_lines a)))) with
               | Made a' => Made (emit (None, str "//end: " ++ n ++ [10]) a')
               | e => e
               end
           end
       end.
Fixpoint add_all (fuel : nat) (src : sources) (ns : list (list Z)) (a : amalgam) : made :=
  match ns with
  | [] => Made a
  | n :: r => match add fuel src n a with Made a' => add_all fuel src r a' | e => e end
  end.
(** Amalgamation.__init__, tools/mkarduinosrc.py:19-33 *)
Definition units (src : sources) : list (list Z) :=
  filter (has_extension (str ".ino")) (map fst src) ++
  (if existsb (beq (str "main.cpp")) (map fst src) then [str "main.cpp"] else []) ++
  filter (has_extension (str ".cpp")) (map fst src).
Definition amalgamate (src : sources) : made :=
  add_all (length src) src (units src) (mk_am [] [(None, str "//amalgamation: src *.ino *.cpp" ++ [10])]).
