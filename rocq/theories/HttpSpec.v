(** The other end: how a server reads a request (RFC 7230, HTTP/1.1) and the fields of its address (RFC 3986; fields as
    written by HTML forms: separated by &, + for a space, %XX for any byte). Nothing here comes from the repository. *)
From Coq Require Import ZArith List Bool.
From Verif Require Import Base.
Import ListNotations.
Open Scope Z_scope.

(** Before the first [c] and after it. *)
Fixpoint cut_at (c : Z) (l : list Z) : list Z * option (list Z) :=
  match l with
  | [] => ([], None)
  | x :: r => if x =? c then ([], Some r) else let (a, b) := cut_at c r in (x :: a, b)
  end.
(** The parts between the [c]. *)
Fixpoint parts (c : Z) (l : list Z) : list (list Z) :=
  match l with
  | [] => [[]]
  | x :: r => if x =? c then [] :: parts c r else match parts c r with p :: q => (x :: p) :: q | [] => [[x]] end
  end.

(** A line ends with CR LF; a lone CR or LF is an error. *)
Fixpoint next_line (l : list Z) : option (list Z * list Z) :=
  match l with
  | [] => None
  | c :: r =>
      if c =? 13 then match r with d :: r' => if d =? 10 then Some ([], r') else None | [] => None end
      else if c =? 10 then None
      else match next_line r with Some (a, b) => Some (c :: a, b) | None => None end
  end.
(** The lines up to the empty one ([fuel]: more than the number of lines), and what follows. *)
Fixpoint head_lines (fuel : nat) (l : list Z) : option (list (list Z) * list Z) :=
  match fuel with
  | O => None
  | S n =>
      match next_line l with
      | Some ([], r) => Some ([], r)
      | Some (x, r) => match head_lines n r with Some (xs, b) => Some (x :: xs, b) | None => None end
      | None => None
      end
  end.

Record received := mk_received { v_method : list Z; v_target : list Z; v_headers : list (list Z * list Z); v_body : list Z }.

(** One space after the colon is not part of the value. *)
Definition after_space (l : list Z) : list Z := match l with 32 :: r => r | _ => l end.
(** Name: value. *)
Definition read_header (l : list Z) : option (list Z * list Z) :=
  match cut_at 58 l with
  | ((_ :: _) as n, Some v) => Some (n, after_space v)
  | _ => None
  end.
Fixpoint read_headers (ls : list (list Z)) : option (list (list Z * list Z)) :=
  match ls with
  | [] => Some []
  | x :: r => match read_header x, read_headers r with Some h, Some hs => Some (h :: hs) | _, _ => None end
  end.
(** The value of a header; names do not depend on capitals. *)
Definition header_value (name : list Z) (hs : list (list Z * list Z)) : option (list Z) :=
  match find (fun h => beq (map tolower (fst h)) name) hs with Some h => Some (snd h) | None => None end.

(** The body has as many bytes as announced, none if nothing is announced. *)
Definition read_body (hs : list (list Z * list Z)) (rest : list Z) : option (list Z) :=
  match header_value (str "content-length") hs with
  | None => Some []
  | Some n =>
      if forallb isdigit n && negb (beq n []) && (dec_value n <=? Z.of_nat (length rest))
      then Some (firstn (Z.to_nat (dec_value n)) rest) else None
  end.

(** The whole request: method, target and version separated by single spaces, headers, empty line, body. [None]: refused. *)
Definition read_request (l : list Z) : option received :=
  match head_lines (S (length l)) l with
  | Some (first :: hs, rest) =>
      match parts 32 first with
      | [m; t; v] =>
          if negb (beq m []) && negb (beq t []) && beq v (str "HTTP/1.1") then
            match read_headers hs with
            | Some h => match read_body h rest with Some b => Some (mk_received m t h b) | None => None end
            | None => None
            end
          else None
      | _ => None
      end
  | _ => None
  end.

(** ** The address *)

Definition hex_digit (c : Z) : option Z :=
  if isdigit c then Some (c - 48)
  else if (65 <=? c) && (c <=? 70) then Some (c - 55)
  else if (97 <=? c) && (c <=? 102) then Some (c - 87) else None.
Fixpoint decoded (l : list Z) : list Z :=
  match l with
  | [] => []
  | c :: r =>
      if c =? 43 then 32 :: decoded r
      else if c =? 37 then
        match r with
        | a :: b :: r' => match hex_digit a, hex_digit b with Some x, Some y => 16 * x + y :: decoded r' | _, _ => 37 :: decoded r end
        | _ => 37 :: decoded r
        end
      else c :: decoded r
  end.
Definition form_field (p : list Z) : list Z * list Z :=
  match cut_at 61 p with (n, Some v) => (decoded n, decoded v) | (n, None) => (decoded n, []) end.
(** The path, and the fields after the question mark. What follows # is not part of the address. *)
Definition path_of (target : list Z) : list Z := fst (cut_at 63 (fst (cut_at 35 target))).
Definition fields_of (target : list Z) : list (list Z * list Z) :=
  match snd (cut_at 63 (fst (cut_at 35 target))) with
  | Some q => map form_field (parts 38 q)
  | None => []
  end.

(** How emoncms reads {name:value,name:value}. *)
Definition emon_pair (p : list Z) : list Z * list Z := match cut_at 58 p with (n, Some v) => (n, v) | (n, None) => (n, []) end.
Definition emon_read (l : list Z) : option (list (list Z * list Z)) :=
  match l with
  | 123 :: r =>
      match cut_at 125 r with
      | ([], Some []) => Some []
      | (inside, Some []) => Some (map emon_pair (parts 44 inside))
      | _ => None
      end
  | _ => None
  end.

(** ** Texts *)

(** No space and no end of line. *)
Definition one_word (l : list Z) : Prop := Forall (fun c => c <> 32 /\ c <> 13 /\ c <> 10) l.
(** None of the characters that have a meaning in an address: space, ends of line, # % & + ? = . *)
Definition unreserved (l : list Z) : Prop :=
  Forall (fun c => c <> 32 /\ c <> 13 /\ c <> 10 /\ c <> 35 /\ c <> 37 /\ c <> 38 /\ c <> 43 /\ c <> 61 /\ c <> 63) l.
(** Headers that can be written on a line and that say nothing about the length of the body. *)
Definition plain_header (h : list Z * list Z) : Prop :=
  fst h <> [] /\ Forall (fun c => c <> 58 /\ c <> 13 /\ c <> 10) (fst h) /\ Forall (fun c => c <> 13 /\ c <> 10) (snd h) /\
  map tolower (fst h) <> str "content-length".
