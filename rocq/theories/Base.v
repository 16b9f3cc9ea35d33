(** Bytes, machine integers, memory and C-string primitives shared by all models.

    Conventions: every number is a [Z]; a byte is a [Z] in 0..255; memory and text are [list Z].
    [None] in a function that touches memory means undefined behaviour (access outside the object)
    or an exceeded loop bound. *)
From Coq Require Import ZArith List Bool Ascii Lia.
From Coq Require String.
Export String.StringSyntax.
Import ListNotations.
Open Scope Z_scope.

(** ** Bytes and literals *)

Definition is_byte (b : Z) : Prop := 0 <= b < 256.
Definition bytes (l : list Z) : Prop := Forall is_byte l.

(** Text literal: ["PAPP"] as the list of its character codes. *)
Fixpoint str (s : String.string) : list Z :=
  match s with
  | String.EmptyString => []
  | String.String a s' => Z.of_N (N_of_ascii a) :: str s'
  end.

Arguments str _%string_scope.

(** ** Machine integers: wrap-around is always explicit *)
Definition u8 (x : Z) : Z := x mod 256.
Definition u16 (x : Z) : Z := x mod 65536.
Definition u32 (x : Z) : Z := x mod 4294967296.
(** two's complement reading of the low 8 / 32 bits *)
Definition i8 (x : Z) : Z := (x + 128) mod 256 - 128.
Definition i32 (x : Z) : Z := (x + 2147483648) mod 4294967296 - 2147483648.

(** ** The option monad; [None] is undefined behaviour *)
Notation "x <- e ;; k" := (match e with Some x => k | None => None end)
  (at level 61, e at next level, right associativity).
Notation "' p <- e ;; k" := (match e with Some p => k | None => None end)
  (at level 61, p pattern, e at next level, right associativity).

(** ** Memory *)
Definition rd (m : list Z) (i : nat) : option Z := nth_error m i.

Fixpoint upd (m : list Z) (i : nat) (v : Z) : option (list Z) :=
  match m, i with
  | [], _ => None
  | _ :: t, O => Some (v :: t)
  | h :: t, S i' => match upd t i' v with Some t' => Some (h :: t') | None => None end
  end.

(** [slice off n m]: the [n] bytes at offset [off]. *)
Definition slice (off n : nat) (m : list Z) : list Z := firstn n (skipn off m).

(** Overwrite the bytes at [off] with [bs] (length preserved when it fits). *)
Definition splice (off : nat) (bs : list Z) (m : list Z) : list Z :=
  firstn off m ++ bs ++ skipn (off + List.length bs) m.

(** ** Text equality and C strings *)
Fixpoint beq (a b : list Z) : bool :=
  match a, b with
  | [], [] => true
  | x :: a', y :: b' => (x =? y) && beq a' b'
  | _, _ => false
  end.

(** The C string stored at the beginning of a memory area: bytes before the first NUL.
    (no NUL: the whole area; used where termination is proved separately) *)
Fixpoint cstr (m : list Z) : list Z :=
  match m with
  | [] => []
  | b :: t => if b =? 0 then [] else b :: cstr t
  end.

(** The C string at pointer [p] of memory [m]; [None] if it runs off the object. *)
Fixpoint cstr_from (m : list Z) : option (list Z) :=
  match m with
  | [] => None
  | b :: t => if b =? 0 then Some [] else (s <- cstr_from t ;; Some (b :: s))
  end.
Definition cstr_at (m : list Z) (p : nat) : option (list Z) := cstr_from (skipn p m).

(** ** Character classes (C locale) *)
Definition isdigit (c : Z) : bool := (48 <=? c) && (c <=? 57).
Definition isupper (c : Z) : bool := (65 <=? c) && (c <=? 90).
Definition islower (c : Z) : bool := (97 <=? c) && (c <=? 122).
Definition isalpha (c : Z) : bool := isupper c || islower c.
(** isspace: space, \t \n \v \f \r *)
Definition isspace (c : Z) : bool := (c =? 32) || ((9 <=? c) && (c <=? 13)).
Definition tolower (c : Z) : Z := if isupper c then c + 32 else c.

(** strcasecmp(a,b) == 0 *)
Definition beq_nocase (a b : list Z) : bool := beq (map tolower a) (map tolower b).

(** ** Decimal numbers *)

(** value of a digit string (most significant first) *)
Definition dec_value (s : list Z) : Z := fold_left (fun acc c => acc * 10 + (c - 48)) s 0.

(** Shortest decimal text of a non-negative integer: printf "%u". *)
Fixpoint dec_aux (fuel : nat) (n : Z) (acc : list Z) : list Z :=
  match fuel with
  | O => acc
  | S f => let acc' := (48 + n mod 10) :: acc in
           if n <? 10 then acc' else dec_aux f (n / 10) acc'
  end.
Definition dec (n : Z) : list Z := dec_aux (Z.to_nat (Z.log2 n + 2)) n [].

(** printf "%d" *)
Definition decs (n : Z) : list Z := if n <? 0 then 45 :: dec (- n) else dec n.

(** printf "%0kd" for non-negative n: pad on the left with '0' up to width k. *)
Definition pad0 (k : nat) (s : list Z) : list Z := repeat 48 (k - List.length s) ++ s.
