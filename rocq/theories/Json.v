(** Specification: JSON texts (RFC 8259), read by a small parser that knows nothing of the firmware. It accepts white
    space, nested values, every escape sequence and the full number grammar, and rejects everything else. *)
From Coq Require Import ZArith List Bool Lia.
From Verif Require Import Base.
From Verif Require EepromTool.
Import ListNotations.
Open Scope Z_scope.

(** A number is kept as it is written. Members of an object are kept in order, duplicates included. *)
Inductive json :=
| JNull
| JBool (b : bool)
| JNum (lexeme : list Z)
| JStr (s : list Z)
| JArr (items : list json)
| JObj (members : list (list Z * json)).

(** White space (RFC 8259, section 2). *)
Definition is_ws (c : Z) : bool := (c =? 32) || (c =? 9) || (c =? 10) || (c =? 13).
Fixpoint ws (s : list Z) : list Z :=
  match s with
  | c :: t => if is_ws c then ws t else s
  | [] => []
  end.

(** Hexadecimal digit. *)
Definition hex (c : Z) : option Z :=
  if isdigit c then Some (c - 48)
  else if (65 <=? c) && (c <=? 70) then Some (c - 55)
  else if (97 <=? c) && (c <=? 102) then Some (c - 87)
  else None.
(** UTF-8 form of a code point below 65536 (a surrogate half is encoded on its own). *)
Definition utf8_of (n : Z) : list Z :=
  if n <? 128 then [n]
  else if n <? 2048 then [192 + n / 64; 128 + n mod 64]
  else [224 + n / 4096; 128 + (n / 64) mod 64; 128 + n mod 64].
(** One-character escapes: quote, backslash, slash, b, f, n, r, t *)
Definition unescape (e : Z) : option Z :=
  if (e =? 34) || (e =? 92) || (e =? 47) then Some e
  else if e =? 98 then Some 8
  else if e =? 102 then Some 12
  else if e =? 110 then Some 10
  else if e =? 114 then Some 13
  else if e =? 116 then Some 9
  else None.

(** Text of a string after its opening quote, and what follows the closing quote (section 7). *)
Fixpoint string_rest (s : list Z) : option (list Z * list Z) :=
  match s with
  | [] => None
  | c :: t =>
      if c =? 34 then Some ([], t)
      else if c <? 32 then None
      else if c =? 92 then
        match t with
        | 117 :: a :: b :: d :: e :: t' =>
            match hex a, hex b, hex d, hex e with
            | Some a, Some b, Some d, Some e =>
                '(v, r) <- string_rest t' ;; Some (utf8_of (a * 4096 + b * 256 + d * 16 + e) ++ v, r)
            | _, _, _, _ => None
            end
        | e :: t' => x <- unescape e ;; '(v, r) <- string_rest t' ;; Some (x :: v, r)
        | [] => None
        end
      else '(v, r) <- string_rest t ;; Some (c :: v, r)
  end.

(** Longest prefix of digits. *)
Fixpoint digits (s : list Z) : list Z * list Z :=
  match s with
  | c :: t => if isdigit c then let '(d, r) := digits t in (c :: d, r) else ([], s)
  | [] => ([], [])
  end.

(** A number (section 6): [-] (0 | nonzero digit, digits) [. digits] [e|E [+|-] digits]. *)
Definition int_part (s : list Z) : option (list Z * list Z) :=
  match digits s with
  | ([], _) => None
  | (c :: d, r) => if (c =? 48) && negb (Nat.eqb (List.length d) 0) then None else Some (c :: d, r)
  end.
Definition frac_part (s : list Z) : option (list Z * list Z) :=
  match s with
  | 46 :: t => match digits t with ([], _) => None | (d, r) => Some (46 :: d, r) end
  | _ => Some ([], s)
  end.
Definition exp_part (s : list Z) : option (list Z * list Z) :=
  match s with
  | e :: t =>
      if (e =? 101) || (e =? 69) then
        let '(sg, t1) := match t with
                         | x :: t' => if (x =? 43) || (x =? 45) then ([x], t') else ([], t)
                         | [] => ([], [])
                         end in
        match digits t1 with ([], _) => None | (d, r) => Some (e :: sg ++ d, r) end
      else Some ([], s)
  | [] => Some ([], [])
  end.
Definition number (s : list Z) : option (list Z * list Z) :=
  let '(sg, s1) := match s with 45 :: t => ([45], t) | _ => ([], s) end in
  '(i, s2) <- int_part s1 ;;
  '(f, s3) <- frac_part s2 ;;
  '(e, s4) <- exp_part s3 ;;
  Some (sg ++ i ++ f ++ e, s4).

(** The word w at the beginning of s: what follows it. *)
Fixpoint after (w s : list Z) : option (list Z) :=
  match w, s with
  | [], _ => Some s
  | a :: w', b :: s' => if a =? b then after w' s' else None
  | _, [] => None
  end.

(** A value at the beginning of the text, and what follows it. The fuel bounds the number of nested calls; the length
    of the text plus one is always enough. *)
Fixpoint value (fuel : nat) (s : list Z) : option (json * list Z) :=
  match fuel with
  | O => None
  | S f =>
      match ws s with
      | [] => None
      | c :: t =>
          if c =? 123 (* { *) then
            match ws t with
            | 125 :: r => Some (JObj [], r)
            | _ => '(ms, r) <- members f t ;; Some (JObj ms, r)
            end
          else if c =? 91 (* [ *) then
            match ws t with
            | 93 :: r => Some (JArr [], r)
            | _ => '(vs, r) <- items f t ;; Some (JArr vs, r)
            end
          else if c =? 34 then '(x, r) <- string_rest t ;; Some (JStr x, r)
          else if c =? 116 then r <- after (str "rue") t ;; Some (JBool true, r)
          else if c =? 102 then r <- after (str "alse") t ;; Some (JBool false, r)
          else if c =? 110 then r <- after (str "ull") t ;; Some (JNull, r)
          else '(n, r) <- number (c :: t) ;; Some (JNum n, r)
      end
  end
with members (fuel : nat) (s : list Z) : option (list (list Z * json) * list Z) :=
  match fuel with
  | O => None
  | S f =>
      match ws s with
      | 34 :: t =>
          '(k, r) <- string_rest t ;;
          match ws r with
          | 58 :: r1 =>
              '(v, r2) <- value f r1 ;;
              match ws r2 with
              | 44 :: r3 => '(ms, r4) <- members f r3 ;; Some ((k, v) :: ms, r4)
              | 125 :: r3 => Some ([(k, v)], r3)
              | _ => None
              end
          | _ => None
          end
      | _ => None
      end
  end
with items (fuel : nat) (s : list Z) : option (list json * list Z) :=
  match fuel with
  | O => None
  | S f =>
      '(v, r) <- value f s ;;
      match ws r with
      | 44 :: r1 => '(vs, r2) <- items f r1 ;; Some (v :: vs, r2)
      | 93 :: r1 => Some ([v], r1)
      | _ => None
      end
  end.

(** The value written by a whole text; [None] if the text is not JSON. A JSON text is UTF-8 (section 8.1). *)
Definition json_of (s : list Z) : option json :=
  if EepromTool.is_utf8 s then
    '(v, r) <- value (S (List.length s)) s ;;
    match ws r with [] => Some v | _ => None end
  else None.

(** Characters that may stand for themselves in a JSON string: everything but control characters, the quote and the
    backslash. [quotable] texts are those a JSON string can hold without escapes. *)
Definition quotable (s : list Z) : bool :=
  forallb (fun c => (32 <=? c) && negb (c =? 34) && negb (c =? 92)) s && EepromTool.is_utf8 s.
