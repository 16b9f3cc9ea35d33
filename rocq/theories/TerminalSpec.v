(** Specification of the screen of the terminal: the characters that a user sees, with their colours. *)
From Coq Require Import ZArith List Bool Lia.
From Verif Require Import Base Simu Console ConsoleSpec Terminal.
Import ListNotations.
Open Scope Z_scope.

(** ** A terminal that knows colours (ECMA-48, "select graphic rendition") *)
Record look := mk_look { colour : option Z; dim : bool }.
Definition plain_look : look := mk_look None false.
(** One parameter: 0 resets, 2 is dim, 30 to 37 are the colours; others change neither. *)
Definition render (k : look) (n : Z) : look :=
  if n =? 0 then plain_look else if n =? 2 then mk_look (colour k) true
  else if (30 <=? n) && (n <=? 37) then mk_look (Some n) (dim k) else k.
(** Outside a sequence; after ESC; in the parameters: those complete, the current one. *)
Inductive place := Outside | Escaped | Inside (params : list Z) (n : Z).
(** The characters seen, each with its look. *)
Fixpoint display (p : place) (k : look) (t : list Z) : list (Z * look) :=
  match t with
  | [] => []
  | c :: r =>
      match p with
      | Outside => if c =? 27 then display Escaped k r else (c, k) :: display Outside k r
      | Escaped => if c =? 91 then display (Inside [] 0) k r else display Outside k r
      | Inside ps n =>
          if (48 <=? c) && (c <=? 57) then display (Inside ps (10 * n + (c - 48))) k r
          else if c =? 59 then display (Inside (ps ++ [n]) 0) k r
          else if c =? 109 then display Outside (fold_left render (ps ++ [n]) k) r
          else display Outside k r
      end
  end.
Definition screen (t : list Z) : list (Z * look) := display Outside plain_look t.

(** ** What must be seen *)
Definition cyan : look := mk_look (Some 36) false.
Definition red : look := mk_look (Some 31) false.
Definition faint : look := mk_look (Some 36) true.
Definition same_look (a b : look) : bool :=
  match colour a, colour b with Some x, Some y => x =? y | None, None => true | _, _ => false end && Bool.eqb (dim a) (dim b).
Definition written_in (k : look) (s : list (Z * look)) : list Z := map fst (filter (fun x => same_look k (snd x)) s).

(** The bytes read, in order, and the rest of what happened *)
Definition bytes_read (es : list term_event) : list Z := flat_map (fun e => match e with Read d => d | _ => [] end) es.
Definition local_events (es : list term_event) : list con_event := flat_map (fun e => match e with Local _ x => [x] | _ => [] end) es.
(** Nothing read, and no time, has an escape character in it; a key is a character. *)
Definition no_escape (t : list Z) : Prop := Forall (fun c => c <> 27) t.
Definition quiet (e : term_event) : Prop :=
  match e with Read d => no_escape d | Local stamp (Key c) => no_escape stamp /\ 0 <= c | Local stamp _ => no_escape stamp end.
(** A byte that is not ASCII is seen as U+FFFD. *)
Definition seen_byte (b : Z) : Z := if 127 <? b then 65533 else b.
Definition in_look (k : look) (t : list Z) : list (Z * look) := map (fun c => (c, k)) t.
(** The hexadecimal number in two digits of a control character *)
Definition code (c : Z) : list Z := [nth (Z.to_nat (c / 16)) (str "0123456789abcdef") 0; nth (Z.to_nat (c mod 16)) (str "0123456789abcdef") 0].
(** A frame is announced in red, by its time; a control character that is not a key of the terminal is shown faintly between angle brackets
    (DEL as BS), before a new line; the rest of what is typed is not shown by the terminal. [p]: automatic frames are off. *)
Definition announced (stamp : list Z) : list (Z * look) := in_look red (stamp ++ str " trame TIC" ++ [10]).
Definition bracketed (c : Z) : list (Z * look) := in_look faint (str "<" ++ code c ++ str ">") ++ in_look plain_look [10].
Fixpoint to_be_seen (p : bool) (es : list term_event) : list (Z * look) :=
  match es with
  | [] => []
  | Read d :: r => in_look cyan (map seen_byte d) ++ to_be_seen p r
  | Local _ (Key 25) :: r => to_be_seen (negb p) r
  | Local stamp (Key c) :: r =>
      (if existsb (Z.eqb c) [1; 4; 16; 20] then announced stamp else if c =? 127 then bracketed 8 else if c <? 32 then bracketed c else []) ++ to_be_seen p r
  | Local stamp Tick :: r => (if p then [] else announced stamp) ++ to_be_seen p r
  | Local _ _ :: r => to_be_seen p r
  end.

(** A conversation: the prompt, each command, what it answers, the end of the line. *)
Fixpoint conversation (answer : nat -> list Z -> list Z) (n : nat) (commands : list (list Z)) : list Z :=
  match commands with
  | [] => []
  | w :: r => str "$ " ++ w ++ [13] ++ answer n (w ++ [13]) ++ [13; 10] ++ conversation answer (S n) r
  end.
