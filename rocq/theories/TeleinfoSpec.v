(** Specification of the teleinformation frame, independent of the decoder automaton.
    It follows the Enedis description quoted in src/teleinfo.h:16-31: a frame is STX, groups, ETX;
    a group is LF, label, separator, value, separator, checksum, CR. *)
From Coq Require Import ZArith List Bool Lia.
From Verif Require Import Base.
Import ListNotations.
Open Scope Z_scope.

(** The five transmission control characters STX ETX EOT LF CR. *)
Definition is_ctrl (c : Z) : bool := (c =? 2) || (c =? 3) || (c =? 4) || (c =? 10) || (c =? 13).
Definition plain (l : list Z) : Prop := Forall (fun c => is_byte c /\ is_ctrl c = false) l.

Definition total (l : list Z) : Z := fold_right Z.add 0 l.

(** ** Raw groups: what stands between LF and CR *)

(** everything but the last two characters (second separator and checksum) *)
Definition payload (b : list Z) : list Z := firstn (List.length b - 2) b.
Definition second_sep (b : list Z) : Z := nth (List.length b - 2) b 0.
Definition checksum_char (b : list Z) : Z := nth (List.length b - 1) b 0.

(** Enedis checksum, "mode 1": low six bits of the sum of label, separator and value, plus 0x20. *)
Definition checksum (l : list Z) : Z := total l mod 64 + 32.

(** An acceptable raw group. *)
Definition good_body (b : list Z) : Prop :=
  plain b /\ (4 <= List.length b)%nat /\ checksum_char b = checksum (payload b).

(** Text kept for a raw group: the first separator becomes NUL, trailing dots are dropped, NUL is appended.
    (Bytes 255, impossible on the 7-bit line, also become NUL after the first separator: quirk of the
    "impossible value" -1 of src/teleinfo.h:479.) *)
Fixpoint cut (sep : Z) (l : list Z) : list Z :=
  match l with
  | [] => []
  | b :: r => if b =? sep then 0 :: map (fun c => if c =? 255 then 0 else c) r else b :: cut sep r
  end.
Fixpoint drop_dots (l : list Z) : list Z :=
  match l with
  | c :: r => if c =? 46 then drop_dots r else l
  | [] => []
  end.
Definition rstrip (l : list Z) : list Z := rev (drop_dots (rev l)).
Definition kept (b : list Z) : list Z := rstrip (cut (second_sep b) (payload b)) ++ [0].
Definition content (bodies : list (list Z)) : list Z := concat (map kept bodies).

(** Room needed while receiving: at each CR fewer than 348 characters may be pending. *)
Fixpoint fits (used : nat) (bodies : list (list Z)) : Prop :=
  match bodies with
  | [] => True
  | b :: r => (used + List.length b < 348)%nat /\ fits (used + List.length (kept b)) r
  end.

(** The bytes on the line. *)
Definition enc_body (b : list Z) : list Z := 10 :: b ++ [13].
(** the groups alone *)
Definition groups (bodies : list (list Z)) : list Z := concat (map enc_body bodies).
Definition frame_bytes (bodies : list (list Z)) : list Z := 2 :: concat (map enc_body bodies) ++ [3].

(** A complete valid frame. *)
Definition valid_frame (bodies : list (list Z)) : Prop :=
  bodies <> [] /\ Forall good_body bodies /\ fits 0 bodies.

(** ** Labelled groups: the meter's view *)

(** A label and a value as a meter sends them with separator [sep] (SP or HT on real meters). *)
Definition group := (list Z * list Z)%type.
Definition enc_group (sep : Z) (g : group) : list Z :=
  let p := fst g ++ [sep] ++ snd g in p ++ [sep; checksum p].

(** [g] can be transmitted with separator [sep]: label and value of plain non-NUL characters (7 bits),
    not both empty, no separator in the label. *)
Definition char7 (c : Z) : Prop := 0 < c < 128 /\ is_ctrl c = false.
Definition good_group (sep : Z) (g : group) : Prop :=
  char7 sep /\ Forall char7 (fst g) /\ Forall char7 (snd g) /\ ~ In sep (fst g)
  /\ (1 <= List.length (fst g) + List.length (snd g))%nat.

(** A group with the separator used to send it (each group may use its own). *)
Definition tgroup := (Z * group)%type.
Definition enc_t (x : tgroup) : list Z := enc_group (fst x) (snd x).
Definition good_t (x : tgroup) : Prop := good_group (fst x) (snd x).

(** What a reader gets for a group: trailing dots of the value are removed. *)
Definition shown (g : group) : group := (fst g, rstrip (snd g)).

(** ** Reading the kept text *)

(** NUL-terminated pieces of a text ending in NUL. *)
Fixpoint pieces (acc l : list Z) : list (list Z) :=
  match l with
  | [] => []
  | b :: r => if b =? 0 then rev acc :: pieces [] r else pieces (b :: acc) r
  end.
Fixpoint pair_up (l : list (list Z)) : list group :=
  match l with
  | a :: b :: r => (a, b) :: pair_up r
  | _ => []
  end.
Definition pairs_of (text : list Z) : list group := pair_up (pieces [] text).

(** First value carrying a label. *)
Fixpoint lookup (label : list Z) (gs : list group) : option (list Z) :=
  match gs with
  | [] => None
  | (l, v) :: r => if beq l label then Some v else lookup label r
  end.

(** Leading zeros removed from an all-digit text, keeping at least one digit. *)
Fixpoint no_leading_zeros (v : list Z) : list Z :=
  match v with
  | c :: ((_ :: _) as r) => if c =? 48 then no_leading_zeros r else v
  | _ => v
  end.
Definition all_digit (v : list Z) : bool := forallb isdigit v.
Definition trim_number (v : list Z) : list Z := if all_digit v then no_leading_zeros v else v.

(** The number denoted by a value, modulo 2^32; [d] when the label is absent or the value is not all digits. *)
Definition int_of (d : Z) (v : option (list Z)) : Z :=
  match v with
  | Some s => if all_digit s then u32 (dec_value s) else d
  | None => d
  end.

(** One line of the ASCII dump: "LABEL VALUE\n". *)
Definition line (g : group) : list Z := fst g ++ [32] ++ snd g ++ [10].

(** ** Transmission errors *)

(** In the raw group p1 ++ x :: p2, character x is received as y. The change can be noticed when y is a control
    character, when it hits the label, the first separator or the value and changes the character modulo 64, or when
    it hits the checksum character itself. *)
Definition detectable (x : Z) (p2 : list Z) (y : Z) : Prop :=
  y <> x /\
  (is_ctrl y = true
   \/ (2 <= List.length p2)%nat /\ (y - x) mod 64 <> 0
   \/ List.length p2 = 0%nat).

(** The frame of groups bs1, (p1 ++ y :: p2), bs2 as received. *)
Definition altered_frame (bs1 : list (list Z)) (p1 : list Z) (y : Z) (p2 : list Z) (bs2 : list (list Z)) : list Z :=
  2 :: groups bs1 ++ 10 :: p1 ++ y :: p2 ++ 13 :: groups bs2 ++ [3].
