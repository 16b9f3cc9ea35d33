(** Specification of the unpacking of an image. *)
From Coq Require Import ZArith List Bool Lia.
From Verif Require Import Base Json Clock Erfs ErfsSpec Prep Unpack.
Import ListNotations.
Open Scope Z_scope.

(** The directories of a name and its last part. *)
Definition parts (name : list Z) : path := split_on 47 name.
(** What a directory gives: no empty part, no . and no .. *)
Definition proper (name : list Z) : Prop := Forall (fun p => p <> [] /\ p <> str "." /\ p <> str "..") (parts name).
(** Characters of ASCII that are printed. *)
Definition printable (name : list Z) : Prop := Forall (fun c => 32 <= c < 128) name.

(** The file that must be found in the directory: same parts, date (in ns) and content. *)
Definition copy_of (f : source) : path * file := (parts (src_name f), mk_file (src_time f * 1000000000) (src_data f)).

(** The clock of the machine gives back this date (there is no other date with the same local time). *)
Definition clear_date (z : zone) (f : source) : Prop := z_mktime z (z_local z (src_time f)) = src_time f.

(** How a name is written by the tool: control characters as <n>, the other bytes taken as Latin-1 characters. *)
Definition renamed (name : list Z) : list Z := flat_map (fun c => if c <? 32 then [60] ++ dec c ++ [62] else utf8_of c) name.

(** A text at the right of [n] columns; a number with at least [n] digits. *)
Definition aligned (n : nat) (text : list Z) : list Z := repeat 32 (n - length text) ++ text.
Definition filled (n : nat) (v : Z) : list Z := repeat 48 (n - length (dec v)) ++ dec v.
(** A date as it is written: year-month-dayThours:minutes:secondsZ (the months of [tm] are counted from 0). *)
Definition written_date (r : tm) : list Z :=
  filled 4 (tm_year r) ++ str "-" ++ filled 2 (tm_mon r + 1) ++ str "-" ++ filled 2 (tm_mday r) ++ str "T" ++
  filled 2 (tm_hour r) ++ str ":" ++ filled 2 (tm_min r) ++ str ":" ++ filled 2 (tm_sec r) ++ str "Z".
(** A line of the list: number (4 columns), size (8 columns), date, name. *)
Fixpoint listing (z : zone) (i : Z) (files : list source) : list Z :=
  match files with
  | [] => []
  | f :: r =>
      aligned 4 (dec i) ++ str "  " ++ aligned 8 (dec (size_of (src_data f))) ++ str "  " ++ written_date (z_local z (src_time f)) ++ str "  " ++
      renamed (src_name f) ++ [10] ++ listing z (i + 1) r
  end.

(** The byte of the image at the place where the name of a record starts. *)
Definition name_start (fs r : list Z) : option Z := nth_error fs (Z.to_nat (rec_name r)).
