(** Concrete images for the unpacking. *)
From Coq Require Import ZArith List Bool Lia ZifyBool.
From Verif Require Import Base BaseFacts Json Clock Erfs ErfsSpec ErfsSamples Prep Unpack UnpackSpec.
Import ListNotations.
Open Scope Z_scope.

(** A machine without summer time, in UTC. *)
Definition days_of (y m d : Z) : Z :=
  let y' := if m <=? 1 then y - 1 else y in let m' := if m <=? 1 then m + 10 else m - 2 in
  365 * y' + y' / 4 - y' / 100 + y' / 400 + (153 * m' + 2) / 5 + d - 1 - 719468.
Definition utc : zone := mk_zone gmtime (fun t => days_of (tm_year t) (tm_mon t) (tm_mday t) * 86400 + tm_hour t * 3600 + tm_min t * 60 + tm_sec t).
Lemma two_clear : Forall (fun f => printable (src_name f) /\ proper (src_name f) /\ clear_date utc f) two_files.
Proof.
  repeat constructor; cbn [src_name]; try (vm_compute; congruence); try (vm_compute; reflexivity); try lia.
Qed.
(** A name with an accent, in UTF-8; a name with a tabulation and the name that the tool makes of it. *)
Definition accent : list source := [mk_source (str "t" ++ [195; 169] ++ str ".txt") (str "x") 1].
Definition tab_pair : list source := [mk_source [9] (str "first") 1; mk_source (str "<9>") (str "second") 2].
Lemma accent_directory : directory accent. Proof. dir_case. Qed.
Lemma tab_directory : directory tab_pair. Proof. dir_case. Qed.
(** Two files of the night of 25 October 2020, at 2:30, one before and one after the change of time. *)
Definition night : list source := [mk_source (str "a") (str "x") 1603585800; mk_source (str "b") (str "y") 1603589400].
Lemma night_directory : directory night. Proof. dir_case. Qed.
(** Made by hand: one file named ../x *)
Definition escaping : list Z :=
  str "ERFS" ++ [3; 2; 1; 0] ++ [0; 0; 0; 0] ++ [28; 0; 0; 0] ++ [36; 0; 0; 0] ++ [2; 0; 0; 0] ++ [1; 0; 0; 0] ++ str "../x" ++ [0; 0; 0; 0] ++ str "hi".
