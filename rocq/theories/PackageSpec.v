(** Specification of the package for the Arduino IDE (C116). *)
From Coq Require Import ZArith List Bool Lia.
From Verif Require Import Base Amalg Package.
Import ListNotations.
Open Scope Z_scope.

(** The places of the files in the package. *)
Definition place_of_source (n : list Z) : path := [str "wifinfo"; n].
Definition place_of_data (p : path) : path := str "wifinfo" :: str "data" :: p.
(** Names that can be together on a disk: no file twice, and no file that is also a folder. *)
Definition inside (p q : path) : Prop := exists x r, q = p ++ x :: r.
Definition consistent (ps : list path) : Prop := NoDup ps /\ forall p q, In p ps -> In q ps -> ~ inside p q.
(** The whole source tree is such, and src has no file named data. *)
Definition proper (src : sources) (data : tree) : Prop :=
  NoDup (map fst src) /\ consistent (map fst data) /\ ~ In (str "data") (map fst src) /\ ~ In [] (map fst data).
(** What is in the package for a path of it, when the sources are copied as they are. *)
Definition expected_at (src : sources) (data : tree) (p : path) (found : option (list Z)) : Prop :=
  (forall n ls, In (n, ls) src -> p = place_of_source n -> found = Some (concat ls)) /\
  (forall q c, In (q, c) data -> p = place_of_data q -> found = Some c).
Definition in_package (src : sources) (data : tree) (p : path) : Prop :=
  (exists n, In n (map fst src) /\ p = place_of_source n) \/ (exists q, In q (map fst data) /\ p = place_of_data q).
(** Unpacking an archive: the entries are written one after the other. *)
Definition unpack (entries : tree) (folder : tree) : tree := fold_left (fun t f => put (fst f) (snd f) t) entries folder.
