(** Specification of the preparation of the data directory. *)
From Coq Require Import ZArith List Bool Lia Sorted Permutation.
From Verif Require Import Base Erfs Prep.
Import ListNotations.
Open Scope Z_scope.

(** White space: space, tabulation, ends of line and of page. *)
Definition white (c : Z) : Prop := c = 32 \/ 9 <= c <= 13.

(** ** Restricted pages *)

Definition occurs (w l : list Z) : Prop := exists a b, l = a ++ w ++ b.

(** A page made of public parts and of private parts between marks: a first public part, then private and public parts in turn. *)
Definition page_of (first : list Z) (parts : list (list Z * list Z)) : list Z :=
  first ++ flat_map (fun x => str "<!--RESTRICT_ON-->" ++ fst x ++ str "<!--RESTRICT_OFF-->" ++ snd x) parts.
Definition public_of (first : list Z) (parts : list (list Z * list Z)) : list Z := first ++ flat_map snd parts.
(** No mark inside the parts. *)
Definition well_marked (first : list Z) (parts : list (list Z * list Z)) : Prop :=
  ~ occurs (str "<!--RESTRICT_ON-->") first /\
  Forall (fun x => ~ occurs (str "<!--RESTRICT_OFF-->") (fst x) /\ ~ occurs (str "<!--RESTRICT_ON-->") (snd x)) parts.

(** The text seen by restricted clients, for any page: a private part goes from the first opening mark to the next closing
    mark, provided there is one. *)
Inductive seen : list Z -> list Z -> Prop :=
| seen_all : forall l, ~ (exists a b c, l = a ++ str "<!--RESTRICT_ON-->" ++ b ++ str "<!--RESTRICT_OFF-->" ++ c) -> seen l l
| seen_part : forall a s l r, ~ occurs (str "<!--RESTRICT_ON-->") a -> ~ occurs (str "<!--RESTRICT_OFF-->") s -> seen l r ->
    seen (a ++ str "<!--RESTRICT_ON-->" ++ s ++ str "<!--RESTRICT_OFF-->" ++ l) (a ++ r).

(** ** The data directory *)

Definition is_page (p : path) : Prop := suffix (name_of p) = str ".html".

(** Each source has its file in the data directory, with the right content; each page for restricted clients too. *)
Definition up_to_date (t : tools) (s d : tree) : Prop :=
  forall p f, get s p = Some f ->
    (exists g, get d (target p) = Some g /\ f_data g = produce t (packing_of p) (f_data f)) /\
    (is_page p -> occurs (str "<!--MAKE_RESTRICT-->") (f_data f) ->
     exists g, get d (restricted_target p) = Some g /\ f_data g = t_gzip t (t_minify t (cut 0 (f_data f)))).

(** The names written for a source. *)
Definition outputs (p : path) : list path :=
  target p :: (if beq (suffix (name_of p)) (str ".html") then [restricted_target p] else []).
(** A set of sources whose files never have the same name; pages are not hidden files. *)
Definition good_names (U : list path) : Prop :=
  NoDup (version_path :: flat_map outputs U) /\ Forall (fun p => p <> [] /\ (is_page p -> hd 0 (name_of p) <> 46)) U.

Definition edited (cs : list change) : list path :=
  flat_map (fun c => match c with Edit p _ _ | Restore p _ _ => [p] | _ => [] end) cs.
Definition dates (cs : list change) : list Z :=
  flat_map (fun c => match c with Edit _ _ m => [m] | Build _ now _ _ => [now] | Interrupt _ now _ _ _ _ => [now] | _ => [] end) cs.
(** Usual work: the sources are edited or deleted, the builds go to their end, all with the same programs. *)
Definition usual (t : tools) (c : change) : Prop :=
  match c with
  | Edit _ _ _ | Delete _ => True
  | Build t' _ _ order => t' = t /\ forall s, Permutation s (order s)
  | _ => False
  end.
