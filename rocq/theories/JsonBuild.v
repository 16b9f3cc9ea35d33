(** Model of src/jsonbuilder.h. A String is the list of its characters; running out of memory is not modelled. The
    names and values are C strings (no NUL). *)
From Coq Require Import ZArith List Bool Lia.
From Verif Require Import Base.
Import ListNotations.
Open Scope Z_scope.

(** ** JSONBuilder *)

(** JSONBuilder::JSONBuilder(String &, size_t), src/jsonbuilder.h:18-24: the text is cleared. *)
Definition jb_new : list Z := [123; 34].

(** JSONBuilder::append of a C string, src/jsonbuilder.h:26-37 *)
Definition jb_str (name v : list Z) (last : bool) (s : list Z) : list Z :=
  s ++ name ++ [34; 58; 34] ++ v ++ (if last then [34; 125] else [34; 44; 34]).

(** JSONBuilder::append_without_quote, src/jsonbuilder.h:52-63 *)
Definition jb_raw (name v : list Z) (last : bool) (s : list Z) : list Z :=
  s ++ name ++ [34; 58] ++ v ++ (if last then [125] else [44; 34]).

(** JSONBuilder::append of a uint32_t, src/jsonbuilder.h:39-50: String::concat writes the number in
    decimal. *)
Definition jb_num (name : list Z) (n : Z) (last : bool) (s : list Z) : list Z := jb_raw name (dec n) last s.

(** JSONBuilder::finalize, src/jsonbuilder.h:65-84. [None]: the text is too short (reference to a character before
    the beginning). *)
Definition jb_finalize (s : list Z) : option (list Z) :=
  match rev s with
  | _ :: c :: r => Some (rev (if c =? 123 then 125 :: c :: r else 125 :: r))
  | _ => None
  end.

(** ** JSONTableBuilder *)

(** JSONTableBuilder::JSONTableBuilder(String &, size_t), src/jsonbuilder.h:97-103 *)
Definition jt_new : list Z := [91].

(** JSONTableBuilder::append of a C string, src/jsonbuilder.h:105-113; append of a String,
    src/jsonbuilder.h:115-119, is the same. *)
Definition jt_str (name v : list Z) (s : list Z) : list Z :=
  s ++ [123; 34; 110; 97; 34; 58; 34] (* {na: *) ++ name ++ [34; 44; 34; 118; 97; 34; 58; 34] (* ,va: *) ++ v ++ [34; 125; 44].

(** JSONTableBuilder::append of a uint32_t, src/jsonbuilder.h:121-129 *)
Definition jt_num (name : list Z) (n : Z) (s : list Z) : list Z :=
  s ++ [123; 34; 110; 97; 34; 58; 34] ++ name ++ [34; 44; 34; 118; 97; 34; 58] ++ dec n ++ [125; 44].

(** JSONTableBuilder::finalize, src/jsonbuilder.h:131-139 *)
Definition jt_finalize (s : list Z) : option (list Z) :=
  match rev s with
  | c :: r => Some (rev (if c =? 91 then 93 :: c :: r else 93 :: r))
  | [] => None
  end.
