(** Specification of the files sent by the web server. *)
From Coq Require Import ZArith List Bool Lia.
From Verif Require Import Base Erfs ErfsSpec Web Device WebSpec Site.
Import ListNotations.
Open Scope Z_scope.

(** The first of these files that exists is sent, under its name; else the answer is [default]. *)
Fixpoint first_file (site : list Z -> option (list Z)) (names : list (list Z)) (default : out) : out :=
  match names with
  | [] => default
  | n :: r => match site n with Some c => SendFile n c | None => first_file site r default end
  end.

(** The page sent when there is no home page: a link to the upgrade page. *)
Definition link_to_update : list Z := str "<!DOCTYPE HTML PUBLIC<title>update</title><a href=""/update"">update</a>".

(** The directories served as they are. *)
Definition served_dir (uri : list Z) : Prop :=
  exists p rest, In p [str "/fonts"; str "/js"; str "/css"; str "/favicon.ico"] /\ uri = p ++ rest.

(** Content of the file of that name among those of a data directory. *)
Fixpoint packed (files : list source) (name : list Z) : option (list Z) :=
  match files with
  | [] => None
  | f :: r => if beq (src_name f) name then Some (src_data f) else packed r name
  end.

(** The files the web server sees are those of the mounted partition, read in blocks of any size. *)
Definition site_is (s : erfs) (site : list Z -> option (list Z)) : Prop :=
  forall path, Forall (fun c => c <> 0) path -> path <> [] -> path <> [47] ->
  exists j addr block buf32, size_of buf32 = 260 /\ Z.pos block < 2147483648 /\ stream_path s j addr block buf32 path = Some (site path).
