(** Model of the update form of the settings page: data_src/index.html:558-597 (form), 691-696 and 794-802 (sizes shown),
    804-846 (messages, waiting for the restart), 1003-1083 (choice of the file, sending, answer).

    File names are lists of characters; only ASCII names are modelled (toLowerCase and the encoding of the name in the request
    would have to be described otherwise). *)
From Coq Require Import ZArith List Bool Lia.
From Verif Require Import Base Publish Config Tic Pages Sse Cpu Web Device.
Import ListNotations.
Open Scope Z_scope.

(** A regular expression that is a sequence of characters and dots followed by $, as in name.match("fs.bin$"): the dot
    ([None]) is any character but a line break, the match may begin anywhere. *)
Fixpoint matches_here (p : list (option Z)) (s : list Z) : bool :=
  match p, s with
  | [], [] => true
  | Some k :: p', c :: s' => (c =? k) && matches_here p' s'
  | None :: p', c :: s' => negb ((c =? 10) || (c =? 13)) && matches_here p' s'
  | _, _ => false
  end.
Fixpoint matches_end (p : list (option Z)) (s : list Z) : bool :=
  matches_here p s || match s with [] => false | _ :: r => matches_end p r end.
Definition fs_bin : list (option Z) := map Some (str "fs") ++ None :: map Some (str "bin").   (* data_src/index.html:1013 *)
Definition any_bin : list (option Z) := None :: map Some (str "bin").                          (* data_src/index.html:1014 *)

(** A file chosen by the user: its name, the type that the browser gives it, its bytes. *)
Record picked := mk_picked { pk_name : list Z; pk_type : list Z; pk_bytes : list Z }.

(** The label of the button: "Mise à jour Logiciel" or "Mise à jour Web". *)
Inductive image := Software | Website.

(** data_src/index.html:1010-1028: [None] if the file is refused. f.type.match(...) with a pattern without special character
    is a search. *)
Definition judge (f : picked) : option image :=
  let name := map tolower (pk_name f) in
  if negb (contains (str "application/macbinary") (pk_type f)) && negb (contains (str "application/octet-stream") (pk_type f))
  then None
  else if matches_end fs_bin name then Some Website
  else if matches_end any_bin name then Some Software
  else None.

(** The form: the button, if it is shown, with its label; the file in the file box. *)
Record upform := mk_upform { u_button : option image; u_file : option picked }.
Definition upform_start : upform := mk_upform None None.

(** The file box changes, data_src/index.html:1005-1049. If it is emptied (the user cancels the dialogue, in browsers that
    then forget the file), f is undefined and the script stops at f.name, before it has changed anything. *)
Inductive choice := Picks (f : picked) | Empties.
Definition choose (u : upform) (c : choice) : upform :=
  match c with
  | Picks f => mk_upform (judge f) (Some f)
  | Empties => mk_upform (u_button u) None
  end.

(** A click on the button sends the file box, data_src/index.html:1051-1057: the name and the bytes of the file, or an empty
    name and nothing. [None]: there is no button. *)
Definition submit (u : upform) : option (list Z * list Z) :=
  match u_button u with
  | None => None
  | Some _ => Some match u_file u with Some f => (pk_name f, pk_bytes f) | None => ([], []) end
  end.

(** What the browser gets: the first response sent on the connection. *)
Fixpoint first_reply (os : list out) : option (Z * list Z) :=
  match os with
  | [] => None
  | Reply code _ body :: _ => Some (code, body)
  | _ :: r => first_reply r
  end.

(** The message shown at the end and, if it is good news, waitReboot is called: data_src/index.html:1068-1081. jQuery calls
    success for the codes 200 to 299 and 304. The text of an error is left out. *)
Inductive message := GoodNews (text : list Z) | BadNews.
Definition accepted_code (code : Z) : bool := (200 <=? code) && (code <? 300) || (code =? 304).
Definition on_end (r : option (Z * list Z)) : message :=
  match r with
  | Some (code, body) => if accepted_code code then GoodNews (dec code ++ [32] ++ body) else BadNews
  | None => BadNews
  end.

(** waitReboot, data_src/index.html:820-846: every second /hb.htm is asked for; as soon as the answer is OK the page is loaded
    again. [answers]: what is got each second ([None]: no answer in time). The result is the number of seconds waited. *)
Fixpoint wait_restart (answers : list (option (Z * list Z))) : option nat :=
  match answers with
  | [] => None
  | a :: r =>
      if match a with Some (code, body) => accepted_code code && beq body (str "OK") | None => false end then Some 1%nat
      else option_map S (wait_restart r)
  end.

(** (n / unit).toFixed(0) for a number n of bytes: exact below 2^53, halves are rounded up. *)
Definition rounded (n unit : Z) : Z := (2 * n + unit) / (2 * unit).
(** formatSize, data_src/index.html:691-696 *)
Definition format_size (n : Z) : list Z :=
  if n <? 1024 then dec n ++ str " Bytes"
  else if n <? 1048576 then dec (rounded n 1024) ++ str " KB"
  else if n <? 1073741824 then dec (rounded n 1048576) ++ str " MB"
  else dec (rounded n 1073741824) ++ str " GB".
