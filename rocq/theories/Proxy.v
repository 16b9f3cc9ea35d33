(** Model of the development proxy: tools/default.conf and tools/httpdev.sh. The site comes from data_src, the data from a module. *)
From Coq Require Import ZArith List Bool Lia.
From Verif Require Import Base Publish Config Tic Pages Sse Cpu Web.
Import ListNotations.
Open Scope Z_scope.

(** What a location does: [Files]: root (tools/default.conf:14-17, 22-25); [Module]: proxy_pass to the module, without a path, that is with the URI, the method, the
    arguments, the body and the credentials of the request, and no header X-Forwarded-For of its own. *)
Inductive target := Files | Module.
(** tools/default.conf:14-61: the locations by prefix *)
Definition locations : list (list Z * target) :=
  [(str "/", Files); (str "/spiffs.json", Module); (str "/wifiscan.json", Module); (str "/config.json", Module); (str "/config_form.json", Module);
   (str "/tinfo.json", Module); (str "/system.json", Module); (str "/json", Module); (str "/hb.html", Module); (str "/reset", Module);
   (str "/factory_reset", Module); (str "/sse/json", Module); (str "/tic", Module)].
(** nginx takes the longest prefix of the URI, an exact location (=) before; nginx is not in /repo. *)
Definition longest (uri : list Z) (best : option (list Z * target)) (l : list Z * target) : option (list Z * target) :=
  if has_prefix (fst l) uri then
    match best with Some b => if Nat.leb (length (fst b)) (length (fst l)) then Some l else best | None => Some l end
  else best.
Definition choose (uri : list Z) : option target :=
  if beq uri (str "/50x.html") then Some Files else option_map snd (fold_left (longest uri) locations None).

(** What the browser gets: an answer of the module; a file; the page of an error. *)
Inductive reply := FromModule (r : res (device * list out)) | File (content : list Z) | Error (code : Z).
(** A file of data_src by its path; index.html for a folder (tools/default.conf:16). Other methods than GET are refused for files. Simplifications:
    the URI is decoded and without dots, folders without a final slash are not found (nginx redirects), index.htm is not tried. *)
Definition file_reply (files : list Z -> option (list Z)) (q : hreq) : reply :=
  match q_method q with
  | GET =>
      match files (if last (q_uri q) 0 =? 47 then q_uri q ++ str "index.html" else q_uri q) with
      | Some c => File c
      | None => Error 404
      end
  | _ => Error 405
  end.
Definition proxy (fuel : nat) (files : list Z -> option (list Z)) (a : around) (q : hreq) (d : device) : reply :=
  match choose (q_uri q) with
  | Some Module => FromModule (handle fuel a q d)
  | Some Files => file_reply files q
  | None => Error 400
  end.
