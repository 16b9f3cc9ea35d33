(** Model of the way a file of the ERFS partition goes to a web client: src/webserver.cpp:249-280 (webserver_handle_read),
    208-216 (/version), 227-230 (serveStatic). *)
From Coq Require Import ZArith List Bool Lia.
From Verif Require Import Base Erfs ErfsSpec.
Import ListNotations.
Open Scope Z_scope.

(** The bytes put in the buffers by a series of reads. *)
Definition got (rs : list (answer * Z)) : list Z :=
  flat_map (fun r => match fst r with Got n b => firstn (Z.to_nat n) b | Sought _ => [] end) rs.

(** WIFINFO_FS.open(path, "r") then server.streamFile(file, type): the library reads the file block by block until nothing
    is left. [block]: size of its blocks, [addr]: address of its buffer, [buf32]: content of the buffer of the ERFS driver,
    [j]: content of the memory used by the search. The number of blocks is enough for the size of the file and one more read.
    [None]: undefined behaviour; [Some None]: the file does not exist. *)
Definition stream_path (s : erfs) (j : junk) (addr : Z) (block : positive) (buf32 path : list Z) : option (option (list Z)) :=
  '(f, _) <- erfs_open s path j ;;
  match f with
  | None => Some None
  | Some e =>
      let k := Z.pos block in
      '(rs, _) <- session s buf32 e (repeat (Read addr (repeat 0 (Pos.to_nat block)) k) (S (Z.to_nat (ef_size e / k)))) ;;
      Some (Some (got rs))
  end.
