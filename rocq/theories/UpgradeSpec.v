(** Specification of the update form. *)
From Coq Require Import ZArith List Bool Lia.
From Verif Require Import Base Publish Config Tic Pages Sse Cpu Web Device Upgrade.
Import ListNotations.
Open Scope Z_scope.

(** The browser takes the file for a binary file. *)
Definition binary (f : picked) : Prop :=
  exists x t y, pk_type f = x ++ t ++ y /\ In t [str "application/macbinary"; str "application/octet-stream"].

(** A name without capital letters that ends with .bin and does not hold fs.bin before its end. *)
Definition plain_name (name : list Z) : Prop :=
  Forall (fun c => ~ 65 <= c <= 90) name /\ (exists x, name = x ++ str ".bin") /\
  (forall x y, name = x ++ str "fs.bin" ++ y -> y = []).

(** The parts of a file as the module gets them. Either everything goes well; or the library refuses to begin, to write or to
    end, and then reports a failure each time it is asked to end. *)
Inductive transfer (name : list Z) (len : Z) : list upload -> bool -> Prop :=
| goes_well : forall parts e0 e1, transfer name len (UpStart name len true e0 :: map (fun p => UpWrite p true e1) parts ++ [UpEnd true]) true
| goes_wrong : forall ok parts,
    transfer name len (UpStart name len ok false :: map (fun p => UpWrite (fst p) (snd p) false) parts ++ [UpEnd false]) false.

(** A size shown in a unit: the nearest whole number of units. *)
Definition nearest (n unit shown : Z) : Prop := 2 * Z.abs (n - shown * unit) <= unit.
