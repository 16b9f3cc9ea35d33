(** Property theorems C88: what the commands "config", "ls" and "get ver" print (src/cli.cpp, src/config.cpp:212-311,
    src/filesystem.cpp:25-35). *)
From Coq Require Import ZArith List Bool Lia.
From Verif Require Import Base BaseFacts Teleinfo TeleinfoSpec Publish HistorySpec Config ConfigSpec JsonBuild Tic TicSpec Pages Sse Cpu Web WebSpec Wifi Device Cli Life
  PagesSamples Samples TicSamples WebSamples ShowSpec ShowProofs.
Import ListNotations.
Open Scope Z_scope.

(** C88. When a byte completes a line that is the command "config", what is printed is, line by line, each setting after
    its name, for settings without end of line. *)
Theorem C88_config : forall fuel bd a up tv c raw d cl m l o, is_byte c ->
  lstep fuel bd (Event (DByte a up tv c) raw) (On d cl) = Done (m, Command l :: o) -> bd_parse bd l = CConfig ->
  exists t, o = [Printed t] /\ (Forall one_line (texts (view (cfg_of d))) -> lines_of t = settings_lines (view (cfg_of d))).
Proof. exact c88_config. Qed.
Print Assumptions C88_config.
(** Nothing is hidden: two modules that print the same have the same settings. *)
Theorem C88_nothing_hidden : forall c1 c2, wf c1 -> wf c2 -> Forall one_line (texts (view c1)) -> Forall one_line (texts (view c2)) ->
  config_text c1 = config_text c2 -> view c1 = view c2.
Proof. exact c88_nothing_hidden. Qed.
Print Assumptions C88_nothing_hidden.

(** "ls": one line per file, numbered from 1. *)
Theorem C88_ls : forall fuel bd a up tv c raw d cl m l o, is_byte c ->
  lstep fuel bd (Event (DByte a up tv c) raw) (On d cl) = Done (m, Command l :: o) -> bd_parse bd l = CLs ->
  exists t, o = [Printed t] /\ (Forall (fun f => one_line (cstr (fst f))) (a_files a) ->
    length (lines_of t) = length (a_files a) /\
    forall k name size, nth_error (a_files a) k = Some (name, size) ->
      nth_error (lines_of t) k = Some (str "FS File: " ++ two_columns (1 + Z.of_nat k) ++ str " " ++ cstr name ++ str ", size: " ++ dec size)).
Proof. exact c88_ls. Qed.
Print Assumptions C88_ls.

(** "get ver": the version, cut after 63 bytes. *)
Theorem C88_version : forall fuel bd a up tv c raw d cl m l o what args v, is_byte c ->
  lstep fuel bd (Event (DByte a up tv c) raw) (On d cl) = Done (m, Command l :: o) -> bd_parse bd l = CGet ((str "ver" ++ what) :: args) ->
  a_site a (str "/version") = Some v -> Forall (fun x => x <> 0) v ->
  exists shown rest, v = shown ++ rest /\ (length shown <= 63)%nat /\ (rest <> [] -> length shown = 63%nat) /\
    o = [Printed (str "read " ++ dec (Z.of_nat (length shown)) ++ str ", version: '" ++ shown ++ str "'" ++ [10])].
Proof. exact c88_version. Qed.
Print Assumptions C88_version.

(** A module with a login, eleven files and a version; its interpreter knows the three commands by their first letter. *)
Definition by_letter (l : list Z) : command :=
  match l with 99 :: _ => CConfig | 108 :: _ => CLs | 118 :: _ => CGet [str "ver"] | _ => CBad end.
Definition talking : build := mk_build true true by_letter.
Definition eleven : list (list Z * Z) := map (fun k => (str "page" ++ dec k, 100 + k)) [1; 2; 3; 4; 5; 6; 7; 8; 9; 10; 11].
Definition around11 : around := mk_around env0 5000 info1 eleven [net1] (fun p => if beq p (str "/version") then Some (str "v1.2 2020-03-01") else None) Stored 1000000.
Definition ask_for (letter : list Z) : list happening :=
  match lstep 256 talking (Event (DByte around11 (fun _ => true) now0 13) []) (On dev_login (mk_cli true letter)) with Done (_, o) => o | _ => [] end.
Example C88_case : (exists m o, lstep 256 talking (Event (DByte around11 (fun _ => true) now0 13) []) (On dev_login (mk_cli true (str "c"))) = Done (m, Command (str "c" ++ [13]) :: o)) /\
  Forall one_line (texts (view (cfg_of dev_login))) /\ Forall (fun f => one_line (cstr (fst f))) eleven /\
  match ask_for (str "c") with [Command _; Printed t] => nth_error (lines_of t) 9 = Some (str "Username :me") /\ length (lines_of t) = 36%nat | _ => False end /\
  match ask_for (str "l") with [Command _; Printed t] => nth_error (lines_of t) 0 = Some (str "FS File:  1 page1, size: 101") /\ nth_error (lines_of t) 10 = Some (str "FS File: 11 page11, size: 111") | _ => False end /\
  match ask_for (str "v") with [Command _; Printed t] => t = str "read 15, version: 'v1.2 2020-03-01'" ++ [10] | _ => False end.
Proof.
  split; [do 2 eexists; reflexivity|].
  split; [repeat (apply Forall_cons; [apply plainb; vm_compute; reflexivity|]); constructor|].
  split; [repeat (apply Forall_cons; [apply plainb; vm_compute; reflexivity|]); constructor|].
  split; [split; vm_compute; reflexivity|]. split; [split; vm_compute; reflexivity|vm_compute; reflexivity].
Qed.
