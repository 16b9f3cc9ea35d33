(** Property theorems C89: the single source file made for the Arduino IDE (tools/mkarduinosrc.py). *)
From Coq Require Import ZArith List Bool Lia.
From Verif Require Import Base BaseFacts Amalg AmalgSpec AmalgProofs.
Import ListNotations.
Open Scope Z_scope.

(** C89. The program ends, even if headers include each other. *)
Theorem C89_ends : forall src, amalgamate src <> NoFuel.
Proof. exact c89_ends. Qed.
Print Assumptions C89_ends.
(** It makes the file if all the headers exist and the lines #include are understood. *)
Theorem C89_made : forall src, complete src -> exists a, amalgamate src = Made a.
Proof. exact c89_made. Qed.
Print Assumptions C89_made.
(** Each file of the program is there once, with all its lines in order, those that include or forbid to include twice being commented; no
    other file is there. *)
Theorem C89_once : forall src a, amalgamate src = Made a -> forall f,
  (part_of src f -> exists ls, lines_named src f = Some ls /\ taken f (am_lines a) = whole ls) /\
  (~ part_of src f -> taken f (am_lines a) = []).
Proof. exact c89_once. Qed.
Print Assumptions C89_once.
(** A header is complete before the lines that follow any line including it. *)
Theorem C89_before : forall src a, amalgamate src = Made a -> acyclic src -> forall x f j l y k h, am_lines a = x ++ (Some (f, j), l) :: y ->
  (k < j)%nat -> includes src f k h -> taken h y = [] /\ exists ls, lines_named src h = Some ls /\ taken h x = whole ls.
Proof. exact c89_before. Qed.
Print Assumptions C89_before.

(** Which lines include: #include "header" after blanks, whatever follows that has no quote; #include <header> is left to the
    compiler; a line whose first character that is not a blank is not # is copied. *)
Theorem C89_lines : forall blanks header rest, spaces_only blanks ->
  (header <> [] -> ~ In 34 rest -> kind_of (include_line blanks header rest) = Local header) /\
  (header <> [] -> ~ In 34 (header ++ rest) -> kind_of (system_line blanks header rest) = System) /\
  (forall c, c <> 35 -> white c = false -> kind_of (blanks ++ c :: rest) = Other).
Proof. intros b h r B. split; [|split]; [intros; apply c89_include|intros; apply c89_system|intros; apply c89_other]; assumption. Qed.
Print Assumptions C89_lines.
Example C89_ex_lines : kind_of ([32; 9] ++ str "#include " ++ [34] ++ str "tic.h" ++ [34] ++ str "  // frames" ++ [10]) = Local (str "tic.h") /\
  kind_of (str "  // #include " ++ [34] ++ str "tic.h" ++ [34; 10]) = Other.
Proof. split; reflexivity. Qed.
(** A quote in the comment that follows: the program takes the comment for a part of the name, and fails. *)
Theorem C89_quoted_comment_refuted : exists src blanks header rest n, spaces_only blanks /\ lines_named src header <> None /\
  src = [(str "main.cpp", [include_line blanks header rest]); (header, [])] /\ amalgamate src = NoFile n.
Proof.
  exists [(str "main.cpp", [include_line [] (str "tic.h") (str " // not " ++ [34] ++ str "old.h" ++ [34; 10])]); (str "tic.h", [])], [], (str "tic.h"), (str " // not " ++ [34] ++ str "old.h" ++ [34; 10]).
  eexists. split; [constructor|]. split; [vm_compute; discriminate|]. split; [reflexivity|]. vm_compute. reflexivity.
Qed.
Print Assumptions C89_quoted_comment_refuted.

(** Sources like those of the module, in the order of a file system: the commands are compiled only if they are chosen. *)
Definition line (s : list Z) : list Z := s ++ [10].
Definition quoted (s : list Z) : list Z := line (str "#include " ++ [34] ++ s ++ [34]).
Definition src1 : sources :=
  [(str "cli.cpp", [quoted (str "wifinfo.h"); line (str "#ifdef ENABLE_CLI"); quoted (str "sse.h"); line (str "void cli();"); line (str "#endif")]);
   (str "sse.h", [line (str "#pragma once"); quoted (str "webserver.h"); line (str "class SseClient;")]);
   (str "unused.h", [line (str "#pragma once")]);
   (str "main.cpp", [quoted (str "wifinfo.h"); quoted (str "webserver.h"); line (str "#include <Arduino.h>"); line (str "void setup();")]);
   (str "config.cpp", [quoted (str "wifinfo.h"); quoted (str "emptyserial.h"); line (str "Config config;")]);
   (str "emptyserial.h", [line (str "#pragma once"); line (str "#define Serial")]);
   (str "tic.cpp", [quoted (str "wifinfo.h"); quoted (str "sse.h"); line (str "SseClients clients;")]);
   (str "webserver.h", [line (str "#pragma once"); line (str "void webserver();")]);
   (str "wifinfo.h", [line (str "#pragma once"); line (str "#define ENABLE_LED")])].
Definition rank1 (n : list Z) : nat := if has_extension (str ".cpp") n then 2%nat else if beq n (str "sse.h") then 1%nat else 0%nat.
Definition file1 : list item := match amalgamate src1 with Made a => am_lines a | _ => [] end.

(** A header included first inside a conditional part disappears with it, for all the units: the real cli.cpp does that with sse.h, and the
    commands are not chosen in wifinfo.h for the Arduino IDE. *)
Theorem C89_conditional_include_refuted : exists src a u l, complete src /\ acyclic src /\ amalgamate src = Made a /\ In u (units src) /\
  In l (map fst (compiled src [] u)) /\ ~ In l (map fst (compiled (single (am_lines a)) [] (str "wifinfo.ino"))).
Proof.
  exists src1. destruct (amalgamate src1) as [a| | |] eqn:E; try (vm_compute in E; discriminate).
  exists a, (str "tic.cpp"), (line (str "class SseClient;")).
  split; [|split; [|split; [reflexivity|split; [right; right; right; right; left; reflexivity|split; [right; left; reflexivity|]]]]].
  - intros f ls l F I.
    assert (X : In ls (map snd src1)).
    { revert F. generalize src1. induction s as [|[m x] s IH]; intros F; [discriminate|]. cbn [lines_named] in F. destruct (beq m f); [injection F as ->; left; reflexivity|right; apply IH, F]. }
    assert (Y : forallb (forallb (fun l => match kind_of l with Wrong => false | Local h => match lines_named src1 h with Some _ => true | None => false end | _ => true end)) (map snd src1) = true)
      by (vm_compute; reflexivity).
    rewrite forallb_forall in Y. specialize (Y ls X). rewrite forallb_forall in Y. specialize (Y l I). destruct (kind_of l); (split; [discriminate|]); try discriminate; intros h H; try discriminate.
    injection H as <-. destruct (lines_named src1 header); discriminate.
  - exists rank1.
    intros f k h (ls & l & F & N & K).
    assert (X : In (f, ls) src1).
    { revert F. generalize src1. induction s as [|[m x] s IH]; intros F; [discriminate|]. cbn [lines_named] in F. destruct (beq m f) eqn:B; [apply beq_eq in B; injection F as ->; subst m; left; reflexivity|right; apply IH, F]. }
    assert (Y : forallb (fun p => forallb (fun l => match kind_of l with Local h => Nat.ltb (rank1 h) (rank1 (fst p)) | _ => true end) (snd p)) src1 = true)
      by (vm_compute; reflexivity).
    rewrite forallb_forall in Y. specialize (Y _ X). cbn [fst snd] in Y. rewrite forallb_forall in Y. specialize (Y l (nth_error_In _ _ N)). rewrite K in Y.
    apply Nat.ltb_lt in Y. exact Y.
  - assert (A : am_lines a = file1) by (unfold file1; rewrite E; reflexivity). rewrite A.
    assert (X : existsb (beq (line (str "class SseClient;"))) (map fst (compiled (single file1) [] (str "wifinfo.ino"))) = false) by (vm_compute; reflexivity).
    intro I. assert (Y : existsb (beq (line (str "class SseClient;"))) (map fst (compiled (single file1) [] (str "wifinfo.ino"))) = true); [|congruence].
    apply existsb_exists. eexists. split; [exact I|apply beq_refl].
Qed.
Print Assumptions C89_conditional_include_refuted.
(** The macros of a header act on the units that come after, even if they do not include it: the real emptyserial.h redefines Serial. *)
Theorem C89_macro_leak_refuted : exists src a u l m, amalgamate src = Made a /\ In u (units src) /\
  In l (map fst (compiled src [] u)) /\ (forall ms, In (l, ms) (compiled src [] u) -> ~ In m ms) /\
  (exists ms, In (l, ms) (compiled (single (am_lines a)) [] (str "wifinfo.ino")) /\ In m ms).
Proof.
  exists src1. destruct (amalgamate src1) as [a| | |] eqn:E; try (vm_compute in E; discriminate).
  exists a, (str "tic.cpp"), (line (str "SseClients clients;")), (str "Serial").
  assert (A : am_lines a = file1) by (unfold file1; rewrite E; reflexivity). rewrite A.
  split; [reflexivity|]. split; [right; right; right; right; left; reflexivity|].
  split; [right; right; left; reflexivity|]. split.
  - intros ms I J.
    assert (X : forallb (fun p => negb (existsb (beq (str "Serial")) (snd p))) (compiled src1 [] (str "tic.cpp")) = true) by (vm_compute; reflexivity).
    rewrite forallb_forall in X. specialize (X _ I). cbn [snd] in X. apply negb_true_iff in X.
    assert (Y : existsb (beq (str "Serial")) ms = true); [|congruence]. apply existsb_exists. eexists. split; [exact J|apply beq_refl].
  - exists [str "Serial"; str "ENABLE_LED"]. split; [|left; reflexivity].
    assert (X : nth_error (compiled (single file1) [] (str "wifinfo.ino")) 3 = Some (line (str "SseClients clients;"), [str "Serial"; str "ENABLE_LED"])) by (vm_compute; reflexivity).
    eapply nth_error_In. exact X.
Qed.
Print Assumptions C89_macro_leak_refuted.

(** The beginning of the file made from [src1], what is taken from it, and headers that include each other. *)
Definition loop2 : sources :=
  [(str "a.cpp", [quoted (str "b.h"); line (str "int a;")]); (str "b.h", [quoted (str "c.h"); line (str "int b;")]); (str "c.h", [quoted (str "b.h"); line (str "int c;")])].
Example C89_case :
  units src1 = [str "main.cpp"; str "cli.cpp"; str "main.cpp"; str "config.cpp"; str "tic.cpp"] /\
  map snd (firstn 10 file1) = map line [str "//amalgamation: src *.ino *.cpp"; []; str "//begin: main.cpp"; str "// #include " ++ [34] ++ str "wifinfo.h" ++ [34]; [];
    str "//begin: wifinfo.h"; str "// #pragma once"; str "#define ENABLE_LED"; str "//end: wifinfo.h"; str "// #include " ++ [34] ++ str "webserver.h" ++ [34]] /\
  taken (str "sse.h") file1 = [(0%nat, line (str "// #pragma once")); (1%nat, line (str "// #include " ++ [34] ++ str "webserver.h" ++ [34])); (2%nat, line (str "class SseClient;"))] /\
  taken (str "unused.h") file1 = [] /\
  match amalgamate loop2 with Made a => map snd (taken (str "b.h") (am_lines a)) = [line (str "// #include " ++ [34] ++ str "c.h" ++ [34]); line (str "int b;")] | _ => False end.
Proof. repeat (split; [vm_compute; reflexivity|]). vm_compute. reflexivity. Qed.
