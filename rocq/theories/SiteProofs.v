(** Proofs about the files sent by the web server. *)
From Coq Require Import ZArith List Bool Lia.
From Verif Require Import Base BaseFacts Config ConfigSpec Erfs ErfsSpec ErfsProofs ErfsRead ErfsFinal Tic Pages Sse Cpu Web Device WebSpec WebProofs DeviceProofs DeviceMain Publish Site SiteSpec.
Import ListNotations.
Open Scope Z_scope.

(** ** Streaming a file *)
Lemma skipn_skip : forall (l : list Z) a b, skipn a (skipn b l) = skipn (a + b) l.
Proof. induction l as [|x l IH]; intros a b; [rewrite !skipn_nil; reflexivity|]. destruct b; [rewrite Nat.add_0_r; reflexivity|]. rewrite Nat.add_succ_r. cbn [skipn]. apply IH. Qed.


Lemma got_all : forall content addr block n pos, (pos <= length content)%nat ->
  got (expected content (Z.of_nat pos) (repeat (Read addr (repeat 0 (Pos.to_nat block)) (Z.pos block)) n)) =
  firstn (n * Pos.to_nat block) (skipn pos content).
Proof.
  intros content addr block. induction n as [|n IH]; intros pos L; [reflexivity|].
  cbn [repeat expected]. set (k := Pos.to_nat block). change (Z.to_nat (Z.pos block)) with k.
  rewrite Nat2Z.id. set (p := firstn k (skipn pos content)).
  assert (P : (length p = Nat.min k (length content - pos))%nat) by (unfold p; rewrite firstn_length, skipn_length; reflexivity).
  unfold got. cbn [flat_map fst]. unfold size_of. rewrite Nat2Z.id. fold (got (expected content (Z.of_nat pos + Z.of_nat (length p)) (repeat (Read addr (repeat 0 k) (Z.pos block)) n))).
  replace (Z.of_nat pos + Z.of_nat (length p)) with (Z.of_nat (pos + length p)) by lia.
  rewrite IH by lia. rewrite firstn_app, Nat.sub_diag, firstn_O, app_nil_r, firstn_all. fold k.
  change (Datatypes.S n * k)%nat with (k + n * k)%nat.
  rewrite <- (firstn_skipn k (skipn pos content)). fold p.
  rewrite firstn_app, (firstn_all2 p) by lia. f_equal. rewrite skipn_skip.
  destruct (Nat.le_gt_cases k (length content - pos)) as [F|F].
  - replace (length p) with k by lia. replace (k + n * k - k)%nat with (n * k)%nat by lia. rewrite (Nat.add_comm k pos). reflexivity.
  - rewrite !skipn_all2 by lia. rewrite !firstn_nil. reflexivity.
Qed.

Lemma open_stream : forall s j addr block buf32 path e l content,
  erfs_open s path j = Some (Some e, l) -> ef_size e = size_of content -> size_of buf32 = 260 -> Z.pos block < 2147483648 ->
  (forall calls b, Forall sensible calls -> size_of b = 260 -> exists l', session s b e calls = Some (expected content 0 calls, l')) ->
  stream_path s j addr block buf32 path = Some (Some content).
Proof.
  intros s j addr block buf32 path e l content O Z B K H. unfold stream_path. rewrite O. rewrite Z.
  set (n := S (Z.to_nat (size_of content / Z.pos block))).
  destruct (H (repeat (Read addr (repeat 0 (Pos.to_nat block)) (Z.pos block)) n) buf32) as (l' & E); [|exact B|].
  { apply Forall_forall. intros c C. apply repeat_spec in C. subst c. cbn [sensible]. unfold size_of. rewrite repeat_length, positive_nat_Z. lia. }
  rewrite E. f_equal. f_equal. change 0 with (Z.of_nat 0). rewrite got_all by lia. cbn [skipn]. apply firstn_all2.
  assert (Q : size_of content < (size_of content / Z.pos block + 1) * Z.pos block).
  { pose proof (Z.mod_pos_bound (size_of content) (Z.pos block) ltac:(lia)). pose proof (Z.div_mod (size_of content) (Z.pos block) ltac:(lia)). nia. }
  assert (N : 0 <= size_of content / Z.pos block) by (apply Z.div_pos; [unfold size_of; lia|lia]).
  apply Nat2Z.inj_le. rewrite Nat2Z.inj_mul. unfold n. rewrite Nat2Z.inj_succ, Z2Nat.id, positive_nat_Z by lia. unfold size_of in *. lia.
Qed.

(** ** The mounted directory *)
Lemma packed_some : forall files name c, packed files name = Some c ->
  exists before f after, files = before ++ f :: after /\ src_name f = name /\ src_data f = c.
Proof.
  induction files as [|g r IH]; intros name c H; [discriminate|]. cbn [packed] in H. destruct (beq (src_name g) name) eqn:E.
  - injection H as <-. apply beq_true in E. exists [], g, r. auto.
  - destruct (IH _ _ H) as (b & f & a & -> & N & D). exists (g :: b), f, a. auto.
Qed.
Lemma packed_none : forall files name, packed files name = None -> ~ In name (map src_name files).
Proof.
  induction files as [|g r IH]; intros name H; [auto|]. cbn [packed] in H. destruct (beq (src_name g) name) eqn:E; [discriminate|].
  cbn [map In]. intros [X|X]; [|exact (IH _ H X)]. rewrite X in E. rewrite (proj2 (beq_eq _ _) eq_refl) in E. discriminate.
Qed.

Lemma site_packed : forall files size image s s1 l0 site name, directory files -> Forall (fun f => size_of (src_name f) <= 63) files ->
  create files size = Packed image -> installed s image -> erfs_begin s = (s1, true, l0) ->
  (forall before f after, files = before ++ f :: after -> name_at files before + 63 <= fs_size s) ->
  site_is s1 site -> Forall (fun c => c <> 0) name -> name <> [] -> hd 0 name <> 47 -> site (47 :: name) = packed files name.
Proof.
  intros files size image s s1 l0 site name D L C I B W S N NE SL.
  destruct (S (47 :: name)) as (j & addr & block & buf32 & B32 & K & E); [constructor; [lia|exact N]|discriminate|congruence|].
  destruct (packed files name) as [c|] eqn:P.
  - destruct (packed_some _ _ _ P) as (b & f & a & EF & <- & <-).
    destruct (c39 files size image s D L C I) as (s1' & l0' & B' & H). assert (s1' = s1) by congruence. subst s1'.
    destruct (H b f a (47 :: src_name f) j EF (W _ _ _ EF) (or_intror eq_refl)) as (e & l & O & Z & _ & _ & SS).
    rewrite (open_stream _ _ _ _ _ _ _ _ _ O Z B32 K SS) in E. congruence.
  - apply packed_none in P.
    destruct (c40_full files size image s s1 l0 (47 :: name) j D L C I B) as ((l & O) & _); try congruence.
    + constructor; [lia|exact N].
    + intros X. destruct D as [D _]. rewrite Forall_forall in D. apply in_map_iff in X. destruct X as (f & F & X).
      destruct (D f X) as (_ & _ & Q & _). rewrite F in Q. apply Q. reflexivity.
    + unfold stream_path in E. rewrite O in E. congruence.
Qed.

(** ** The requests *)
Lemma auth_restricted : forall q d, get_auth (cfg_of d) q = Restricted -> restricted q d.
Proof.
  intros q d. unfold get_auth, restricted. destruct (text Username (cfg_of d)); [discriminate|]. destruct (q_accepts _ _ _); [|discriminate].
  destruct (q_forwarded q); [|discriminate]. split; [discriminate|auto].
Qed.

Lemma root_handler : forall m, find_route routes m (str "/") = Some HIndex.
Proof. intros []; reflexivity. Qed.
Lemma handle_read_first : forall site path dflt,
  match handle_read site path with Some o => o | None => dflt end = first_file site [path ++ str ".gz"; path] dflt.
Proof. intros. unfold handle_read, first_file. destruct (site _); [reflexivity|]. destruct (site path); reflexivity. Qed.
Lemma c73_home : forall fuel a q d, q_uri q = str "/" ->
  (fully_allowed q d -> handle fuel a q d =
     Done (d, [first_file (a_site a) [str "/index.html.gz"; str "/index.html"] (Reply 304 Html redirect_update)])) /\
  (restricted q d -> handle fuel a q d =
     Done (d, [first_file (a_site a) [str "/index.restrict.html.gz"; str "/index.restrict.html"] (Reply 304 Html redirect_update)])) /\
  (refused q d -> handle fuel a q d = Done (d, [challenge])).
Proof.
  intros fuel a q d U. unfold handle. rewrite U, root_handler. cbn [serve]. unfold if_ok. repeat split; intros H.
  - rewrite (proj2 (full_iff _ _) H). rewrite <- (handle_read_first (a_site a) (str "/index.html")). destruct (handle_read _ _); reflexivity.
  - rewrite (restricted_yes _ _ H). rewrite <- (handle_read_first (a_site a) (str "/index.restrict.html")). destruct (handle_read _ _); reflexivity.
  - rewrite (refused_no _ _ H). reflexivity.
Qed.

Lemma has_prefix_app : forall p r, has_prefix p (p ++ r) = true.
Proof. intros. unfold has_prefix. rewrite firstn_app, Nat.sub_diag, firstn_O, app_nil_r, firstn_all. apply beq_eq. reflexivity. Qed.
Lemma prefix_has : forall p s, has_prefix p s = true -> exists r, s = p ++ r.
Proof. intros p s H. apply beq_true in H. exists (skipn (length p) s). rewrite <- H at 1. symmetry. apply firstn_skipn. Qed.
Lemma served_prefix : forall uri, served_dir uri <-> existsb (fun p => has_prefix p uri) static_prefixes = true.
Proof.
  intros uri. rewrite existsb_exists. split.
  - intros (p & r & I & ->). exists p. split; [exact I|apply has_prefix_app].
  - intros (p & I & H). destruct (prefix_has _ _ H) as (r & ->). exists p, r. auto.
Qed.
Lemma c73_static : forall fuel a q d dflt, q_method q = GET -> served_dir (q_uri q) -> ~ In (q_uri q) page_uris ->
  a_site a (q_uri q) <> None \/ a_site a (q_uri q ++ str ".gz") <> None ->
  handle fuel a q d = Done (d, [first_file (a_site a) [q_uri q; q_uri q ++ str ".gz"] dflt]).
Proof.
  intros fuel a q d dflt M S P H. unfold handle. rewrite find_route_none by exact P. unfold static_file.
  rewrite M, (proj1 (served_prefix _) S). cbn [method_fits andb]. unfold first_file.
  destruct (a_site a (q_uri q)); [reflexivity|]. destruct (a_site a (q_uri q ++ str ".gz")); [reflexivity|]. destruct H; congruence.
Qed.
Lemma c73_missing : forall fuel a q d, (q_method q <> GET \/ ~ served_dir (q_uri q)) -> ~ In (q_uri q) page_uris ->
  handle fuel a q d = not_found fuel a q d.
Proof.
  intros fuel a q d H P. unfold handle. rewrite find_route_none by exact P. unfold static_file.
  replace (method_fits (Some GET) (q_method q) && existsb (fun p => has_prefix p (q_uri q)) static_prefixes) with false; [reflexivity|].
  symmetry. apply andb_false_iff. destruct H as [H|H].
  - left. destruct (q_method q); [congruence|reflexivity|reflexivity].
  - right. apply not_true_is_false. intros X. apply H. apply served_prefix. exact X.
Qed.

Ltac no_file := match goal with I : In (SendFile _ _) _ |- _ => cbn in I; intuition discriminate end.
Lemma c73_sent : forall fuel a q d d' os p c, handle fuel a q d = Done (d', os) -> In (SendFile p c) os ->
  a_site a p = Some c /\ d' = d /\ os = [SendFile p c] /\
  (q_uri q = str "/" /\ fully_allowed q d /\ In p [str "/index.html.gz"; str "/index.html"] \/
   q_uri q = str "/" /\ restricted q d /\ In p [str "/index.restrict.html.gz"; str "/index.restrict.html"] \/
   q_uri q = str "/version" /\ p = str "/version" \/
   q_method q = GET /\ served_dir (q_uri q) /\ In p [q_uri q; q_uri q ++ str ".gz"]).
Proof.
  intros fuel a q d d' os p c H I. unfold handle in H. destruct (find_route routes (q_method q) (q_uri q)) as [h|] eqn:R.
  - assert (RU : match h with HIndex => q_uri q = str "/" | HVersion => q_uri q = str "/version" | _ => True end).
    { apply find_route_uri in R. destruct R as (w & J & _). unfold routes in J.
      repeat (destruct J as [J|J]; [injection J as <- <- <-; exact Logic.I || reflexivity|]). destruct J. }
    clear R. destruct h; cbn [serve] in H; unfold send_json, if_ok, if_full in H;
      try (destruct (get_auth (cfg_of d) q) eqn:G;
       [try (injection H as <- <-; cbn in I; intuition discriminate)| |]).
    all: try match type of H with lift ?x = _ => destruct x as [[d1 o1]|] eqn:L; [cbn [lift] in H; injection H as <- <-|discriminate] end.
    all: try match type of L with (match ?x with Some _ => _ | None => _ end) = _ => destruct x eqn:L1; [|discriminate]; injection L as <- <- end.
    all: try no_file.
    all: try (injection H as <- <-; no_file).
    all: try (injection H as <- <-; destruct (d_upd d); no_file).
    all: try (unfold handle_sse in H; destruct (handle_sse_data (d_sse d)) as [s0 o0]; injection H as <- <-; apply in_map_iff in I;
              destruct I as (x & X & _); destruct x; discriminate).
    all: try (unfold handle_form, factory_reset in H; match type of H with lift ?x = _ => destruct x as [[d1 o1]|] eqn:L end; [|discriminate];
              cbn [lift] in H; injection H as <- <-; revert L;
              match goal with |- (match ?x with Some _ => _ | None => _ end) = _ -> _ => destruct x as [y|] end; [|discriminate];
              try destruct y as [y1 y2]; intros L; injection L as <- <-; no_file).
    all: try (unfold handle_read in H; cbn [app] in H;
              match type of H with context [match a_site ?y ?x with _ => _ end] => destruct (a_site y x) eqn:E1 end;
              [|match type of H with context [match a_site ?y ?x with _ => _ end] => destruct (a_site y x) eqn:E2 end];
              injection H as <- <-; destruct I as [I|[]]; try discriminate; injection I as <- <-;
              (split; [assumption|split; [reflexivity|split; [reflexivity|]]])).
    all: try (left; split; [exact RU|split; [apply full_iff; exact G|cbn; tauto]]).
    all: try (right; left; split; [exact RU|split; [apply auth_restricted; exact G|cbn; tauto]]).
    all: try (destruct (a_site a (str "/version")) eqn:E1; injection H as <- <-; destruct I as [I|[]]; try discriminate; injection I as <- <-;
              (split; [assumption|split; [reflexivity|split; [reflexivity|right; right; left; auto]]])).
    all: injection L as <- <-; no_file.
  - destruct (static_file a q) as [o|] eqn:F.
    2: { exfalso. unfold not_found in H.
         match type of H with match ?x with _ => _ end = _ => destruct x as [[v|]|] end; [injection H as <- <-; no_file| |discriminate].
         destruct (args_loop _ _ _ _); [injection H as <- <-; no_file|discriminate]. }
    injection H as <- <-. destruct I as [I|[]]. subst o. unfold static_file in F.
    destruct (_ && _) eqn:B; [|discriminate]. apply andb_true_iff in B. destruct B as [B1 B2]. apply served_prefix in B2.
    assert (M : q_method q = GET) by (destruct (q_method q); congruence || discriminate).
    destruct (a_site a (q_uri q)) eqn:E1; [|destruct (a_site a (q_uri q ++ str ".gz")) eqn:E2; [|discriminate]]; injection F as <- <-;
      (split; [assumption|split; [reflexivity|split; [reflexivity|right; right; right; cbn [In]; auto]]]).
Qed.

(** ** The whole way *)
Lemma first_ext : forall s1 s2 names dflt, (forall n, In n names -> s1 n = s2 n) -> first_file s1 names dflt = first_file s2 names dflt.
Proof.
  intros s1 s2 names dflt. induction names as [|n r IH]; intros H; [reflexivity|]. cbn [first_file]. rewrite (H n (or_introl eq_refl)).
  rewrite IH; [reflexivity|]. intros m M. apply H. right. exact M.
Qed.
Lemma strip_other : forall h t, h <> 47 -> strip (h :: t) = h :: t.
Proof. intros h t H. unfold strip. destruct h as [|h|h]; try reflexivity. do 6 (destruct h as [h|h|]; try reflexivity; try congruence). Qed.
Ltac path_ok := first [discriminate | repeat (apply Forall_cons; [discriminate|]); apply Forall_nil].
Section Packed.
  Variables (files : list source) (size : Z) (image : list Z) (s s1 : erfs) (l0 : accesses) (a : around).
  Hypotheses (D : directory files) (N : Forall (fun f => size_of (src_name f) <= 63) files) (C : create files size = Packed image)
    (Ins : installed s image) (B : erfs_begin s = (s1, true, l0))
    (W : forall before f after, files = before ++ f :: after -> name_at files before + 63 <= fs_size s) (S : site_is s1 (a_site a)).
  Lemma by_path : forall name, Forall (fun c => c <> 0) name -> name <> [] -> hd 0 name <> 47 -> a_site a (47 :: name) = packed files name.
  Proof. intros. eapply site_packed; eassumption. Qed.
  (** Such a site exists, whatever the block size. *)
  Lemma site_exists : forall j addr block buf32, size_of buf32 = 260 -> Z.pos block < 2147483648 ->
    site_is s1 (fun path => match stream_path s1 j addr block buf32 path with Some r => r | None => None end).
  Proof using D N C Ins B W.
    intros j addr block buf32 B32 K path Z NE NS. exists j, addr, block, buf32. split; [exact B32|]. split; [exact K|].
    assert (H : exists r, stream_path s1 j addr block buf32 path = Some r); [|destruct H as (r & ->); reflexivity].
    destruct (packed files (strip path)) as [c|] eqn:P.
    - destruct (packed_some _ _ _ P) as (b & f & x & EF & FN & <-).
      destruct (c39 files size image s D N C Ins) as (s1' & l0' & B' & H). assert (s1' = s1) by congruence. subst s1'.
      destruct (H b f x path j EF (W _ _ _ EF)) as (e & l & O & SZ & _ & _ & SS).
      { rewrite FN. destruct path as [|h t]; [congruence|]. destruct (Z.eq_dec h 47) as [->|Q]; [right; reflexivity|left].
        rewrite (strip_other h t Q). reflexivity. }
      eexists. exact (open_stream _ _ _ _ _ _ _ _ _ O SZ B32 K SS).
    - apply packed_none in P.
      destruct (c40_full files size image s s1 l0 path j D N C Ins B Z NE NS) as ((l & O) & _).
      + intros X. destruct D as [DD _]. rewrite Forall_forall in DD. pose proof X as X0. apply in_map_iff in X. destruct X as (f & F & X).
        destruct (DD f X) as (_ & _ & Q & _). rewrite F in Q. apply P. destruct path as [|h t]; [congruence|]. cbn [hd] in Q.
        rewrite (strip_other h t Q). exact X0.
      + intros p -> X. exact (P X).
      + unfold stream_path. rewrite O. eauto.
  Qed.
  Lemma c74_home : forall fuel q d, q_uri q = str "/" ->
    (fully_allowed q d -> handle fuel a q d = Done (d,
       [match packed files (str "index.html.gz"), packed files (str "index.html") with
        | Some c, _ => SendFile (str "/index.html.gz") c
        | None, Some c => SendFile (str "/index.html") c
        | None, None => Reply 304 Html redirect_update
        end])) /\
    (restricted q d -> handle fuel a q d = Done (d,
       [match packed files (str "index.restrict.html.gz"), packed files (str "index.restrict.html") with
        | Some c, _ => SendFile (str "/index.restrict.html.gz") c
        | None, Some c => SendFile (str "/index.restrict.html") c
        | None, None => Reply 304 Html redirect_update
        end])).
  Proof.
    intros fuel q d U. destruct (c73_home fuel a q d U) as (H1 & H2 & _). split; intros H; [rewrite (H1 H)|rewrite (H2 H)]; cbn [first_file].
    - change (str "/index.html.gz") with (47 :: str "index.html.gz"). change (str "/index.html") with (47 :: str "index.html").
      rewrite (by_path (str "index.html.gz")) by path_ok. rewrite (by_path (str "index.html")) by path_ok.
      destruct (packed files (str "index.html.gz")); [reflexivity|]. destruct (packed files (str "index.html")); reflexivity.
    - change (str "/index.restrict.html.gz") with (47 :: str "index.restrict.html.gz"). change (str "/index.restrict.html") with (47 :: str "index.restrict.html").
      rewrite (by_path (str "index.restrict.html.gz")) by path_ok. rewrite (by_path (str "index.restrict.html")) by path_ok.
      destruct (packed files (str "index.restrict.html.gz")); [reflexivity|]. destruct (packed files (str "index.restrict.html")); reflexivity.
  Qed.
  Lemma c74_static : forall fuel q d name, q_method q = GET -> q_uri q = 47 :: name -> served_dir (q_uri q) -> ~ In (q_uri q) page_uris ->
    Forall (fun c => c <> 0) name ->
    match packed files name, packed files (name ++ str ".gz") with
    | Some c, _ => handle fuel a q d = Done (d, [SendFile (q_uri q) c])
    | None, Some c => handle fuel a q d = Done (d, [SendFile (q_uri q ++ str ".gz") c])
    | None, None => forall d' os p c, handle fuel a q d = Done (d', os) -> ~ In (SendFile p c) os
    end.
  Proof.
    intros fuel q d name M U SD P Z.
    assert (NE : name <> [] /\ hd 0 name <> 47).
    { destruct SD as (p & r & I & E). rewrite U in E. repeat (destruct I as [I|I]; [subst p; injection E as ->; split; discriminate|]). destruct I. }
    destruct NE as [NE SL].
    assert (A : a_site a (q_uri q) = packed files name) by (rewrite U; apply by_path; assumption).
    assert (G : a_site a (q_uri q ++ str ".gz") = packed files (name ++ str ".gz")).
    { rewrite U. apply by_path; [apply Forall_app; split; [exact Z|repeat constructor; discriminate]|destruct name; discriminate|destruct name; [congruence|exact SL]]. }
    rewrite <- A, <- G. pose proof (c73_static fuel a q d challenge M SD P) as H. cbn [first_file] in H.
    destruct (a_site a (q_uri q)) as [c|] eqn:E1; [apply H; left; discriminate|].
    destruct (a_site a (q_uri q ++ str ".gz")) as [c|] eqn:E2; [apply H; right; discriminate|].
    intros d' os p c HH I. destruct (c73_sent _ _ _ _ _ _ _ _ HH I) as (X & _ & _ & [(Y & _)|[(Y & _)|[(Y & _)|(_ & _ & Y)]]]).
    1-3: apply P; rewrite Y; cbn; tauto.
    destruct Y as [<-|[<-|[]]]; congruence.
  Qed.
End Packed.

(** ** Uploads that fail *)
Lemma c60_failed : forall fuel sgn a u d, match u with UpEnd _ => False | _ => upload_over u = true end ->
  exists d' os ended, dstep fuel sgn (DUpload a u) d = Done (d', os ++ [UpdateEnd false; Reply 200 Text (if ended : bool then str "OK" else str "FAIL")]) /\
    (forall f, ~ In (UpdateEnd f) os) /\ p_pause (d_pub d') = false /\ d_upd d' = ended /\ cfg_of d' = cfg_of d.
Proof.
  intros fuel sgn a u d H. destruct u as [name len ok ended|data ok ended|ended|ended]; cbn [upload_over] in H; [| |destruct H|].
  - destruct ok; [discriminate|]. cbn. eexists. exists [UpdateBegin (contains (str "fs.bin") name) (if contains (str "fs.bin") name then a_fs_size a else len)], ended.
    split; [reflexivity|]. split; [intros f [X|[]]; discriminate|]. repeat split.
  - destruct ok; [discriminate|]. cbn. eexists. exists [UpdateWrite data], ended.
    split; [reflexivity|]. split; [intros f [X|[]]; discriminate|]. repeat split.
  - cbn. eexists. exists [], ended. split; [reflexivity|]. split; [intros f []|]. repeat split.
Qed.
Lemma receive_out : forall sgn a up tv c d d' o, receive sgn a up tv c d = Some (d', o) ->
  Forall (fun y => match y with Sent _ _ | Streaming _ => True | _ => False end) o.
Proof.
  intros sgn a up tv c d d' o R.
  assert (X : forall es x d2 o2, effects_out up es x = Some (d2, o2) -> Forall (fun y => match y with Sent _ _ | Streaming _ => True | _ => False end) o2).
  { clear. induction es as [|e es IH]; intros x d2 o2 H; cbn [effects_out] in H; [injection H as _ <-; constructor|].
    destruct (effect_out up e x) as [[y oy]|] eqn:E; [|discriminate]. destruct (effects_out up es y) as [[z oz]|] eqn:F; [|discriminate].
    injection H as _ <-. apply Forall_app. split; [|eauto]. destruct e; cbn [effect_out] in E.
    - injection E as _ <-. repeat constructor.
    - match type of E with context [handle_clients ?u ?v ?w] => destruct (handle_clients u v w) as [[s os]|]; [|discriminate] end. injection E as _ <-.
      apply Forall_forall. intros w Hw. apply in_map_iff in Hw. destruct Hw as (v & <- & _). exact I. }
  unfold receive in R. destruct (tic_decode sgn tv c (d_pub d)) as [[p f]|]; [|discriminate]. destruct f.
  - destruct (tic_notifs _ _ _ _ _ _ _) as [[[es n] t]|]; [|discriminate]. apply X in R. exact R.
  - injection R as _ <-. constructor.
Qed.
Lemma c60_end : forall fuel sgn e d d' o, dstep fuel sgn e d = Done (d', o) -> In (UpdateEnd true) o ->
  exists a ended, e = DUpload a (UpEnd ended).
Proof.
  intros fuel sgn e d d' o H J. destruct e as [a|a up tv c|a q|a u|up]; cbn [dstep] in H.
  - destruct (cpuload_loop _ _); [|discriminate]. injection H as _ <-. destruct J.
  - destruct (receive sgn a up tv c d) as [[d1 o1]|] eqn:R; [|discriminate]. injection H as _ <-. apply receive_out in R. rewrite Forall_forall in R.
    destruct (R _ J).
  - destruct (handle_restart _ _ _ _ _ _ H) as (_ & _ & _ & _ & _ & X & _). destruct (X _ J).
  - destruct u as [name len ok ended|data ok ended|ended|ended]; [| |eauto|]; exfalso; cbn [handle_upload] in H.
    + destruct ok; injection H as _ <-; cbn in J; intuition discriminate.
    + destruct ok; injection H as _ <-; cbn in J; intuition discriminate.
    + injection H as _ <-; cbn in J; intuition discriminate.
  - destruct (handle_clients _ _ _) as [[s os]|]; [|discriminate]. injection H as _ <-. apply in_map_iff in J. destruct J as (x & X & _). discriminate.
Qed.
