(** From the sources of the web site to the browser (C77). *)
From Coq Require Import ZArith List Bool Lia Sorted Permutation.
From Verif Require Import Base BaseFacts Publish Config ConfigSpec Erfs ErfsSpec ErfsProofs ErfsFinal Tic Pages Sse Cpu Web Device WebSpec WebProofs Site SiteSpec SiteProofs
  Prep PrepSpec PrepText PrepProofs PrepMain.
Import ListNotations.
Open Scope Z_scope.

Lemma packed_in : forall files f, NoDup (map src_name files) -> In f files -> packed files (src_name f) = Some (src_data f).
Proof.
  induction files as [|x files IH]; intros f N I; [destruct I|]. cbn in N. inversion N; subst. cbn. destruct I as [->|I].
  - rewrite beq_refl. reflexivity.
  - destruct (beq (src_name x) (src_name f)) eqn:E; [|apply IH; assumption]. apply beq_eq in E. exfalso. apply H1. rewrite E. apply in_map. exact I.
Qed.
Lemma packed_get : forall d q g, NoDup (map src_name (to_pack d)) -> get d q = Some g -> name_of q <> str ".DS_Store" -> name_of q <> str ".git" ->
  packed (to_pack d) (join q) = Some (f_data g).
Proof.
  intros d q g N G N1 N2. apply get_in in G.
  apply (packed_in (to_pack d) (mk_source (join q) (f_data g) (f_time g / 1000000000)) N).
  unfold to_pack. apply in_map_iff. exists (q, g). split; [reflexivity|]. apply filter_In. split; [exact G|]. cbn [fst].
  apply beq_neq in N1. apply beq_neq in N2. rewrite N1, N2. reflexivity.
Qed.

(** The conditions under which the image made from a data directory is installed and mounted (those of C74). *)
Definition on_device (d : tree) (a : around) : Prop :=
  exists size image s s1 l0, directory (to_pack d) /\ Forall (fun f => size_of (src_name f) <= 63) (to_pack d) /\
    create (to_pack d) size = Packed image /\ installed s image /\ erfs_begin s = (s1, true, l0) /\
    (forall before f after, to_pack d = before ++ f :: after -> name_at (to_pack d) before + 63 <= fs_size s) /\ site_is s1 (a_site a).

Lemma c77_home : forall t U cs now v order s d a first parts data m,
  good_names U -> Forall (usual t) cs -> incl (edited cs) U -> StronglySorted Z.lt (dates cs ++ [now]) -> (forall s : tree, Permutation s (order s)) ->
  fold_left wstep (cs ++ [Build t now v order]) ([], []) = (s, d) -> on_device d a ->
  get s [str "index.html"] = Some (mk_file m data) -> data = page_of first parts -> well_marked first parts -> occurs (str "<!--MAKE_RESTRICT-->") data ->
  forall fuel q dev, q_uri q = str "/" ->
    (fully_allowed q dev -> handle fuel a q dev = Done (dev, [SendFile (str "/index.html.gz") (t_gzip t (t_minify t data))])) /\
    (restricted q dev -> handle fuel a q dev = Done (dev, [SendFile (str "/index.restrict.html.gz") (t_gzip t (t_minify t (public_of first parts)))])).
Proof.
  intros t U cs now v order s d a first parts data m G F I S P E (size & image & fs & s1 & l0 & DIR & L63 & CR & INS & BEG & SP & SI) GS DATA WM OC fuel q dev Q.
  pose proof (c76 t U cs now v order G F I S P) as H. rewrite E in H. destruct H as (UP & _ & _).
  destruct (UP _ _ GS) as ((g & G1 & D1) & R).
  assert (NB : str "index" <> []) by discriminate. assert (ND : ~ In 46 (str "index")) by (cbn; intuition discriminate).
  destruct (plain_names [] (str "index") NB ND) as (K & T & RT). cbn [app] in K, T, RT. change (str "index" ++ str ".html") with (str "index.html") in *.
  destruct R as (g2 & G2 & D2).
  { reflexivity. }
  { exact OC. }
  destruct (c74_home _ _ _ _ _ _ _ DIR L63 CR INS BEG SP SI fuel q dev Q) as [FULL RES].
  destruct DIR as [_ ND2].
  rewrite T in G1. rewrite RT in G2. rewrite K in D1. cbn [f_data] in D1, D2.
  apply (packed_get d _ _ ND2) in G1; [|discriminate|discriminate]. apply (packed_get d _ _ ND2) in G2; [|discriminate|discriminate].
  cbn [join] in G1, G2. change (str "index" ++ str ".html.gz") with (str "index.html.gz") in G1.
  change (str "index" ++ str ".restrict.html.gz") with (str "index.restrict.html.gz") in G2. rewrite D1 in G1. rewrite D2 in G2.
  split.
  - intro A. rewrite (FULL A). rewrite G1. reflexivity.
  - intro A. rewrite (RES A). rewrite G2. rewrite DATA. rewrite (c75_marked _ _ WM). reflexivity.
Qed.
