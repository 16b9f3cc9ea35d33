(** From the sources of the web site to the browser, for the other files than the home page (C77). *)
From Coq Require Import ZArith List Bool Lia Sorted Permutation.
From Verif Require Import Base BaseFacts Publish Config ConfigSpec Erfs ErfsSpec ErfsProofs ErfsFinal Tic Pages Sse Cpu Web Device WebSpec WebProofs Site SiteSpec SiteProofs
  Prep PrepSpec PrepText PrepProofs PrepMain PrepSite.
Import ListNotations.
Open Scope Z_scope.

(** ** The names in the data directory *)
Definition known (U : list path) (q : path) : Prop := q = version_path \/ exists u, In u U /\ In q (outputs u).
Lemma key_get : forall (d : tree) q, In q (map fst d) -> get d q <> None.
Proof.
  induction d as [|[p f] d IH]; intros q I; [destruct I|]. cbn [get]. destruct (path_eq p q) eqn:E; [discriminate|]. destruct I as [I|I].
  - cbn in I. subst q. rewrite path_eq_refl in E. discriminate.
  - apply IH, I.
Qed.
Lemma apply_keys : forall ops d q, get (fold_left apply ops d) q <> None -> get d q <> None \/ In q (map touched ops).
Proof.
  intros ops d q H. destruct (in_dec path_dec q (map touched ops)) as [I|I]; [right; exact I|]. left. rewrite <- (apply_other ops d q I). exact H.
Qed.
Lemma files_touched : forall t now L d q, In q (map touched (files_ops t now L d)) -> exists p f, In (p, f) L /\ In q (outputs p).
Proof.
  induction L as [|[p f] L IH]; intros d q H; [destruct H|]. cbn [files_ops] in H. rewrite map_app in H. apply in_app_or in H. destruct H as [H|H].
  - exists p, f. split; [left; reflexivity|]. eapply touched_ops. exact H.
  - destruct (IH _ _ H) as (p' & f' & I & Q). exists p', f'. split; [right; exact I|exact Q].
Qed.
Lemma build_keys : forall t now v U L d, incl (map fst L) U -> (forall q, get d q <> None -> known U q) ->
  forall q, get (build t now v L d) q <> None -> known U q.
Proof.
  intros t now v U L d I K q H. unfold build, build_ops in H. apply apply_keys in H. destruct H as [H|H]; [apply K, H|].
  rewrite !map_app in H. apply in_app_or in H. destruct H as [H|H]; [|apply in_app_or in H; destruct H as [H|H]].
  - apply K, key_get. unfold cleaning in H. rewrite map_map in H. cbn [touched] in H. apply in_map_iff in H. destruct H as (e & <- & H).
    apply filter_In in H. apply in_map. apply H.
  - apply files_touched in H. destruct H as (p & f & J & Q). right. exists p. split; [|exact Q]. apply I. exact (in_map fst _ _ J).
  - destruct H as [<-|[]]. left. reflexivity.
Qed.
Lemma history_keys : forall t U cs (w : work), Forall (usual t) cs -> incl (edited cs) U -> incl (map fst (fst w)) U -> (forall q, get (snd w) q <> None -> known U q) ->
  incl (map fst (fst (fold_left wstep cs w))) U /\ forall q, get (snd (fold_left wstep cs w)) q <> None -> known U q.
Proof.
  induction cs as [|c cs IH]; intros [s d] F E IS K; [split; assumption|]. apply Forall_cons_iff in F. destruct F as [F0 F]. cbn [fst snd] in IS, K.
  assert (E' : incl (edited cs) U).
  { intros q Q. apply E. unfold edited in *. cbn [flat_map]. apply in_or_app. right. exact Q. }
  destruct c as [p data m|p data m|p|t' now v order|t' now v order k j]; cbn [usual] in F0; try contradiction; cbn [fold_left wstep]; apply IH; try assumption; cbn [fst snd].
  - intros q Q. apply put_keys in Q. destruct Q as [->|Q]; [apply E; left; reflexivity|apply IS, Q].
  - intros q Q. apply remove_keys in Q. apply IS, Q.
  - destruct F0 as [_ P]. apply build_keys; [|exact K]. intros q Q. apply IS.
    apply (Permutation_in (l := map fst (order s))); [apply Permutation_map, Permutation_sym, P|exact Q].
Qed.

(** ** Compressed files have no other copy *)
Lemma zipped_suffix : forall p n, suffix (name_of (with_name p (n ++ str ".gz"))) = str ".gz" \/ n = [].
Proof.
  intros p n. rewrite name_with. destruct n as [|x n]; [right; reflexivity|]. left. apply (suffix_app (x :: n) (str "gz")); [discriminate|discriminate|].
  cbn. intuition discriminate.
Qed.
Lemma gz_plain : forall p n, packing_of (with_name p (n ++ str ".gz")) = Plain.
Proof.
  intros p n. unfold packing_of. destruct (zipped_suffix p n) as [-> | ->]; [reflexivity|]. rewrite name_with. reflexivity.
Qed.
Lemma not_output : forall p u, packing_of p <> Plain -> In p (outputs u) -> False.
Proof.
  intros p u N I. unfold outputs in I. destruct I as [I|I].
  - unfold target in I. destruct (packing_of u) eqn:K; subst p; [apply N, gz_plain|apply N, gz_plain|contradiction].
  - destruct (beq (suffix (name_of u)) (str ".html")); [|destruct I]. destruct I as [<-|[]]. apply N. unfold restricted_target. rewrite !app_assoc. apply gz_plain.
Qed.

(** ** Names with slashes *)
Definition slashless (p : path) : Prop := Forall (fun n => ~ In 47 n) p.
Lemma join_inj : forall p q, p <> [] -> q <> [] -> slashless p -> slashless q -> join p = join q -> p = q.
Proof.
  induction p as [|a p IH]; intros q NP NQ SP SQ E; [contradiction|]. destruct q as [|b q]; [contradiction|].
  apply Forall_cons_iff in SP. destruct SP as [SA SP]. apply Forall_cons_iff in SQ. destruct SQ as [SB SQ].
  assert (ONE : forall (x y : list Z) r, ~ In 47 x -> x = y ++ 47 :: r -> False).
  { intros x y r N ->. apply N. apply in_or_app. right. left. reflexivity. }
  destruct p as [|a2 p]; destruct q as [|b2 q].
  - cbn in E. congruence.
  - exfalso. exact (ONE a b (join (b2 :: q)) SA E).
  - exfalso. symmetry in E. exact (ONE b a (join (a2 :: p)) SB E).
  - change (join (a :: a2 :: p)) with (a ++ 47 :: join (a2 :: p)) in E. change (join (b :: b2 :: q)) with (b ++ 47 :: join (b2 :: q)) in E.
    assert (S2 : forall x y r1 r2, ~ In 47 x -> ~ In 47 y -> x ++ 47 :: r1 = y ++ 47 :: r2 -> x = y /\ r1 = r2).
    { clear. induction x as [|c x IH]; intros y r1 r2 NX NY E.
      - destruct y as [|d y]; [injection E as ->; split; reflexivity|]. injection E as E _. exfalso. apply NY. left. congruence.
      - destruct y as [|d y]; [injection E as E _; exfalso; apply NX; left; congruence|]. injection E as -> E.
        destruct (IH y r1 r2) as [-> ->]; [intro I; apply NX; right; exact I|intro I; apply NY; right; exact I|exact E|]. split; reflexivity. }
    destruct (S2 _ _ _ _ SA SB E) as [-> E2]. f_equal. apply IH; [discriminate|discriminate|exact SP|exact SQ|exact E2].
Qed.
Lemma removelast_slashless : forall p, slashless p -> slashless (removelast p).
Proof. induction p as [|a p IH]; intros H; [exact H|]. apply Forall_cons_iff in H. destruct p; [constructor|]. constructor; [tauto|]. apply IH. tauto. Qed.
Lemma name_slashless : forall p, slashless p -> ~ In 47 (name_of p).
Proof.
  unfold name_of. induction p as [|a p IH]; intros H; [intros []|]. apply Forall_cons_iff in H. destruct H as [H1 H2]. destruct p; [exact H1|]. apply IH, H2.
Qed.
Lemma with_slashless : forall p n, slashless p -> ~ In 47 n -> slashless (with_name p n).
Proof. intros p n H N. apply Forall_app. split; [apply removelast_slashless, H|]. constructor; [exact N|constructor]. Qed.
Lemma split_no : forall l c x n, In n (split_on c l) -> In x n -> In x l.
Proof.
  induction l as [|y l IH]; intros c x n I X; cbn [split_on] in I; [destruct I as [<-|[]]; exact X|].
  destruct (y =? c).
  - destruct I as [<-|I]; [destruct X|]. right. eapply IH; eauto.
  - destruct (split_on c l) as [|h r] eqn:E; cbn [hd tl] in I.
    + destruct I as [<-|[]]. destruct X as [->|[]]. left. reflexivity.
    + destruct I as [<-|I].
      * destruct X as [->|X]; [left; reflexivity|]. right. apply (IH c x h); [rewrite E; left; reflexivity|exact X].
      * right. apply (IH c x n); [rewrite E; right; exact I|exact X].
Qed.
Lemma lstrip_in : forall c l x, In x (lstrip c l) -> In x l.
Proof. induction l as [|y l IH]; intros x I; [exact I|]. cbn [lstrip] in I. destruct (y =? c); [right; apply IH, I|exact I]. Qed.
Lemma suffixes_in : forall n x, x <> 46 -> In x (concat (suffixes n)) -> In x n.
Proof.
  intros n x N I. unfold suffixes in I. destruct (last n 0 =? 46); [destruct I|]. apply in_concat in I. destruct I as (w & I & X).
  apply in_map_iff in I. destruct I as (k & <- & I). destruct X as [X|X]; [congruence|].
  assert (J : In k (split_on 46 (lstrip 46 n))). { destruct (split_on 46 (lstrip 46 n)); [destruct I|right; exact I]. }
  apply (lstrip_in 46). eapply split_no; eauto.
Qed.
Lemma outputs_slashless : forall u q, slashless u -> In q (outputs u) -> slashless q.
Proof.
  intros u q S I. pose proof (name_slashless u S) as N. unfold outputs in I. destruct I as [<-|I].
  - unfold target. destruct (packing_of u); [| |exact S]; (apply with_slashless; [exact S|]); intro X; apply in_app_or in X; (destruct X as [X|X]; [contradiction|cbn in X; intuition discriminate]).
  - destruct (beq (suffix (name_of u)) (str ".html")); [|destruct I]. destruct I as [<-|[]]. unfold restricted_target. apply with_slashless; [exact S|].
    intro X. repeat (apply in_app_or in X; destruct X as [X|X]).
    + apply N. unfold stem in X. rewrite <- (firstn_skipn (length (name_of u) - length (suffix (name_of u))) (name_of u)). apply in_or_app. left. exact X.
    + cbn in X. intuition discriminate.
    + apply N. apply suffixes_in; [discriminate|exact X].
    + cbn in X. intuition discriminate.
Qed.
Lemma packed_some : forall files n c, packed files n = Some c -> exists f, In f files /\ src_name f = n.
Proof.
  induction files as [|f files IH]; intros n c H; [discriminate|]. cbn in H. destruct (beq (src_name f) n) eqn:E.
  - exists f. split; [left; reflexivity|]. apply beq_eq, E.
  - destruct (IH n c H) as (g & I & G). exists g. split; [right; exact I|exact G].
Qed.
Lemma join_with : forall p n, p <> [] -> slashless p -> join (with_name p (name_of p ++ n)) = join p ++ n.
Proof.
  intros p n NP _. unfold with_name, name_of. induction p as [|a p IH]; [contradiction|]. destruct p as [|b p]; [reflexivity|].
  assert (H := IH ltac:(discriminate)). change (removelast (a :: b :: p)) with (a :: removelast (b :: p)). change (last (a :: b :: p) []) with (last (b :: p) []).
  cbn [app]. change (join (a :: b :: p)) with (a ++ 47 :: join (b :: p)).
  destruct (removelast (b :: p) ++ [last (b :: p) [] ++ n]) as [|x r] eqn:E; [destruct (removelast (b :: p)); discriminate|].
  change (join (a :: x :: r)) with (a ++ 47 :: join (x :: r)). rewrite H. rewrite <- app_assoc. reflexivity.
Qed.

Lemma last_app_gz : forall l, last (l ++ str ".gz") 0 = 122.
Proof. induction l as [|x l IH]; [reflexivity|]. destruct l as [|y l]; [reflexivity|]. exact IH. Qed.
Lemma zip_alone : forall U d p, Forall slashless U -> (forall q, get d q <> None -> known U q) -> p <> [] -> slashless p -> packing_of p <> Plain -> Forall (fun u => u <> []) U ->
  packed (to_pack d) (join p) = None.
Proof.
  intros U d p SU KD NP SLP K NU. destruct (packed (to_pack d) (join p)) as [c|] eqn:X; [exfalso|reflexivity].
  apply packed_some in X. destruct X as (f & J & X). unfold to_pack in J. apply in_map_iff in J. destruct J as ([r h] & <- & J). cbn [src_name fst] in X.
  apply filter_In in J. destruct J as [J _]. destruct (KD r (key_get d r (in_map fst _ _ J))) as [-> | (u & IU & O)].
  - assert (Y : version_path = p).
    { apply join_inj; [discriminate|exact NP| |exact SLP|exact X]. constructor; [cbn; intuition discriminate|constructor]. }
    apply K. rewrite <- Y. reflexivity.
  - rewrite Forall_forall in SU, NU. assert (Y : r = p).
    { apply join_inj; [|exact NP| |exact SLP|exact X]; [apply (outputs_not_nil u); [apply NU, IU|exact O]|apply (outputs_slashless u); [apply SU, IU|exact O]]. }
    subst r. exact (not_output p u K O).
Qed.

Lemma c77_static : forall t U cs now v order s d a p m data,
  good_names U -> Forall slashless U -> Forall (usual t) cs -> incl (edited cs) U -> StronglySorted Z.lt (dates cs ++ [now]) -> (forall s : tree, Permutation s (order s)) ->
  fold_left wstep (cs ++ [Build t now v order]) ([], []) = (s, d) -> on_device d a ->
  get s p = Some (mk_file m data) -> name_of p <> str ".DS_Store" -> name_of p <> str ".git" ->
  forall fuel q dev, q_method q = GET -> q_uri q = 47 :: join p -> served_dir (q_uri q) -> ~ In (q_uri q) page_uris -> Forall (fun c => c <> 0) (join p) ->
    handle fuel a q dev = Done (dev, [match packing_of p with
      | Plain => SendFile (q_uri q) data
      | Zip => SendFile (q_uri q ++ str ".gz") (t_gzip t data)
      | Page => SendFile (q_uri q ++ str ".gz") (t_gzip t (t_minify t data))
      end]).
Proof.
  intros t U cs now v order s d a p m data G SU F I S P E (size & image & fs & s1 & l0 & DIR & L63 & CR & INS & BEG & SP & SI) GS N1 N2 fuel q dev M Q SD PU NZ.
  pose proof (c76 t U cs now v order G F I S P) as H. rewrite E in H. destruct H as (UP & _ & _).
  destruct (UP _ _ GS) as ((g & G1 & D1) & _). cbn [f_data] in D1.
  assert (F2 : Forall (usual t) (cs ++ [Build t now v order])).
  { apply Forall_app. split; [exact F|]. constructor; [split; [reflexivity|exact P]|constructor]. }
  assert (I2 : incl (edited (cs ++ [Build t now v order])) U).
  { unfold edited. rewrite flat_map_app. cbn [flat_map]. rewrite !app_nil_r. exact I. }
  pose proof (history_keys t U _ ([], []) F2 I2 (incl_nil_l _) ltac:(intros x X; contradiction)) as [KS KD]. rewrite E in KS, KD. cbn [fst snd] in KS, KD.
  assert (IP : In p U) by (apply KS; apply get_in in GS; exact (in_map fst _ _ GS)).
  destruct G as [GN GP]. rewrite Forall_forall in GP. destruct (GP p IP) as [NP _].
  assert (SLP : slashless p) by (rewrite Forall_forall in SU; apply SU, IP).
  assert (ND2 := DIR). destruct ND2 as [_ ND2].
  assert (T := c74_static _ _ _ _ _ _ _ DIR L63 CR INS BEG SP SI fuel q dev (join p) M Q SD PU NZ).
  destruct (packing_of p) eqn:K.
  3:{ unfold target in G1. rewrite K in G1. apply (packed_get d _ _ ND2) in G1; [|exact N1|exact N2]. rewrite G1 in T. rewrite D1 in T. exact T. }
  all: assert (TG : target p = with_name p (name_of p ++ str ".gz")) by (unfold target; rewrite K; reflexivity); rewrite TG in G1.
  all: assert (NG : name_of (with_name p (name_of p ++ str ".gz")) <> str ".DS_Store" /\ name_of (with_name p (name_of p ++ str ".gz")) <> str ".git")
    by (rewrite name_with; split; intro X; apply (f_equal (fun l => last l 0)) in X; rewrite last_app_gz in X; discriminate).
  all: apply (packed_get d _ _ ND2) in G1; [|apply NG|apply NG].
  all: rewrite join_with in G1 by assumption.
  all: assert (NONE : packed (to_pack d) (join p) = None)
    by (apply (zip_alone U); [exact SU|exact KD|exact NP|exact SLP|rewrite K; discriminate|apply Forall_forall; intros u J; apply GP, J]).
  all: rewrite NONE, G1, D1 in T; exact T.
Qed.
