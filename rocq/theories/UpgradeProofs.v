(** Proofs about the update form. *)
From Coq Require Import ZArith List Bool Lia.
From Verif Require Import Base BaseFacts Publish Config ConfigSpec Tic Pages Sse Cpu Web WebSpec Device DeviceProofs DevicePages Upgrade UpgradeSpec.
Import ListNotations.
Open Scope Z_scope.

Lemma here_some : forall w s, matches_here (map Some w) s = true <-> s = w.
Proof.
  induction w as [|k w IH]; intros [|c s]; cbn [map matches_here]; split; intros H; try discriminate; try reflexivity.
  - apply andb_true_iff in H as [E H]. apply Z.eqb_eq in E. apply IH in H. congruence.
  - injection H as -> ->. rewrite Z.eqb_refl. cbn. now apply IH.
Qed.
Lemma here_length : forall p s, matches_here p s = true -> length p = length s.
Proof.
  induction p as [|[k|] p IH]; intros [|c s] H; cbn in *; try discriminate; try reflexivity;
    apply andb_true_iff in H as [_ H]; f_equal; now apply IH.
Qed.
Lemma end_iff : forall p s, p <> [] -> (matches_end p s = true <-> exists x y, s = x ++ y /\ matches_here p y = true).
Proof.
  intros p s N. induction s as [|c s IH]; cbn [matches_end].
  - split; intros H.
    + exists [], []. split; [reflexivity|]. now rewrite orb_false_r in H.
    + destruct H as (x & y & E & H). symmetry in E. apply app_eq_nil in E as [-> ->]. now rewrite H.
  - rewrite orb_true_iff. split.
    + intros [H|H]; [exists [], (c :: s); now split|]. apply IH in H as (x & y & -> & H). exists (c :: x), y. now split.
    + intros (x & y & E & H). destruct x as [|d x]; [left; cbn in E; now rewrite E|]. injection E as -> ->. right. apply IH. eauto.
Qed.

Definition breaks c := c = 10 \/ c = 13.
Lemma here_any : forall y, matches_here any_bin y = true <-> exists c, y = c :: str "bin" /\ c <> 10 /\ c <> 13.
Proof.
  intros y. unfold any_bin. destruct y as [|c y]; cbn [matches_here]; split.
  - discriminate.
  - intros (c & E & _). discriminate.
  - intros H. apply andb_true_iff in H as [N H]. apply here_some in H. subst y. exists c. split; [reflexivity|].
    destruct (c =? 10) eqn:E1; [discriminate|]. destruct (c =? 13) eqn:E2; [discriminate|]. lia.
  - intros (d & E & N1 & N2). injection E as -> ->. apply Z.eqb_neq in N1, N2. rewrite N1, N2. reflexivity.
Qed.
Lemma here_fs : forall y, matches_here fs_bin y = true <-> exists c, y = str "fs" ++ c :: str "bin" /\ c <> 10 /\ c <> 13.
Proof.
  intros y. split.
  - intros H. destruct y as [|f [|s y]]; try discriminate.
    { apply here_length in H. discriminate. }
    change (((f =? 102) && ((s =? 115) && matches_here any_bin y)) = true) in H.
    apply andb_true_iff in H as [F H]. apply andb_true_iff in H as [G H]. apply Z.eqb_eq in F, G. apply here_any in H as (c & -> & N).
    exists c. split; [now subst|exact N].
  - intros (c & -> & N). change (matches_here any_bin (c :: str "bin") = true). apply here_any. eauto.
Qed.

Lemma lower_app : forall s x y, map tolower s = x ++ y -> exists a b, s = a ++ b /\ map tolower a = x /\ map tolower b = y.
Proof.
  intros s x y E. exists (firstn (length x) s), (skipn (length x) s). split; [symmetry; apply firstn_skipn|].
  split.
  - rewrite <- firstn_map, E. rewrite firstn_app, Nat.sub_diag, firstn_all. cbn. apply app_nil_r.
  - rewrite <- skipn_map, E. rewrite skipn_app, Nat.sub_diag, skipn_all. reflexivity.
Qed.
Lemma lower_break : forall c, tolower c <> 10 /\ tolower c <> 13 <-> c <> 10 /\ c <> 13.
Proof. intros c. unfold tolower, isupper. destruct ((65 <=? c) && (c <=? 90)) eqn:E; lia. Qed.

Lemma end_any : forall s, matches_end any_bin (map tolower s) = true <->
  exists x c w, s = x ++ c :: w /\ c <> 10 /\ c <> 13 /\ map tolower w = str "bin".
Proof.
  intros s. rewrite end_iff by discriminate. split.
  - intros (x & y & E & H). apply here_any in H as (c & -> & N). apply lower_app in E as (a & b & -> & _ & Eb).
    destruct b as [|d w]; [discriminate|]. cbn [map] in Eb. injection Eb as Ed Ew. exists a, d, w. split; [reflexivity|].
    rewrite <- Ed in N. apply (proj1 (lower_break d)) in N as [N1 N2]. exact (conj N1 (conj N2 Ew)).
  - intros (x & c & w & -> & N1 & N2 & E). exists (map tolower x), (map tolower (c :: w)). split; [now rewrite map_app|].
    apply here_any. exists (tolower c). cbn [map]. rewrite E. split; [reflexivity|]. now apply lower_break.
Qed.
Lemma end_fs : forall s, matches_end fs_bin (map tolower s) = true <->
  exists x v c w, s = x ++ v ++ c :: w /\ map tolower v = str "fs" /\ c <> 10 /\ c <> 13 /\ map tolower w = str "bin".
Proof.
  intros s. rewrite end_iff by discriminate. split.
  - intros (x & y & E & H). apply here_fs in H as (c & -> & N). apply lower_app in E as (a & b & -> & _ & Eb).
    apply lower_app in Eb as (v & b' & -> & Ev & Eb).
    destruct b' as [|d w]; [discriminate|]. cbn [map] in Eb. injection Eb as Ed Ew. exists a, v, d, w. split; [reflexivity|].
    rewrite <- Ed in N. apply (proj1 (lower_break d)) in N as [N1 N2]. auto.
  - intros (x & v & c & w & -> & Ev & N1 & N2 & E). exists (map tolower x), (map tolower (v ++ c :: w)). split; [now rewrite map_app|].
    apply here_fs. exists (tolower c). rewrite map_app. cbn [map]. rewrite E, Ev. split; [reflexivity|]. now apply lower_break.
Qed.

Lemma binary_iff : forall f, binary f <->
  negb (contains (str "application/macbinary") (pk_type f)) && negb (contains (str "application/octet-stream") (pk_type f)) = false.
Proof.
  intros f. unfold binary. rewrite andb_false_iff, !negb_false_iff, !contains_iff. split.
  - intros (x & t & y & E & [<-|[<-|[]]]); [left|right]; eauto.
  - intros [(x & y & E)|(x & y & E)]; exists x; eexists; exists y; (split; [exact E|cbn [In]; auto]).
Qed.

Lemma c91_offered : forall u f,
  (u_button (choose u (Picks f)) <> None <->
     binary f /\ exists x c w, pk_name f = x ++ c :: w /\ c <> 10 /\ c <> 13 /\ map tolower w = str "bin") /\
  (u_button (choose u (Picks f)) = Some Website <->
     binary f /\ exists x v c w, pk_name f = x ++ v ++ c :: w /\ map tolower v = str "fs" /\ c <> 10 /\ c <> 13 /\ map tolower w = str "bin").
Proof.
  intros u f. cbn [choose u_button]. unfold judge. rewrite <- end_any, <- end_fs, binary_iff.
  assert (K : matches_end fs_bin (map tolower (pk_name f)) = true -> matches_end any_bin (map tolower (pk_name f)) = true).
  { rewrite end_any, end_fs. intros (x & v & c & w & E & _ & N). exists (x ++ v), c, w. split; [now rewrite <- app_assoc|exact N]. }
  destruct (negb _ && negb _); [split; split; [congruence|intros [H _]; discriminate|discriminate|intros [H _]; discriminate]|].
  destruct (matches_end fs_bin _).
  - rewrite K by reflexivity. split; split; try (intros _; split; reflexivity); try (intros _; discriminate); intros _; reflexivity.
  - destruct (matches_end any_bin _); split; split; try (intros [_ H]; discriminate); try discriminate; try congruence;
      intros _; try discriminate; split; reflexivity.
Qed.

Lemma tolower_plain : forall s, Forall (fun c => ~ 65 <= c <= 90) s -> map tolower s = s.
Proof.
  induction 1 as [|c s N H IH]; [reflexivity|]. cbn [map]. rewrite IH. f_equal. unfold tolower, isupper.
  destruct ((65 <=? c) && (c <=? 90)) eqn:E; [lia|reflexivity].
Qed.

Lemma c91_label : forall u f im, plain_name (pk_name f) -> u_button (choose u (Picks f)) = Some im ->
  (im = Website <-> exists x y, pk_name f = x ++ str "fs.bin" ++ y).
Proof.
  intros u f im (P & (b & Eb) & L) B. pose proof (c91_offered u f) as [O W]. rewrite B in O, W.
  destruct (proj1 O) as (Y & _); [discriminate|]. split.
  - intros ->. destruct (proj1 W eq_refl) as (_ & x & v & c & w & E & Ev & _ & _ & Ew).
    assert (P' := P). rewrite E in P'. apply Forall_app in P' as [_ P']. apply Forall_app in P' as [Pv P'].
    inversion P' as [|? ? Pc Pw]; subst. rewrite tolower_plain in Ev, Ew by assumption. subst v w.
    exists x, []. rewrite E in Eb. change (str ".bin") with ([46] ++ str "bin") in Eb.
    rewrite E, app_nil_r. f_equal. change (x ++ str "fs" ++ c :: str "bin") with (x ++ str "fs" ++ [c] ++ str "bin") in Eb.
    rewrite !app_assoc in Eb. apply app_inv_tail in Eb. apply app_inj_tail in Eb as [_ ->]. reflexivity.
  - intros (x & y & E). rewrite (L x y E), app_nil_r in E. assert (V : Some im = Some Website); [|congruence].
    apply W. split; [exact Y|]. exists x, (str "fs"), 46, (str "bin"). split; [exact E|]. repeat split; discriminate.
Qed.

Definition site (im : image) : bool := match im with Website => true | Software => false end.

Lemma c91_written : forall u f im, plain_name (pk_name f) -> u_button (choose u (Picks f)) = Some im ->
  submit (choose u (Picks f)) = Some (pk_name f, pk_bytes f) /\
  forall fuel sgn a len e0 ws a2 ended d,
  exists d' os, drun fuel sgn (DUpload a (UpStart (pk_name f) len true e0) ::
      map (fun w => DUpload (fst (fst w)) (UpWrite (snd (fst w)) true (snd w))) ws ++ [DUpload a2 (UpEnd ended)]) d = Done (d', os) /\
    concat os = UpdateBegin (site im) (match im with Website => a_fs_size a | Software => len end) ::
      map (fun w => UpdateWrite (snd (fst w))) ws ++ [UpdateEnd true; Reply 200 Text (if ended then str "OK" else str "FAIL")] /\
    on_end (first_reply (concat os)) = GoodNews (if ended then str "200 OK" else str "200 FAIL").
Proof.
  intros u f im P B. pose proof (c91_label u f im P B) as L. split; [unfold submit; rewrite B; reflexivity|].
  intros. destruct (c60 fuel sgn a (pk_name f) len e0 ws a2 ended d) as (d' & os & R & to_fs & T & E & _).
  exists d', os. split; [exact R|].
  assert (K : to_fs = site im).
  { destruct im; cbn [site].
    - destruct to_fs; [|reflexivity]. assert (Software = Website); [|discriminate]. apply L, T. reflexivity.
    - apply T, L. reflexivity. }
  split; [rewrite E, K; destruct im; reflexivity|]. rewrite E. cbn [first_reply].
  clear. induction ws as [|w ws IH]; [destruct ended; reflexivity|]. cbn [map app first_reply]. exact IH.
Qed.

(** ** The verdict *)
Lemma first_app : forall x y, first_reply (x ++ y) = match first_reply x with Some r => Some r | None => first_reply y end.
Proof. induction x as [|o x IH]; intros y; [reflexivity|]. cbn [app first_reply]. rewrite IH. destruct o; reflexivity. Qed.

Lemma failing_run : forall fuel sgn a (parts : list (list Z * bool)) d,
  exists d' os, drun fuel sgn (map (DUpload a) (map (fun p => UpWrite (fst p) (snd p) false) parts)) d = Done (d', os) /\
    cfg_of d' = cfg_of d /\ (first_reply (concat os) = None \/ first_reply (concat os) = Some (200, str "FAIL")).
Proof.
  intros fuel sgn a. induction parts as [|[p ok] parts IH]; intros d; [exists d, []; now repeat split; auto|].
  cbn [map fst snd drun dstep handle_upload]. destruct ok.
  - destruct (IH d) as (d' & os & R & C & F). rewrite R. do 2 eexists. split; [reflexivity|]. split; [exact C|]. exact F.
  - cbn [update_finish]. destruct (IH (with_upload false false d)) as (d' & os & R & C & F). rewrite R. do 2 eexists. split; [reflexivity|].
    split; [rewrite C; reflexivity|]. right. reflexivity.
Qed.

Lemma c91_verdict : forall fuel sgn a name len ups (well : bool) d, transfer name len ups well ->
  exists d' os, drun fuel sgn (map (DUpload a) ups) d = Done (d', os) /\
    on_end (first_reply (concat os)) = GoodNews (if well then str "200 OK" else str "200 FAIL") /\
    forall q, q_uri q = str "/update" -> q_method q = POST -> fully_allowed q d' ->
      handle fuel a q d' = Done (d', if well then [RestartSoon] else []).
Proof.
  intros fuel sgn a name len ups well d T.
  assert (H : exists d' os, drun fuel sgn (map (DUpload a) ups) d = Done (d', os) /\ d_upd d' = well /\
    first_reply (concat os) = Some (200, if well then str "OK" else str "FAIL")).
  { destruct T as [parts e0 e1|ok parts]; cbn [map drun dstep handle_upload].
    - rewrite map_app, drun_app.
      replace (map (DUpload a) (map (fun p => UpWrite p true e1) parts)) with
        (map (fun w : around * list Z * bool => DUpload (fst (fst w)) (UpWrite (snd (fst w)) true (snd w))) (map (fun p => (a, p, e1)) parts))
        by (rewrite !map_map; reflexivity).
      rewrite writes_run. cbn [map drun dstep handle_upload update_finish]. do 2 eexists. split; [reflexivity|]. split; [reflexivity|].
      cbn [concat app first_reply]. rewrite concat_app, first_app.
      replace (first_reply (concat (map (fun w : around * list Z * bool => [UpdateWrite (snd (fst w))]) (map (fun p => (a, p, e1)) parts)))) with
        (@None (Z * list Z)); [reflexivity|]. clear. induction parts as [|p parts IH]; [reflexivity|]. cbn [map concat app first_reply]. exact IH.
    - destruct ok.
      + rewrite map_app, drun_app. destruct (failing_run fuel sgn a parts (with_upload true false d)) as (d1 & os & R & C & F). rewrite R.
        cbn [map drun dstep handle_upload update_finish]. do 2 eexists. split; [reflexivity|]. split; [reflexivity|].
        cbn [concat app first_reply]. rewrite concat_app, first_app. destruct F as [-> | ->]; reflexivity.
      + cbn [update_finish]. rewrite map_app, drun_app.
        destruct (failing_run fuel sgn a parts (with_upload false false (with_upload (p_pause (d_pub d)) false d))) as (d1 & os & R & C & F). rewrite R.
        cbn [map drun dstep handle_upload update_finish]. do 2 eexists. split; [reflexivity|]. split; reflexivity. }
  destruct H as (d' & os & R & U & F). exists d', os. split; [exact R|]. split; [rewrite F; destruct well; reflexivity|].
  intros q Q M A. unfold handle. rewrite Q, M. change (find_route routes POST (str "/update")) with (Some HUpdateDone). cbn [serve].
  rewrite U. unfold if_full. replace (get_auth (cfg_of d') q) with Full; [reflexivity|]. symmetry.
  now apply WebProofs.full_iff.
Qed.

(** ** Sizes *)
Lemma rounded_nearest : forall n unit, 0 < unit -> nearest n unit (rounded n unit).
Proof. intros n unit P. unfold nearest, rounded. assert (E := Z.div_mod (2 * n + unit) (2 * unit)). assert (M := Z.mod_pos_bound (2 * n + unit) (2 * unit)). nia. Qed.
Definition size_units : list (Z * list Z) :=
  [(1, str " Bytes"); (1024, str " KB"); (1048576, str " MB"); (1073741824, str " GB")].
Lemma c91_sizes : forall n, 0 <= n ->
  exists unit name k, In (unit, name) size_units /\ format_size n = dec k ++ name /\ nearest n unit k /\
    (unit = 1 \/ unit <= n) /\ (n < 1024 * unit \/ unit = 1073741824).
Proof.
  intros n P. unfold format_size, size_units. destruct (n <? 1024) eqn:E1; [|destruct (n <? 1048576) eqn:E2; [|destruct (n <? 1073741824) eqn:E3]].
  - exists 1, (str " Bytes"), n. split; [cbn [In]; auto|]. split; [reflexivity|]. split; [unfold nearest; lia|]. lia.
  - exists 1024, (str " KB"), (rounded n 1024). split; [cbn [In]; auto|]. split; [reflexivity|]. split; [apply rounded_nearest; lia|]. lia.
  - exists 1048576, (str " MB"), (rounded n 1048576). split; [cbn [In]; auto|]. split; [reflexivity|]. split; [apply rounded_nearest; lia|]. lia.
  - exists 1073741824, (str " GB"), (rounded n 1073741824). split; [cbn [In]; auto|]. split; [reflexivity|]. split; [apply rounded_nearest; lia|]. lia.
Qed.

(** ** Waiting for the restart *)
Lemma c91_wait : forall answers n, wait_restart answers = Some n <->
  exists before code rest, answers = before ++ Some (code, str "OK") :: rest /\ length before = (n - 1)%nat /\ (n > 0)%nat /\
    accepted_code code = true /\
    Forall (fun a => forall c, accepted_code c = true -> a <> Some (c, str "OK")) before.
Proof.
  induction answers as [|a r IH]; intros n; cbn [wait_restart].
  - split; [discriminate|]. intros (b & c & t & E & _). destruct b; discriminate.
  - destruct (match a with Some (code, body) => accepted_code code && beq body (str "OK") | None => false end) eqn:E.
    + destruct a as [[code body]|]; [|discriminate]. apply andb_true_iff in E as [A B]. apply beq_eq in B. subst body. split.
      * intros H. assert (n = 1%nat) by congruence. subst n. exists [], code, r. repeat split; auto.
      * intros (b & c & t & E & L & P & Y & F). destruct b as [|x b]; [cbn in L; f_equal; lia|]. injection E as <- E. inversion F as [|? ? N _]; subst.
        exfalso. exact (N code A eq_refl).
    + split.
      * intros H. destruct (wait_restart r) as [m|] eqn:W; [|discriminate]. assert (n = S m) by (cbn in H; congruence). subst n.
        destruct (proj1 (IH m) eq_refl) as (b & c & t & -> & L & P & Y & F). exists (a :: b), c, t. split; [reflexivity|].
        split; [cbn; lia|]. split; [lia|]. split; [exact Y|]. constructor; [|exact F]. intros c' A ->. rewrite A, beq_refl in E. discriminate.
      * intros (b & c & t & Q & L & P & Y & F). destruct b as [|x b].
        { injection Q as -> ->. rewrite Y, beq_refl in E. discriminate. }
        injection Q as <- ->. inversion F as [|? ? _ F']; subst. cbn [length] in L. destruct n as [|m]; [lia|].
        rewrite (proj2 (IH m)); [reflexivity|]. exists b, c, t. split; [reflexivity|]. split; [lia|]. split; [lia|]. now split.
Qed.

Lemma accepted_iff : forall code, accepted_code code = true <-> 200 <= code <= 299 \/ code = 304.
Proof. intros code. unfold accepted_code. lia. Qed.
Lemma c91_message : forall os,
  (forall text, on_end (first_reply os) = GoodNews text <->
     exists code body, first_reply os = Some (code, body) /\ (200 <= code <= 299 \/ code = 304) /\ text = dec code ++ str " " ++ body) /\
  (on_end (first_reply os) = BadNews <->
     forall code body, first_reply os = Some (code, body) -> ~ (200 <= code <= 299 \/ code = 304)).
Proof.
  intros os. destruct (first_reply os) as [[code body]|]; cbn [on_end].
  - destruct (accepted_code code) eqn:A.
    + apply accepted_iff in A. split.
      * intros text. split; [intros H; exists code, body; split; [reflexivity|split; [exact A|change (str " ") with [32]; congruence]]|].
        intros (c & b & E & _ & ->). injection E as -> ->. reflexivity.
      * split; [discriminate|]. intros H. destruct (H code body eq_refl A).
    + assert (NA : ~ (200 <= code <= 299 \/ code = 304)) by (intros X; apply accepted_iff in X; congruence). split.
      * intros text. split; [discriminate|]. intros (c & b & E & X & _). destruct NA. congruence.
      * split; [|reflexivity]. intros _ c b E. congruence.
  - split; [|split; [intros _ c b E; discriminate|reflexivity]]. intros text. split; [discriminate|]. intros (c & b & E & _). discriminate.
Qed.

Lemma c91_wait_codes : forall answers n, wait_restart answers = Some n <->
  exists before code rest, answers = before ++ Some (code, str "OK") :: rest /\ length before = (n - 1)%nat /\ (n > 0)%nat /\
    (200 <= code <= 299 \/ code = 304) /\
    Forall (fun a => forall c, 200 <= c <= 299 \/ c = 304 -> a <> Some (c, str "OK")) before.
Proof.
  intros answers n. rewrite c91_wait. split; intros (b & c & r & E & L & N & A & F); exists b, c, r; (split; [exact E|]);
    (split; [exact L|]); (split; [exact N|]); (split; [now apply accepted_iff|]); (eapply Forall_impl; [|exact F]);
    intros a H k K; apply H; now apply accepted_iff.
Qed.
Lemma c91_no_choice : forall cs, (forall f, ~ In (Picks f) cs) -> submit (fold_left choose cs upform_start) = None.
Proof.
  assert (H : forall cs u, (forall f, ~ In (Picks f) cs) -> u_button u = None -> u_button (fold_left choose cs u) = None).
  { induction cs as [|[f|] cs IH]; intros u N B; cbn [fold_left]; [exact B|destruct (N f (or_introl eq_refl))|].
    apply IH; [|exact B]. intros f I. exact (N f (or_intror I)). }
  intros cs N. unfold submit. rewrite (H cs upform_start N eq_refl). reflexivity.
Qed.
