(** Proofs for C113: what follows a failure (src/update.cpp, library Updater). *)
From Coq Require Import ZArith List Bool Lia.
From Verif Require Import Base BaseFacts Publish Config Erfs Tic Pages Sse Cpu Web WebSpec WebProofs Device DevicePages Flasher FlasherSpec FlasherProofs FlasherMain FlasherRepair.
Import ListNotations.
Open Scope Z_scope.

Definition OKs : out := Reply 200 Text (str "OK").
Definition FAILs : out := Reply 200 Text (str "FAIL").
Lemma fail_idle : forall l a p s s1 o1, take_part l a p s = (s1, o1) -> In FAILs o1 -> up_size (mo_upd s1) = 0 /\ d_upd (mo_dev s1) = false.
Proof.
  intros l a p s s1 o1 T I. destruct p as [name len | data | |]; unfold take_part in T.
  - destruct (up_begin _ _ _ _) as [u1 ok]. pose proof (end_idle l false (u1, mo_flash s)) as E.
    destruct (up_end l false (u1, mo_flash s)) as [um2 ended]. destruct ok.
    + cbn [handle_upload] in T. inversion T; subst. destruct I as [I | []]. discriminate I.
    + cbn [handle_upload update_finish] in T. inversion T; subst. split; [exact E|]. destruct ended; [|reflexivity].
      destruct I as [I | [I | [I | []]]]; discriminate I.
  - destruct (up_write _ _ _) as [um1 ok]. pose proof (end_idle l false um1) as E.
    destruct (up_end l false um1) as [um2 ended]. destruct ok.
    + cbn [handle_upload] in T. inversion T; subst. destruct I as [I | []]. discriminate I.
    + cbn [handle_upload update_finish] in T. inversion T; subst. split; [exact E|]. destruct ended; [|reflexivity].
      destruct I as [I | [I | [I | []]]]; discriminate I.
  - pose proof (end_idle l true (mo_upd s, mo_flash s)) as E. destruct (up_end l true (mo_upd s, mo_flash s)) as [um2 ended].
    cbn [handle_upload update_finish] in T. inversion T; subst. split; [exact E|]. destruct ended; [|reflexivity].
    destruct I as [I | [I | []]]; discriminate I.
  - pose proof (end_idle l false (mo_upd s, mo_flash s)) as E. destruct (up_end l false (mo_upd s, mo_flash s)) as [um2 ended].
    cbn [handle_upload update_finish] in T. inversion T; subst. split; [exact E|]. destruct ended; [|reflexivity].
    destruct I as [I | [I | []]]; discriminate I.
Qed.
Lemma idle_part : forall l a p s, up_size (mo_upd s) = 0 -> (forall name len, p <> Begins name len) -> p <> Piece [] ->
  exists s' o, take_part l a p s = (s', o) /\ mo_flash s' = mo_flash s /\ ~ In OKs o /\ In FAILs o.
Proof.
  intros l a p s Z NB NP.
  assert (U : forall even, up_end l even (mo_upd s, mo_flash s) = ((mo_upd s, mo_flash s), false)) by (intros even; unfold up_end; rewrite Z; reflexivity).
  destruct p as [name len | data | |]; unfold take_part.
  - exfalso. eapply NB. reflexivity.
  - unfold up_write. rewrite Z. rewrite orb_true_r. destruct data as [|c data]; [exfalso; apply NP; reflexivity|].
    rewrite U. cbn [handle_upload update_finish fst snd]. eexists. eexists. split; [reflexivity|]. split; [reflexivity|].
    split; [intros [I | [I | [I | []]]]; discriminate I | right; right; left; reflexivity].
  - rewrite U. cbn [handle_upload update_finish fst snd]. eexists. eexists. split; [reflexivity|]. split; [reflexivity|].
    split; [intros [I | [I | []]]; discriminate I | right; left; reflexivity].
  - rewrite U. cbn [handle_upload update_finish fst snd]. eexists. eexists. split; [reflexivity|]. split; [reflexivity|].
    split; [intros [I | [I | []]]; discriminate I | right; left; reflexivity].
Qed.
Lemma idle_parts : forall l ps s s' o, up_size (mo_upd s) = 0 -> d_upd (mo_dev s) = false ->
  Forall (fun x => (forall name len, snd x <> Begins name len) /\ snd x <> Piece []) ps -> take_parts l ps s = (s', o) ->
  mo_flash s' = mo_flash s /\ ~ In OKs o /\ d_upd (mo_dev s') = false.
Proof.
  induction ps as [|[a p] ps IH]; intros s s' o Z D F T.
  - cbn [take_parts] in T. inversion T; subst. auto.
  - inversion F as [|x y [F1 F2] F3]; subst. cbn [snd] in F1, F2. cbn [take_parts] in T.
    destruct (idle_part l a p s Z F1 F2) as (s1 & o1 & T1 & M1 & N1 & I1). rewrite T1 in T.
    destruct (fail_idle _ _ _ _ _ _ T1 I1) as [Z1 D1].
    destruct (take_parts l ps s1) as [s2 o2] eqn:T2. inversion T; subst.
    destruct (IH s1 s' o2 Z1 D1 F3 T2) as (M2 & N2 & D2). split; [congruence|]. split; [|exact D2].
    intros I. apply in_app_iff in I. tauto.
Qed.
Lemma no_restart : forall d, d_upd d = false ->
  forall fuel b q, q_uri q = str "/update" -> q_method q = POST -> fully_allowed q d -> handle fuel b q d = Done (d, []).
Proof.
  intros d D fuel b q U P A. unfold handle. rewrite U, P. change (find_route routes POST (str "/update")) with (Some HUpdateDone). cbv iota.
  unfold serve, if_full. rewrite (proj2 (full_iff _ _) A), D. reflexivity.
Qed.
Lemma after_failure : forall l a p s s1 o1 ps s2 o2, take_part l a p s = (s1, o1) -> In FAILs o1 ->
  Forall (fun x => (forall name len, snd x <> Begins name len) /\ snd x <> Piece []) ps -> take_parts l ps s1 = (s2, o2) ->
  mo_flash s2 = mo_flash s1 /\ ~ In OKs o2 /\
  forall fuel b q, q_uri q = str "/update" -> q_method q = POST -> fully_allowed q (mo_dev s2) -> handle fuel b q (mo_dev s2) = Done (mo_dev s2, []).
Proof.
  intros l a p s s1 o1 ps s2 o2 T I F T2. destruct (fail_idle _ _ _ _ _ _ T I) as [Z D].
  destruct (idle_parts l ps s1 s2 o2 Z D F T2) as (M & N & D2). split; [exact M|]. split; [exact N|].
  exact (no_restart _ D2).
Qed.

(** ** A file that does not fit *)
Lemma plain_parts : forall (pieces : list (around * list Z)) a', Forall (fun p => snd p <> []) pieces ->
  Forall (fun x : around * part => (forall name len, snd x <> Begins name len) /\ snd x <> Piece []) (map (fun p => (fst p, Piece (snd p))) pieces ++ [(a', Ends)]).
Proof.
  intros pieces a' F. apply Forall_app. split.
  - apply Forall_forall. intros x I. apply in_map_iff in I. destruct I as (p & <- & I). cbn [snd].
    rewrite Forall_forall in F. apply F in I. split; [discriminate|]. intros E. apply I. congruence.
  - constructor; [|constructor]. split; discriminate.
Qed.
Definition unfit (l : layout) (name : list Z) (len : Z) (a : around) : Prop :=
  for_site name /\ (a_fs_size a = 0 \/ ly_fs_size l < rounded_up l (a_fs_size a)) \/
  ~ for_site name /\ (len = 0 \/ ly_fs l - rounded_up l len < ly_sketch l).
Lemma refused_begin : forall l name len a s, 0 < ly_sketch l -> unfit l name len a ->
  exists s1 o1, take_part l a (Begins name len) s = (s1, o1) /\ mo_flash s1 = mo_flash s /\ In FAILs o1 /\ ~ In OKs o1 \/ 0 < up_size (mo_upd s).
Proof.
  intros l name len a s SK U. destruct (Z_lt_dec 0 (up_size (mo_upd s))) as [R | R]; [exists s, []; right; exact R|].
  unfold take_part.
  assert (B : up_begin l (contains (str "fs.bin") name) (if contains (str "fs.bin") name then a_fs_size a else len) (mo_upd s) = (idle true, false)).
  { unfold up_begin. replace (0 <? up_size (mo_upd s)) with false by lia. destruct U as [[FS U] | [FS U]].
    - rewrite (site_contains _ FS). destruct (Z.eqb_spec (a_fs_size a) 0); [reflexivity|].
      replace (_ >? _) with true by lia. reflexivity.
    - rewrite (program_contains _ FS). destruct (Z.eqb_spec len 0); [reflexivity|]. cbv zeta.
      destruct U as [U | U]; [contradiction|]. destruct (ly_fs l >? rounded_up l len) eqn:Q.
      + replace (_ <? _) with true by lia. reflexivity.
      + replace (_ <? _) with true by lia. reflexivity. }
  rewrite B. unfold up_end. cbn [idle up_size Z.eqb handle_upload update_finish fst snd].
  eexists. eexists. left. split; [reflexivity|]. split; [reflexivity|]. split; [right; right; left; reflexivity|].
  intros [I | [I | [I | []]]]; discriminate I.
Qed.
Lemma refused_whole : forall l name len a pieces a' s, 0 < ly_sketch l -> up_size (mo_upd s) = 0 -> unfit l name len a -> Forall (fun p => snd p <> []) pieces ->
  exists s' o, take_parts l (whole name len a pieces a') s = (s', o) /\ mo_flash s' = mo_flash s /\ In FAILs o /\ ~ In OKs o /\
    forall fuel b q, q_uri q = str "/update" -> q_method q = POST -> fully_allowed q (mo_dev s') -> handle fuel b q (mo_dev s') = Done (mo_dev s', []).
Proof.
  intros l name len a pieces a' s SK Z U F. destruct (refused_begin l name len a s SK U) as (s1 & o1 & [(T & M & I & N) | R]); [|lia].
  unfold whole. cbn [take_parts]. rewrite T. destruct (take_parts l (_ ++ _) s1) as [s2 o2] eqn:T2.
  destruct (after_failure _ _ _ _ _ _ _ _ _ T I (plain_parts pieces a' F) T2) as (M2 & N2 & H).
  exists s2, (o1 ++ o2). split; [reflexivity|]. split; [congruence|]. split; [apply in_or_app; left; exact I|]. split; [|exact H].
  intros X. apply in_app_iff in X. tauto.
Qed.

(** ** A file longer than its length *)
Definition received (u : updater) : Z := progress u + size_of (up_buf u).
Lemma size_app : forall a b : list Z, size_of (a ++ b) = size_of a + size_of b.
Proof. intros. unfold size_of. rewrite app_length. lia. Qed.
Lemma flush_received : forall l um, received (fst (flush l um)) = received (fst um) /\ up_size (fst (flush l um)) = up_size (fst um).
Proof. intros l [u m]. unfold flush, received, progress. cbn [fst up_addr up_start up_buf up_size]. change (size_of (@nil Z)) with 0. split; [lia | reflexivity]. Qed.
Lemma push_received : forall l um b, received (fst (push l um b)) = received (fst um) + 1 /\ up_size (fst (push l um b)) = up_size (fst um).
Proof.
  intros l um b. unfold push. pose proof (flush_received l um) as [R S].
  assert (X : forall x, received (fst x) = received (fst um) -> up_size (fst x) = up_size (fst um) ->
    received (fst (let '(u, m) := x in (mk_updater (up_size u) (up_start u) (up_addr u) (up_buf u ++ [b]) (up_error u), m) : updater * (Z -> Z))) = received (fst um) + 1 /\
    up_size (fst (let '(u, m) := x in (mk_updater (up_size u) (up_start u) (up_addr u) (up_buf u ++ [b]) (up_error u), m) : updater * (Z -> Z))) = up_size (fst um)).
  { intros [u m] H1 H2. unfold received, progress in *. cbn [fst up_addr up_start up_buf up_size] in *. rewrite size_app. change (size_of [b]) with 1. split; [lia | exact H2]. }
  destruct (_ =? _); apply X; auto.
Qed.
Lemma pushes_received : forall l data um, received (fst (fold_left (push l) data um)) = received (fst um) + size_of data /\
  up_size (fst (fold_left (push l) data um)) = up_size (fst um).
Proof.
  induction data as [|b data IH]; intros um; cbn [fold_left]; [change (size_of (@nil Z)) with 0; split; [lia | reflexivity]|].
  destruct (IH (push l um b)) as [R S]. destruct (push_received l um b) as [R1 S1]. rewrite R, R1, S, S1.
  change (b :: data) with ([b] ++ data). rewrite size_app. change (size_of [b]) with 1. split; [lia | reflexivity].
Qed.
Lemma write_received : forall l data um um', data <> [] -> up_write l data um = (um', true) ->
  received (fst um') = received (fst um) + size_of data /\ up_size (fst um') = up_size (fst um) /\ received (fst um') <= up_size (fst um).
Proof.
  intros l data [u m] um' NE W. unfold up_write in W. destruct (_ || _); [destruct data; [contradiction | discriminate]|].
  destruct (_ >? _) eqn:Q; [discriminate|]. destruct (pushes_received l data (u, m)) as [R S].
  destruct (flush_received l (fold_left (push l) data (u, m))) as [R1 S1].
  assert (E : received (fst um') = received u + size_of data /\ up_size (fst um') = up_size u).
  { injection W as <-. destruct (_ =? _); [rewrite R1, S1|]; auto. }
  destruct E as [E1 E2]. cbn [fst]. split; [exact E1|]. split; [exact E2|]. rewrite E1. unfold received. lia.
Qed.
Lemma write_failed : forall l data um um', up_write l data um = (um', false) -> snd (up_end l false um') = false.
Proof.
  intros l data [u m] um' W. unfold up_write in W. destruct (up_error u || (up_size u =? 0)) eqn:Q.
  - assert (um' = (u, m)) by congruence. subst um'. unfold up_end. destruct (up_size u =? 0); [reflexivity|]. rewrite orb_false_r in Q. rewrite Q. reflexivity.
  - destruct (_ >? _); [|discriminate]. injection W as <-. unfold up_end. cbn [up_size up_error]. apply orb_false_iff in Q. destruct Q as [_ Q]. rewrite Q. reflexivity.
Qed.
Lemma site_dec : forall name, for_site name \/ ~ for_site name.
Proof.
  intros name. destruct (contains (str "fs.bin") name) eqn:C; [left; apply contains_iff; exact C|].
  right. intros S. rewrite (site_contains _ S) in C. discriminate.
Qed.
Lemma pieces_longer : forall l a' pieces s s' o, Forall (fun p => snd p <> []) pieces -> up_size (mo_upd s) < received (mo_upd s) + size_of (concat (map snd pieces)) ->
  received (mo_upd s) <= up_size (mo_upd s) ->
  take_parts l (map (fun p : around * list Z => (fst p, Piece (snd p))) pieces ++ [(a', Ends)]) s = (s', o) ->
  In FAILs o /\ ~ In OKs o /\ d_upd (mo_dev s') = false.
Proof.
  intros l a'. induction pieces as [|[a data] pieces IH]; intros s s' o F L R T.
  - cbn [map concat] in L. change (size_of (@nil Z)) with 0 in L. lia.
  - inversion F as [|x y F1 F2]; subst. cbn [snd] in F1. cbn [map concat snd fst app] in L, T. rewrite size_app in L. cbn [take_parts] in T.
    destruct (take_part l a (Piece data) s) as [s1 o1] eqn:T1. destruct (take_parts l (_ ++ _) s1) as [s2 o2] eqn:T2. injection T as <- <-.
    destruct (up_write l data (mo_upd s, mo_flash s)) as [um1 ok] eqn:W. destruct ok.
    + destruct (write_received l data _ um1 F1 W) as (W1 & W2 & W3). cbn [fst] in W1, W2, W3.
      assert (U : mo_upd s1 = fst um1).
      { unfold take_part in T1. rewrite W in T1. cbn [handle_upload fst snd] in T1. injection T1 as <- _. reflexivity. }
      assert (N1 : ~ In OKs o1).
      { unfold take_part in T1. rewrite W in T1. cbn [handle_upload fst snd] in T1. injection T1 as _ <-. intros [X | []]. discriminate X. }
      destruct (IH s1 s2 o2 F2) as (I & N & D); [rewrite U; lia | rewrite U; lia | exact T2 |].
      split; [apply in_or_app; right; exact I|]. split; [|exact D]. intros X. apply in_app_iff in X. tauto.
    + assert (I : In FAILs o1 /\ ~ In OKs o1).
      { unfold take_part in T1. rewrite W in T1. pose proof (write_failed l data _ um1 W) as E.
        destruct (up_end l false um1) as [um2 ended]. cbn [snd] in E. subst ended. cbn [handle_upload update_finish fst snd] in T1.
        injection T1 as _ <-. split; [right; right; left; reflexivity|]. intros [X | [X | [X | []]]]; discriminate X. }
      destruct I as [I N1]. destruct (fail_idle _ _ _ _ _ _ T1 I) as [Z D].
      destruct (idle_parts l _ s1 s2 o2 Z D (plain_parts pieces a' F2) T2) as (_ & N2 & D2).
      split; [apply in_or_app; left; exact I|]. split; [|exact D2]. intros X. apply in_app_iff in X. tauto.
Qed.
Lemma begin_received : forall l to_fs size u u', up_begin l to_fs size u = (u', true) -> up_size u' = size /\ received u' = 0.
Proof.
  intros l to_fs size u u' B. unfold up_begin in B. destruct (0 <? _); [discriminate|]. destruct (size =? 0); [discriminate|].
  destruct to_fs; destruct (_ : bool) in B; try discriminate; injection B as <-; unfold received, progress; cbn [up_size up_addr up_start up_buf];
    change (size_of (@nil Z)) with 0; split; lia.
Qed.
Lemma too_long : forall l name len a pieces a' s size, (for_site name -> size = a_fs_size a) -> (~ for_site name -> size = len) -> 0 <= size ->
  up_size (mo_upd s) = 0 -> Forall (fun p => snd p <> []) pieces -> size < size_of (concat (map snd pieces)) ->
  exists s' o, take_parts l (whole name len a pieces a') s = (s', o) /\ In FAILs o /\ ~ In OKs o /\
    forall fuel b q, q_uri q = str "/update" -> q_method q = POST -> fully_allowed q (mo_dev s') -> handle fuel b q (mo_dev s') = Done (mo_dev s', []).
Proof.
  intros l name len a pieces a' s size E1 E2 P Z F L.
  assert (E : (if contains (str "fs.bin") name then a_fs_size a else len) = size).
  { destruct (contains (str "fs.bin") name) eqn:C.
    - symmetry. apply E1. destruct (site_dec name) as [S | S]; [exact S|]. rewrite (program_contains _ S) in C. discriminate.
    - symmetry. apply E2. intros S. rewrite (site_contains _ S) in C. discriminate. }
  unfold whole. cbn [take_parts]. destruct (take_part l a (Begins name len) s) as [s1 o1] eqn:T.
  destruct (take_parts l (_ ++ _) s1) as [s2 o2] eqn:T2. exists s2, (o1 ++ o2). split; [reflexivity|].
  destruct (up_begin l (contains (str "fs.bin") name) size (mo_upd s)) as [u1 ok] eqn:B.
  assert (X : In FAILs (o1 ++ o2) /\ ~ In OKs (o1 ++ o2) /\ d_upd (mo_dev s2) = false); [|split; [apply X | split; [apply X | apply no_restart, X]]].
  destruct ok.
  - destruct (begin_received _ _ _ _ _ B) as [B1 B2].
    assert (U : mo_upd s1 = u1).
    { unfold take_part in T. rewrite E, B in T. cbn [handle_upload fst snd] in T. injection T as <- _. reflexivity. }
    assert (N1 : ~ In OKs o1).
    { unfold take_part in T. rewrite E, B in T. cbn [handle_upload fst snd] in T. injection T as _ <-. intros [X | []]. discriminate X. }
    destruct (pieces_longer l a' pieces s1 s2 o2 F) as (I & N & D); [rewrite U; lia | rewrite U; lia | exact T2 |].
    split; [apply in_or_app; right; exact I|]. split; [|exact D]. intros X. apply in_app_iff in X. tauto.
  - assert (I : In FAILs o1 /\ ~ In OKs o1).
    { unfold take_part in T. rewrite E, B in T.
      assert (Q : snd (up_end l false (u1, mo_flash s)) = false).
      { unfold up_begin in B. replace (0 <? up_size (mo_upd s)) with false in B by lia. destruct (size =? 0); [injection B as <-; reflexivity|].
        destruct (contains _ _); destruct (_ : bool) in B; try discriminate; injection B as <-; reflexivity. }
      destruct (up_end l false (u1, mo_flash s)) as [um2 ended]. cbn [snd] in Q. subst ended. cbn [handle_upload update_finish fst snd] in T.
      injection T as _ <-. split; [right; right; left; reflexivity|]. intros [X | [X | [X | []]]]; discriminate X. }
    destruct I as [I N1]. destruct (fail_idle _ _ _ _ _ _ T I) as [Z1 D].
    destruct (idle_parts l _ s1 s2 o2 Z1 D (plain_parts pieces a' F) T2) as (_ & N2 & D2).
    split; [apply in_or_app; left; exact I|]. split; [|exact D2]. intros X. apply in_app_iff in X. tauto.
Qed.

(** ** A file no longer than the buffer, and shorter than announced: nothing has been written when it ends, which the library takes as an error *)
Definition waiting (size start : Z) (buf : list Z) : updater := mk_updater size start start buf false.
Lemma pushes_wait : forall l size start data buf m, size_of buf + size_of data <= ly_buffer l ->
  fold_left (push l) data (waiting size start buf, m) = (waiting size start (buf ++ data), m).
Proof.
  induction data as [|b data IH]; intros buf m H; cbn [fold_left]; [rewrite app_nil_r; reflexivity|].
  change (b :: data) with ([b] ++ data) in *. rewrite size_app in H. change (size_of [b]) with 1 in H.
  assert (0 <= size_of data) by (unfold size_of; lia).
  unfold push at 2. cbn [fst waiting up_buf]. replace (size_of buf =? ly_buffer l) with false by lia.
  cbn [waiting up_size up_start up_addr up_buf up_error]. fold (waiting size start (buf ++ [b])).
  rewrite IH by (rewrite size_app; change (size_of [b]) with 1; lia). rewrite <- app_assoc. reflexivity.
Qed.
Lemma pieces_wait : forall l size start pieces buf s, mo_upd s = waiting size start buf -> size <> 0 ->
  size_of buf + size_of (concat (map snd pieces)) <= ly_buffer l -> size_of buf + size_of (concat (map snd pieces)) < size ->
  exists s', take_parts l (map (fun p : around * list Z => (fst p, Piece (snd p))) pieces) s = (s', map (fun p => UpdateWrite (snd p)) pieces) /\
    mo_upd s' = waiting size start (buf ++ concat (map snd pieces)) /\ mo_flash s' = mo_flash s /\ mo_dev s' = mo_dev s.
Proof.
  intros l size start. induction pieces as [|[a data] pieces IH]; intros buf s U NZ B S.
  - exists s. cbn [map take_parts concat]. rewrite app_nil_r. auto.
  - cbn [map concat snd fst] in *. rewrite size_app in B, S. assert (0 <= size_of (concat (map snd pieces))) by (unfold size_of; lia).
    assert (W : up_write l data (mo_upd s, mo_flash s) = ((waiting size start (buf ++ data), mo_flash s), true)).
    { rewrite U. unfold up_write. cbn [waiting up_error up_size]. replace (size =? 0) with false by lia. cbn [orb].
      unfold progress. cbn [waiting up_addr up_start up_buf]. replace (_ >? _) with false by lia.
      fold (waiting size start buf). rewrite pushes_wait by lia. cbn [fst]. unfold progress. cbn [waiting up_addr up_start up_buf up_size].
      rewrite size_app. replace (_ =? _) with false by lia. reflexivity. }
    cbn [take_parts]. unfold take_part at 1. rewrite W. cbn [handle_upload fst snd].
    destruct (IH (buf ++ data) (mk_module (mo_dev s) (waiting size start (buf ++ data)) (mo_flash s))) as (s' & T & U' & M & D);
      [reflexivity | exact NZ | rewrite size_app; lia | rewrite size_app; lia|].
    rewrite T. exists s'. split; [reflexivity|]. rewrite app_assoc. auto.
Qed.
Lemma small_file : forall l name len a pieces a' s, ~ for_site name -> up_size (mo_upd s) = 0 ->
  size_of (concat (map snd pieces)) <= ly_buffer l -> size_of (concat (map snd pieces)) < len ->
  rounded_up l len < ly_fs l -> ly_sketch l <= ly_fs l - rounded_up l len ->
  exists s', take_parts l (whole name len a pieces a') s =
      (s', UpdateBegin false len :: map (fun p => UpdateWrite (snd p)) pieces ++ [UpdateEnd true; Reply 200 Text (str "FAIL")]) /\
    mo_flash s' = mo_flash s /\
    forall fuel b q, q_uri q = str "/update" -> q_method q = POST -> fully_allowed q (mo_dev s') -> handle fuel b q (mo_dev s') = Done (mo_dev s', []).
Proof.
  intros l name len a pieces a' s FS I B L R K. assert (0 <= size_of (concat (map snd pieces))) by (unfold size_of; lia).
  unfold whole. cbn [take_parts]. unfold take_part at 1. rewrite (program_contains _ FS).
  assert (BG : up_begin l false len (mo_upd s) = (waiting len (ly_fs l - rounded_up l len) [], true)).
  { unfold up_begin. replace (0 <? up_size (mo_upd s)) with false by lia. replace (len =? 0) with false by lia. cbv zeta.
    replace (ly_fs l >? rounded_up l len) with true by lia. replace (_ <? _) with false by lia. reflexivity. }
  rewrite BG. cbn [handle_upload fst snd]. rewrite (program_contains _ FS). rewrite parts_app.
  match goal with |- context [take_parts l (map _ pieces) ?x] => set (s0 := x) end.
  destruct (pieces_wait l len (ly_fs l - rounded_up l len) pieces [] s0) as (s1 & T & U & M & D);
    [reflexivity | lia | change (size_of (@nil Z)) with 0; lia | change (size_of (@nil Z)) with 0; lia |].
  rewrite T. cbn [take_parts]. unfold take_part. rewrite U. unfold up_end. cbn [waiting up_size up_error]. replace (len =? 0) with false by lia.
  unfold progress. cbn [waiting up_addr up_start]. rewrite Z.sub_diag. cbn [Z.eqb orb handle_upload update_finish fst snd].
  eexists. split; [rewrite <- ?app_assoc; reflexivity|]. cbn [mo_flash mo_dev]. split; [exact M|]. apply no_restart. reflexivity.
Qed.
