(** Updates down to the flash memory: a site served after its update, an interrupted update. *)
From Coq Require Import ZArith List Bool Lia ZifyBool ZifyNat.
From Verif Require Import Base BaseFacts Publish Config Tic Pages Sse Cpu Web WebSpec WebProofs Device DevicePages Erfs ErfsSpec ErfsProofs ErfsRead ErfsFinal Site SiteSpec SiteProofs
  Flasher FlasherSpec FlasherProofs FlasherMain.
Import ListNotations.
Open Scope Z_scope.

Lemma partition_installed : forall l m image, sound_layout l -> size_of image = ly_fs_size l ->
  (forall i, 0 <= i < ly_fs_size l -> m (ly_fs l + i) = nth (Z.to_nat i) image 0) -> installed (partition l m) image.
Proof.
  intros l m image (_ & _ & _ & _ & SK & FS & B) SZ H. unfold installed, partition. cbn [fs_start fs_size fs_files fs_flash].
  split; [lia|]. split; [exact B|]. split; [lia|]. split; [reflexivity|]. rewrite SZ. exact H.
Qed.

Lemma new_site : forall l name len a pieces a' s files image, sound_layout l -> for_site name -> a_fs_size a = ly_fs_size l -> up_size (mo_upd s) = 0 ->
  Forall (fun p => snd p <> [] /\ Forall is_octet (snd p)) pieces -> concat (map snd pieces) = image ->
  directory files -> Forall (fun f => size_of (src_name f) <= 63) files -> create files (ly_fs_size l) = Packed image ->
  (forall before f after, files = before ++ f :: after -> name_at files before + 63 <= ly_fs_size l) ->
  exists s' s1 l0, take_parts l (whole name len a pieces a') s =
      (s', UpdateBegin true (ly_fs_size l) :: map (fun p => UpdateWrite (snd p)) pieces ++ [UpdateEnd true; Reply 200 Text (str "OK")]) /\
    (forall fuel b q, q_uri q = str "/update" -> q_method q = POST -> fully_allowed q (mo_dev s') ->
      handle fuel b q (mo_dev s') = Done (mo_dev s', [RestartSoon])) /\
    erfs_begin (partition l (mo_flash s')) = (s1, true, l0) /\
    forall b, site_is s1 (a_site b) ->
    (forall fuel q d, q_uri q = str "/" -> fully_allowed q d -> handle fuel b q d = Done (d,
       [match packed files (str "index.html.gz"), packed files (str "index.html") with
        | Some c, _ => SendFile (str "/index.html.gz") c
        | None, Some c => SendFile (str "/index.html") c
        | None, None => Reply 304 Html link_to_update
        end])) /\
    (forall fuel q d name, q_method q = GET -> q_uri q = 47 :: name -> served_dir (q_uri q) -> ~ In (q_uri q) page_uris ->
      Forall (fun c => c <> 0) name ->
      match packed files name, packed files (name ++ str ".gz") with
      | Some c, _ => handle fuel b q d = Done (d, [SendFile (q_uri q) c])
      | None, Some c => handle fuel b q d = Done (d, [SendFile (q_uri q ++ str ".gz") c])
      | None, None => forall d' os p c, handle fuel b q d = Done (d', os) -> ~ In (SendFile p c) os
      end).
Proof.
  intros l name len a pieces a' s files image SL FS AS ID F CI D NM C W.
  assert (SZ : size_of image = ly_fs_size l) by (pose proof (c43 files (ly_fs_size l)) as H; rewrite C in H; apply H).
  destruct (site_written l name len a pieces a' s image SL FS AS ID F CI SZ) as (s' & T & M & _ & DV & _).
  pose proof (partition_installed l (mo_flash s') image SL SZ M) as Ins.
  destruct (c39 files (ly_fs_size l) image _ D NM C Ins) as (s1 & l0 & B & _).
  exists s', s1, l0. split; [exact T|]. split; [|split; [exact B|]].
  - intros fuel b q U P A. rewrite DV in *. unfold handle. rewrite U, P. change (find_route routes POST (str "/update")) with (Some HUpdateDone). cbv iota.
    unfold serve, if_full. rewrite (proj2 (full_iff _ _) A). reflexivity.
  - intros b S. split.
    + intros fuel q d U. exact (proj1 (c74_home files (ly_fs_size l) image _ s1 l0 b D NM C Ins B W S fuel q d U)).
    + intros fuel q d nm. exact (c74_static files (ly_fs_size l) image _ s1 l0 b D NM C Ins B W S fuel q d nm).
Qed.

(** ** An update that is interrupted *)
Lemma pieces_open : forall l st N m0 pieces t s, sound_layout l -> st mod ly_sector l = 0 -> 0 < N ->
  opened l st N m0 t (mo_upd s) (mo_flash s) -> up_error (mo_upd s) = false ->
  Forall (fun p => snd p <> [] /\ Forall is_octet (snd p)) pieces -> size_of t + size_of (concat (map snd pieces)) < N ->
  exists s', take_parts l (map (fun p : around * list Z => (fst p, Piece (snd p))) pieces) s = (s', map (fun p => UpdateWrite (snd p)) pieces) /\
    mo_dev s' = mo_dev s /\ opened l st N m0 (t ++ concat (map snd pieces)) (mo_upd s') (mo_flash s') /\ up_error (mo_upd s') = false.
Proof.
  intros l st N m0 pieces. induction pieces as [|[a data] pieces IH]; intros t s SL ST N0 O ER F SZ.
  { exists s. cbn [map take_parts concat]. rewrite app_nil_r. auto. }
  inversion F as [|x y [Fn Fo] Fp]; subst x y. cbn [snd fst] in *. cbn [map concat fst snd] in *. rewrite size_app in SZ. pose proof (size_pos (concat (map snd pieces))) as PC.
  destruct s as [d u m]. cbn [mo_upd mo_flash mo_dev] in *.
  destruct (write_fits l SL st N m0 ST data t u m O ER Fo ltac:(lia) Fn N0) as (u1 & m1 & W & E1 & CS). cbn [take_parts]. unfold take_part. cbn [mo_dev mo_upd mo_flash]. rewrite W.
  cbn [handle_upload fst snd]. destruct CS as [[X _]|[L O1]]; [exfalso; lia|].
  destruct (IH (t ++ data) (mk_module d u1 m1) SL ST N0 O1 E1 Fp ltac:(rewrite size_app; lia)) as (s2 & T & D2 & C2 & E2).
  rewrite T. exists s2. split; [reflexivity|]. split; [exact D2|]. split; [rewrite <- app_assoc in C2; exact C2|exact E2].
Qed.

Lemma interrupted : forall l name len a pieces a' s, sound_layout l -> for_site name -> a_fs_size a = ly_fs_size l -> up_size (mo_upd s) = 0 ->
  Forall (fun p => snd p <> [] /\ Forall is_octet (snd p)) pieces -> size_of (concat (map snd pieces)) < ly_fs_size l ->
  exists s', take_parts l (begun name len a pieces ++ [(a', Aborts)]) s =
      (s', UpdateBegin true (ly_fs_size l) :: map (fun p => UpdateWrite (snd p)) pieces ++ [UpdateEnd false; Reply 200 Text (str "FAIL")]) /\
    (forall i, 0 <= i < size_of (concat (map snd pieces)) - ly_buffer l -> mo_flash s' (ly_fs l + i) = nth (Z.to_nat i) (concat (map snd pieces)) 0) /\
    (forall i, i < ly_fs l \/ rounded_up l (ly_fs l + size_of (concat (map snd pieces))) <= i -> mo_flash s' i = mo_flash s i) /\
    up_size (mo_upd s') = 0.
Proof.
  intros l name len a pieces a' s SL FS AS ID F SZ. pose proof SL as (B0 & (n & n0 & E) & FA & FM & SK & FS0 & _). assert (SP := sector_pos l SL).
  unfold begun. cbn [app take_parts]. destruct s as [d u m]. unfold take_part at 1. cbn [mo_dev mo_upd mo_flash] in *. rewrite (site_contains name FS), AS. unfold up_begin. rewrite ID.
  change (0 <? 0) with false. cbv iota. replace (ly_fs_size l =? 0) with false by lia. rewrite (rounded_whole l _ SP FM).
  replace (ly_fs l + ly_fs_size l >? ly_fs l + ly_fs_size l) with false by lia. cbv iota beta. cbn [fst snd]. cbn [handle_upload]. rewrite (site_contains name FS), AS.
  rewrite parts_app.
  assert (O := opened_start l SL (ly_fs l) (ly_fs_size l) m FA false ltac:(lia)).
  destruct (pieces_open l (ly_fs l) (ly_fs_size l) m pieces [] (mk_module (with_upload true false d) (mk_updater (ly_fs_size l) (ly_fs l) (ly_fs l) [] false) m) SL FA FS0 O eq_refl F) as (s2 & T & D2 & C2 & E2).
  { unfold size_of at 1. cbn [length]. lia. }
  rewrite T. cbn [app] in C2. destruct s2 as [d2 u2 m2]. cbn [mo_dev mo_upd mo_flash] in *.
  destruct C2 as (k & K & KB & LB & TN). pose proof K as (K1 & _ & _ & K4 & K5 & _ & _ & K8 & K9 & _). pose proof (size_pos (up_buf u2)) as BP.
  cbn [take_parts]. unfold take_part. cbn [mo_dev mo_upd mo_flash]. unfold up_end. rewrite K1. replace (ly_fs_size l =? 0) with false by lia.
  rewrite E2, (kept_progress _ _ _ _ _ _ _ _ K). cbn [orb]. replace (k =? ly_fs_size l) with false by lia. cbn [negb andb]. rewrite orb_true_r.
  cbv iota. cbn [snd fst handle_upload update_finish].
  eexists. split; [cbn [app]; reflexivity|]. cbn [mo_dev mo_upd mo_flash]. split; [|split].
  - intros i I. rewrite K8 by lia. f_equal. lia.
  - intros i I. apply K9. destruct I as [I|I]; [left; exact I|right].
    destruct (rounded_above l (ly_fs l + size_of (concat (map snd pieces))) SP) as [R1 R2]. apply (base_aligned l SL) in R2.
    pose proof (base_mono l SL _ i I). lia.
  - reflexivity.
Qed.
Lemma not_mounted : forall l m, sound_layout l -> (forall i, 0 <= i < 8 -> m (ly_fs l + i) = 0) -> snd (fst (erfs_begin (partition l m))) = false.
Proof.
  intros l m (_ & _ & _ & _ & SK & FS & B) H. unfold erfs_begin.
  destruct (Z_le_gt_dec 8 (ly_fs_size l)) as [L|L].
  - rewrite (proj1 (hal_ok (partition l m) 0 8 ltac:(cbn [partition fs_start fs_size]; lia) ltac:(cbn [partition fs_start fs_size]; lia) ltac:(lia) ltac:(lia) ltac:(cbn [partition fs_start fs_size]; lia))). cbn [partition fs_flash fs_start fs_size].
    replace (flash_bytes m (ly_fs l + 0) 8) with [0; 0; 0; 0; 0; 0; 0; 0]; [reflexivity|].
    symmetry. apply (nth_ext _ _ 0 0).
    + pose proof (flash_size m (ly_fs l + 0) 8 ltac:(lia)) as Z0. unfold size_of in Z0. cbn [length]. lia.
    + intros k K. pose proof (flash_size m (ly_fs l + 0) 8 ltac:(lia)) as Z0. unfold size_of in Z0.
      rewrite <- (Nat2Z.id k) at 1. rewrite flash_nth by lia. rewrite Z.add_0_r, H by lia.
      do 8 (destruct k as [|k]; [reflexivity|]). exfalso. lia.
  - rewrite hal_out by (cbn [partition fs_start fs_size]; lia). reflexivity.
Qed.
Lemma zero_nth : forall n i, nth i (repeat 0 n) 0 = 0.
Proof. induction n as [|n IH]; intros [|i]; cbn; auto. Qed.
(** One piece of zeros, a little more than the buffer: whatever the site was, it is lost. *)
Lemma site_lost : forall l name len a a' s n, sound_layout l -> for_site name -> a_fs_size a = ly_fs_size l -> up_size (mo_upd s) = 0 ->
  ly_buffer l + 8 <= n < ly_fs_size l ->
  exists s', take_parts l (begun name len a [(a, repeat 0 (Z.to_nat n))] ++ [(a', Aborts)]) s =
    (s', [UpdateBegin true (ly_fs_size l); UpdateWrite (repeat 0 (Z.to_nat n)); UpdateEnd false; Reply 200 Text (str "FAIL")]) /\
    snd (fst (erfs_begin (partition l (mo_flash s')))) = false.
Proof.
  intros l name len a a' s n SL FS AS ID I. pose proof SL as (B0 & _).
  assert (SZ : size_of (concat (map snd [(a, repeat 0 (Z.to_nat n))])) = n) by (cbn [map concat snd]; rewrite app_nil_r; unfold size_of; rewrite repeat_length; lia).
  destruct (interrupted l name len a [(a, repeat 0 (Z.to_nat n))] a' s SL FS AS ID) as (s' & T & M & _).
  - constructor; [|constructor]. cbn [snd]. split.
    + destruct (Z.to_nat n) eqn:Q; [lia|discriminate].
    + apply Forall_forall. intros x X. apply repeat_spec in X. subst x. unfold is_octet. lia.
  - rewrite SZ. lia.
  - exists s'. split; [exact T|]. apply not_mounted; [exact SL|]. intros i J. rewrite M by (rewrite SZ; lia). cbn [map concat snd]. rewrite app_nil_r. apply zero_nth.
Qed.

(** ** A new program *)
Lemma program_written : forall l name len a pieces a' s file, sound_layout l -> ~ for_site name -> up_size (mo_upd s) = 0 ->
  Forall (fun p => snd p <> [] /\ Forall is_octet (snd p)) pieces -> concat (map snd pieces) = file -> ly_buffer l < size_of file <= len ->
  rounded_up l len < ly_fs l -> ly_sketch l <= ly_fs l - rounded_up l len ->
  exists s', take_parts l (whole name len a pieces a') s =
      (s', UpdateBegin false len :: map (fun p => UpdateWrite (snd p)) pieces ++ [UpdateEnd true; Reply 200 Text (str "OK")]) /\
    (forall i, 0 <= i < size_of file -> mo_flash s' (ly_fs l - rounded_up l len + i) = nth (Z.to_nat i) file 0) /\
    (forall i, i < ly_fs l - rounded_up l len \/ ly_fs l <= i -> mo_flash s' i = mo_flash s i) /\
    mo_dev s' = with_upload false true (mo_dev s) /\ up_size (mo_upd s') = 0.
Proof.
  intros l name len a pieces a' s file SL FS ID F CI LB RL SK. pose proof SL as (B0 & (n & n0 & E) & FA & FM & SK0 & FS0 & _). assert (SP := sector_pos l SL).
  destruct (rounded_above l len SP) as [R1 R2].
  assert (FA' : (ly_fs l - rounded_up l len) mod ly_sector l = 0) by (rewrite Zminus_mod, FA, R2; apply Z.mod_0_l; lia).
  remember (ly_fs l - rounded_up l len) as st eqn:ES.
  unfold whole. cbn [take_parts]. destruct s as [d u m]. unfold take_part at 1. cbn [mo_dev mo_upd mo_flash] in *. rewrite (program_contains name FS). unfold up_begin. rewrite ID.
  change (0 <? 0) with false. cbv iota zeta. replace (len =? 0) with false by lia. replace (ly_fs l >? rounded_up l len) with true by lia. rewrite <- ES.
  replace (st <? ly_sketch l) with false by lia. cbv iota beta. cbn [fst snd]. cbn [handle_upload]. rewrite (program_contains name FS).
  rewrite parts_app.
  assert (O := opened_start l SL st len m FA' false ltac:(lia)).
  assert (T : exists s2 t, take_parts l (map (fun p : around * list Z => (fst p, Piece (snd p))) pieces)
      (mk_module (with_upload true false d) (mk_updater len st st [] false) m) = (s2, map (fun p => UpdateWrite (snd p)) pieces) /\
    mo_dev s2 = with_upload true false d /\ t = file /\ up_error (mo_upd s2) = false /\
    (closed l st len m t (mo_upd s2) (mo_flash s2) \/ opened l st len m t (mo_upd s2) (mo_flash s2))).
  { destruct (Z.eq_dec (size_of file) len) as [Q|Q].
    - destruct (pieces_written l st len m pieces [] (mk_module (with_upload true false d) (mk_updater len st st [] false) m) SL FA' ltac:(lia) O eq_refl F) as (s2 & T & D2 & C2 & E2).
      + rewrite CI, Q. reflexivity.
      + intros ->. cbn [map concat] in CI. subst file. unfold size_of in LB. cbn [length] in LB. lia.
      + rewrite CI in C2. cbn [app] in C2. exists s2, file. split; [exact T|]. split; [exact D2|]. split; [reflexivity|]. split; [exact E2|]. left. exact C2.
    - destruct (pieces_open l st len m pieces [] (mk_module (with_upload true false d) (mk_updater len st st [] false) m) SL FA' ltac:(lia) O eq_refl F) as (s2 & T & D2 & C2 & E2).
      + rewrite CI. unfold size_of at 1. cbn [length]. lia.
      + rewrite CI in C2. cbn [app] in C2. exists s2, file. split; [exact T|]. split; [exact D2|]. split; [reflexivity|]. split; [exact E2|]. right. exact C2. }
  destruct T as (s2 & t & T & D2 & -> & E2 & K). rewrite T. destruct s2 as [d2 u2 m2]. cbn [mo_dev mo_upd mo_flash] in *. subst d2.
  assert (KK : exists k, kept l st len m file k u2 m2 /\ 0 < k /\ k mod ly_buffer l = 0 /\ 0 < size_of (up_buf u2) <= ly_buffer l \/ kept l st len m file k u2 m2 /\ 0 < k /\ up_buf u2 = []).
  { destruct K as [[K BU]|(k & K & KB & LU & TN)].
    - exists len. right. split; [exact K|]. split; [lia|exact BU].
    - exists k. pose proof K as (_ & _ & _ & _ & K5 & _). pose proof (size_pos (up_buf u2)). destruct (up_buf u2) as [|x r] eqn:BU; [right|left].
      + split; [exact K|]. split; [|reflexivity]. unfold size_of in K5 at 1. cbn [length] in K5. lia.
      + split; [exact K|]. split; [lia|]. split; [exact KB|]. split; [|exact LU]. unfold size_of. cbn [length]. lia. }
  destruct KK as (k & KK).
  assert (K1 : kept l st len m file k u2 m2) by (destruct KK as [KK|KK]; apply KK). assert (K0 : 0 < k) by (destruct KK as [KK|KK]; apply KK).
  cbn [take_parts]. unfold take_part. cbn [mo_dev mo_upd mo_flash]. unfold up_end. pose proof K1 as (Q1 & _). rewrite Q1. replace (len =? 0) with false by lia.
  rewrite E2, (kept_progress _ _ _ _ _ _ _ _ K1). cbn [orb]. replace (k =? 0) with false by lia. cbn [negb]. rewrite andb_false_r. cbn [orb].
  assert (FIN : exists u3, kept l st len m file (size_of file) u3 (snd (if true && (0 <? size_of (up_buf u2)) then flush l (u2, m2) else (u2, m2)))).
  { destruct KK as [(_ & _ & KB & LU)|(_ & _ & BU)].
    - replace (true && (0 <? size_of (up_buf u2))) with true by lia. destruct (flush l (u2, m2)) as [u3 m3] eqn:FL.
      destruct (flush_kept l SL st len m FA' _ _ _ _ _ _ K1 KB LU FL) as (K3 & _). exists u3. exact K3.
    - rewrite BU. change (true && (0 <? size_of (@nil Z))) with false. cbv iota. cbn [snd]. exists u2.
      pose proof K1 as (_ & _ & _ & _ & K5 & _). rewrite BU in K5. unfold size_of in K5 at 1. cbn [length] in K5. replace (size_of file) with k by lia. exact K1. }
  cbv iota. cbn [snd fst handle_upload update_finish].
  eexists. split; [cbn [app]; reflexivity|]. cbn [mo_dev mo_upd mo_flash]. destruct FIN as (u3 & FIN). remember (snd (if true && _ then _ else _)) as m3 eqn:EM. clear EM. split; [|split; [|split]].
  - intros i I. destruct FIN as (_ & _ & _ & _ & _ & _ & _ & K8 & _). rewrite K8 by lia. f_equal. lia.
  - intros i I. apply (kept_protected l _ _ _ _ _ _ _ i FIN); [lia|]. destruct I as [I|I]; [left; exact I|right].
    apply (base_aligned l SL) in FA. pose proof (base_mono l SL _ i I). lia.
  - reflexivity.
  - reflexivity.
Qed.
