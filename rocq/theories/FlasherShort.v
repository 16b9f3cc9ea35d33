(** Proofs for C113: an image of the site shorter than the partition (specification: FlasherSpec.v). *)
From Coq Require Import ZArith List Bool Lia ZifyBool ZifyNat.
From Verif Require Import Base BaseFacts Publish Config Tic Pages Sse Cpu Web WebSpec WebProofs Device DevicePages Erfs ErfsSpec ErfsProofs ErfsRead ErfsFinal Site SiteSpec SiteProofs
  Flasher FlasherSpec FlasherProofs FlasherMain FlasherFinal.
Import ListNotations.
Open Scope Z_scope.

(** ** A truncated image *)
Lemma short_image : forall l name len a pieces a' s file, sound_layout l -> for_site name -> a_fs_size a = ly_fs_size l -> up_size (mo_upd s) = 0 ->
  Forall (fun p => snd p <> [] /\ Forall is_octet (snd p)) pieces -> concat (map snd pieces) = file -> ly_buffer l < size_of file <= ly_fs_size l ->
  exists s', take_parts l (whole name len a pieces a') s =
      (s', UpdateBegin true (ly_fs_size l) :: map (fun p => UpdateWrite (snd p)) pieces ++ [UpdateEnd true; Reply 200 Text (str "OK")]) /\
    (forall i, 0 <= i < size_of file -> mo_flash s' (ly_fs l + i) = nth (Z.to_nat i) file 0) /\
    (forall i, i < ly_fs l \/ rounded_up l (ly_fs l + size_of file) <= i -> mo_flash s' i = mo_flash s i) /\
    mo_dev s' = with_upload false true (mo_dev s) /\ up_size (mo_upd s') = 0.
Proof.
  intros l name len a pieces a' s file SL FS AS ID F CI LB. pose proof SL as (B0 & (n & n0 & E) & FA & FM & SK0 & FS0 & _). assert (SP := sector_pos l SL).
  unfold whole. cbn [take_parts]. destruct s as [d u m]. unfold take_part at 1. cbn [mo_dev mo_upd mo_flash] in *. rewrite (site_contains name FS), AS. unfold up_begin. rewrite ID.
  change (0 <? 0) with false. cbv iota. replace (ly_fs_size l =? 0) with false by lia. rewrite (rounded_whole l _ SP FM).
  replace (ly_fs l + ly_fs_size l >? ly_fs l + ly_fs_size l) with false by lia. cbv iota beta. cbn [fst snd]. cbn [handle_upload]. rewrite (site_contains name FS), AS.
  assert (FA' := FA). remember (ly_fs l) as st eqn:ES. remember (ly_fs_size l) as full eqn:EF.
  rewrite parts_app.
  assert (O := opened_start l SL st full m FA' false ltac:(lia)).
  assert (T : exists s2 t, take_parts l (map (fun p : around * list Z => (fst p, Piece (snd p))) pieces)
      (mk_module (with_upload true false d) (mk_updater full st st [] false) m) = (s2, map (fun p => UpdateWrite (snd p)) pieces) /\
    mo_dev s2 = with_upload true false d /\ t = file /\ up_error (mo_upd s2) = false /\
    (closed l st full m t (mo_upd s2) (mo_flash s2) \/ opened l st full m t (mo_upd s2) (mo_flash s2))).
  { destruct (Z.eq_dec (size_of file) full) as [Q|Q].
    - destruct (pieces_written l st full m pieces [] (mk_module (with_upload true false d) (mk_updater full st st [] false) m) SL FA' ltac:(lia) O eq_refl F) as (s2 & T & D2 & C2 & E2).
      + rewrite CI, Q. reflexivity.
      + intros ->. cbn [map concat] in CI. subst file. unfold size_of in LB. cbn [length] in LB. lia.
      + rewrite CI in C2. cbn [app] in C2. exists s2, file. split; [exact T|]. split; [exact D2|]. split; [reflexivity|]. split; [exact E2|]. left. exact C2.
    - destruct (pieces_open l st full m pieces [] (mk_module (with_upload true false d) (mk_updater full st st [] false) m) SL FA' ltac:(lia) O eq_refl F) as (s2 & T & D2 & C2 & E2).
      + rewrite CI. unfold size_of at 1. cbn [length]. lia.
      + rewrite CI in C2. cbn [app] in C2. exists s2, file. split; [exact T|]. split; [exact D2|]. split; [reflexivity|]. split; [exact E2|]. right. exact C2. }
  destruct T as (s2 & t & T & D2 & -> & E2 & K). rewrite T. destruct s2 as [d2 u2 m2]. cbn [mo_dev mo_upd mo_flash] in *. subst d2.
  assert (KK : exists k, kept l st full m file k u2 m2 /\ 0 < k /\ k mod ly_buffer l = 0 /\ 0 < size_of (up_buf u2) <= ly_buffer l \/ kept l st full m file k u2 m2 /\ 0 < k /\ up_buf u2 = []).
  { destruct K as [[K BU]|(k & K & KB & LU & TN)].
    - exists full. right. split; [exact K|]. split; [lia|exact BU].
    - exists k. pose proof K as (_ & _ & _ & _ & K5 & _). pose proof (size_pos (up_buf u2)). destruct (up_buf u2) as [|x r] eqn:BU; [right|left].
      + split; [exact K|]. split; [|reflexivity]. unfold size_of in K5 at 1. cbn [length] in K5. lia.
      + split; [exact K|]. split; [lia|]. split; [exact KB|]. split; [|exact LU]. unfold size_of. cbn [length]. lia. }
  destruct KK as (k & KK).
  assert (K1 : kept l st full m file k u2 m2) by (destruct KK as [KK|KK]; apply KK). assert (K0 : 0 < k) by (destruct KK as [KK|KK]; apply KK).
  cbn [take_parts]. unfold take_part. cbn [mo_dev mo_upd mo_flash]. unfold up_end. pose proof K1 as (Q1 & _). rewrite Q1. replace (full =? 0) with false by lia.
  rewrite E2, (kept_progress _ _ _ _ _ _ _ _ K1). cbn [orb]. replace (k =? 0) with false by lia. cbn [negb]. rewrite andb_false_r. cbn [orb].
  assert (FIN : exists u3, kept l st full m file (size_of file) u3 (snd (if true && (0 <? size_of (up_buf u2)) then flush l (u2, m2) else (u2, m2)))).
  { destruct KK as [(_ & _ & KB & LU)|(_ & _ & BU)].
    - replace (true && (0 <? size_of (up_buf u2))) with true by lia. destruct (flush l (u2, m2)) as [u3 m3] eqn:FL.
      destruct (flush_kept l SL st full m FA' _ _ _ _ _ _ K1 KB LU FL) as (K3 & _). exists u3. exact K3.
    - rewrite BU. change (true && (0 <? size_of (@nil Z))) with false. cbv iota. cbn [snd]. exists u2.
      pose proof K1 as (_ & _ & _ & _ & K5 & _). rewrite BU in K5. unfold size_of in K5 at 1. cbn [length] in K5. replace (size_of file) with k by lia. exact K1. }
  cbv iota. cbn [snd fst handle_upload update_finish].
  eexists. split; [cbn [app]; reflexivity|]. cbn [mo_dev mo_upd mo_flash]. destruct FIN as (u3 & FIN). remember (snd (if true && _ then _ else _)) as m3 eqn:EM. clear EM. split; [|split; [|split]].
  - intros i I. destruct FIN as (_ & _ & _ & _ & _ & _ & _ & K8 & _). rewrite K8 by lia. f_equal. lia.
  - intros i I. destruct FIN as (_ & _ & _ & _ & _ & _ & _ & _ & K9 & _). apply K9. destruct I as [I|I]; [left; exact I|right].
    destruct (rounded_above l (st + size_of file) SP) as [R1 R2]. apply (base_aligned l SL) in R2. pose proof (base_mono l SL _ i I). lia.
  - reflexivity.
  - reflexivity.
Qed.
(** The request that carried it has the module restarted. *)
Lemma then_restart : forall s d, mo_dev s = with_upload false true d ->
  forall fuel b q, q_uri q = str "/update" -> q_method q = POST -> fully_allowed q (mo_dev s) -> handle fuel b q (mo_dev s) = Done (mo_dev s, [RestartSoon]).
Proof.
  intros s d DV.
  intros fuel b q U P A. rewrite DV in *. unfold handle. rewrite U, P. change (find_route routes POST (str "/update")) with (Some HUpdateDone). cbv iota.
    unfold serve, if_full. rewrite (proj2 (full_iff _ _) A). reflexivity.
Qed.
Lemma truncated : forall l name len a pieces a' s file, sound_layout l -> for_site name -> a_fs_size a = ly_fs_size l -> up_size (mo_upd s) = 0 ->
  Forall (fun p => snd p <> [] /\ Forall is_octet (snd p)) pieces -> concat (map snd pieces) = file -> ly_buffer l < size_of file <= ly_fs_size l ->
  exists s', take_parts l (whole name len a pieces a') s =
      (s', UpdateBegin true (ly_fs_size l) :: map (fun p => UpdateWrite (snd p)) pieces ++ [UpdateEnd true; Reply 200 Text (str "OK")]) /\
    (forall i, 0 <= i < size_of file -> mo_flash s' (ly_fs l + i) = nth (Z.to_nat i) file 0) /\
    (forall i, i < ly_fs l \/ rounded_up l (ly_fs l + size_of file) <= i -> mo_flash s' i = mo_flash s i) /\
    forall fuel b q, q_uri q = str "/update" -> q_method q = POST -> fully_allowed q (mo_dev s') -> handle fuel b q (mo_dev s') = Done (mo_dev s', [RestartSoon]).
Proof.
  intros l name len a pieces a' s file SL FS AS ID F CI LB. destruct (short_image l name len a pieces a' s file SL FS AS ID F CI LB) as (s' & T & M & K & DV & _).
  exists s'. split; [exact T|]. split; [exact M|]. split; [exact K|]. exact (then_restart s' (mo_dev s) DV).
Qed.
(** Zeros, a little more than the buffer, sent as an image: accepted, and the site is lost. *)
Lemma zeros_accepted : forall l name len a a' s n, sound_layout l -> for_site name -> a_fs_size a = ly_fs_size l -> up_size (mo_upd s) = 0 ->
  ly_buffer l < n <= ly_fs_size l -> 8 <= n ->
  exists s', take_parts l (whole name len a [(a, repeat 0 (Z.to_nat n))] a') s =
    (s', [UpdateBegin true (ly_fs_size l); UpdateWrite (repeat 0 (Z.to_nat n)); UpdateEnd true; Reply 200 Text (str "OK")]) /\
    (forall fuel b q, q_uri q = str "/update" -> q_method q = POST -> fully_allowed q (mo_dev s') -> handle fuel b q (mo_dev s') = Done (mo_dev s', [RestartSoon])) /\
    snd (fst (erfs_begin (partition l (mo_flash s')))) = false.
Proof.
  intros l name len a a' s n SL FS AS ID I J. pose proof SL as (B0 & _).
  assert (SZ : size_of (repeat 0 (Z.to_nat n)) = n) by (unfold size_of; rewrite repeat_length; lia).
  destruct (truncated l name len a [(a, repeat 0 (Z.to_nat n))] a' s (repeat 0 (Z.to_nat n)) SL FS AS ID) as (s' & T & M & _ & R).
  - constructor; [|constructor]. cbn [snd]. split.
    + destruct (Z.to_nat n) eqn:Q; [lia|discriminate].
    + apply Forall_forall. intros x X. apply repeat_spec in X. subst x. unfold is_octet. lia.
  - cbn [map concat snd]. apply app_nil_r.
  - rewrite SZ. lia.
  - exists s'. split; [exact T|]. split; [exact R|]. apply not_mounted; [exact SL|]. intros i K. rewrite M by (rewrite SZ; lia). apply zero_nth.
Qed.
