(** Proofs about the file system: open files, directory, usage. *)
From Coq Require Import ZArith List Bool Lia ZifyBool.
From Verif Require Import Base BaseFacts Erfs ErfsSpec ErfsProofs ErfsRead.
Import ListNotations.
Open Scope Z_scope.

(** ** Opening *)
Definition strip (path : list Z) : list Z := match path with 47 :: p => p | _ => path end.
Lemma open_spec : forall s files path j, volume s files -> Forall regular files -> Forall (fun f => size_of (src_name f) <= 63) files ->
  Forall (fun c => c <> 0) path -> strip path <> [] ->
  exists r l, erfs_open s path j = Some (r, l) /\ inside s l /\
    match r with
    | Some e => exists A f B, files = A ++ f :: B /\ src_name f = strip path /\ name_at files A + 63 <= fs_size s /\ opened files A f e
    | None => forall A f B, files = A ++ f :: B -> src_name f = strip path -> name_at files A + 63 > fs_size s
    end.
Proof.
  intros s files path j V R S P N. unfold erfs_open. change (match path with 47 :: p => p | _ => path end) with (strip path).
  assert (P' : Forall (fun c => c <> 0) (strip path)).
  { unfold strip. destruct path as [|c path]; auto. inv P. destruct (Z.eq_dec c 47) as [->|Q]; auto.
    destruct c as [|c|c]; auto. do 6 (destruct c as [c|c|]; auto). }
  destruct (search_files s files (strip path) V R S P' files [] (j_cache j) (j_rec j) (repeat 0 64)) as (r & l & E & I & M).
  - reflexivity.
  - intros X. exfalso. apply X. reflexivity.
  - exists [], (repeat 0 63). repeat split; auto.
  - rewrite (v_files _ _ V). unfold size_of at 1. rewrite Nat2Z.id. change 0 with (size_of (@nil source)) at 1. exists r, l. split; [exact E|].
    split; [exact I|]. destruct r; [exact M|]. intros A f B E1 Q. eapply M; eauto. rewrite size_nil. apply size_nonneg.
Qed.
Lemma same_place : forall (l : list source) A f B A' g B', NoDup (map src_name l) -> l = A ++ f :: B -> l = A' ++ g :: B' -> src_name f = src_name g ->
  A = A' /\ f = g.
Proof.
  intros l A. revert l. induction A as [|a A IH]; intros l f B A' g B' N E E' Q; subst l; destruct A' as [|a' A']; cbn [app] in E'.
  - inv E'. auto.
  - inv E'. cbn [map app] in N. inv N. exfalso. apply H1. rewrite Q, map_app. apply in_app_iff. right. left. auto.
  - inv E'. cbn [map app] in N. inv N. exfalso. apply H1. rewrite <- Q, map_app. apply in_app_iff. right. left. auto.
  - injection E' as -> E'. cbn [map app] in N. inv N. destruct (IH _ f B A' g B' H2 eq_refl E' Q) as [-> ->]. auto.
Qed.
Lemma strip_name : forall f path, regular f -> path = src_name f \/ path = 47 :: src_name f -> strip path = src_name f /\ Forall (fun c => c <> 0) path.
Proof.
  intros f path (NE & F & H47 & _) H. assert (NZ : Forall (fun c => c <> 0) (src_name f)) by (eapply Forall_impl; [|exact F]; intros x X; cbn in X; lia).
  destruct H as [->| ->].
  - split; auto. unfold strip. destruct (src_name f) as [|c t]; auto. cbn in H47. destruct c as [|c|c]; auto.
    do 6 (destruct c as [c|c|]; auto). exfalso. auto.
  - split; [reflexivity|]. constructor; auto. discriminate.
Qed.
Lemma c39_open : forall s files A f B path j, volume s files -> directory files -> Forall (fun f => size_of (src_name f) <= 63) files ->
  files = A ++ f :: B -> name_at files A + 63 <= fs_size s -> path = src_name f \/ path = 47 :: src_name f ->
  exists e l, erfs_open s path j = Some (Some e, l) /\ inside s l /\ opened files A f e.
Proof.
  intros s files A f B path j V [R N] S E L P. assert (RF : regular f) by (rewrite Forall_forall in R; apply R; rewrite E; apply in_app_iff; right; left; auto).
  destruct (strip_name f path RF P) as [SP NZ].
  destruct (open_spec s files path j V R S NZ) as (r & l & O & I & M); [rewrite SP; apply RF|].
  destruct r as [e|].
  - destruct M as (A' & g & B' & E' & Q & _ & OP). rewrite SP in Q. destruct (same_place files A f B A' g B' N E E' (eq_sym Q)) as [<- <-]. eauto.
  - exfalso. specialize (M A f B E (eq_sym SP)). lia.
Qed.
Lemma c40 : forall s files path j, volume s files -> directory files -> Forall (fun f => size_of (src_name f) <= 63) files ->
  Forall (fun c => c <> 0) path -> strip path <> [] -> ~ In (strip path) (map src_name files) ->
  exists l, erfs_open s path j = Some (None, l) /\ inside s l.
Proof.
  intros s files path j V [R N] S P NE NI. destruct (open_spec s files path j V R S P NE) as (r & l & O & I & M). destruct r as [e|]; [|eauto].
  exfalso. destruct M as (A & f & B & E & Q & _). apply NI. rewrite <- Q, E, map_app. apply in_app_iff. right. left. auto.
Qed.

(** ** Reading *)
Lemma put_ok : forall m off b, 0 <= off -> off + size_of b <= size_of m ->
  put m off b = Some (firstn (Z.to_nat off) m ++ b ++ skipn (Z.to_nat (off + size_of b)) m).
Proof.
  intros m off b O L. unfold put. replace (off + size_of b <=? size_of m) with true by lia. unfold splice. do 3 f_equal.
  pose proof (size_nonneg _ b). rewrite Z2Nat.inj_add by lia. unfold size_of. rewrite Nat2Z.id. reflexivity.
Qed.
Lemma slice_put : forall m off b, (off <= length m)%nat -> slice off (length b) (firstn off m ++ b ++ skipn (off + length b) m) = b.
Proof.
  intros m off b L. unfold slice. rewrite skipn_app. rewrite firstn_length_le by lia. rewrite Nat.sub_diag. cbn [skipn].
  rewrite (skipn_all2 (firstn off m)) by (rewrite firstn_length; lia). cbn [app]. rewrite firstn_app, Nat.sub_diag, firstn_O, app_nil_r. apply firstn_all.
Qed.
Lemma skip_skip : forall c a (x : list Z), skipn a (skipn c x) = skipn (c + a) x.
Proof. induction c as [|c IH]; intros a [|y x]; cbn [skipn Nat.add]; auto. apply skipn_nil. Qed.
Lemma align_range : forall addr, 0 <= addr <= 4294967292 -> 1 <= 4 - u32 (align32 addr - addr) <= 4.
Proof. intros addr H. rewrite fw_align by lia. pose proof (round4_facts addr ltac:(lia)). rewrite u32_small by lia. lia. Qed.

Lemma read_loop_ok : forall s fuel addr remain buf off buf32, 0 <= fs_start s -> fs_start s + fs_size s < 2147483648 ->
  0 <= addr -> 0 <= remain <= 256 * Z.of_nat fuel -> addr + remain <= fs_size s -> 0 <= off -> off + remain <= size_of buf -> size_of buf32 = 260 ->
  exists buf32' l, read_loop fuel s addr remain buf off buf32 =
    Some (firstn (Z.to_nat off) buf ++ flash_bytes (fs_flash s) (fs_start s + addr) remain ++ skipn (Z.to_nat (off + remain)) buf, buf32', l) /\
    size_of buf32' = 260 /\ inside s l.
Proof.
  intros s. induction fuel as [|k IH]; intros addr remain buf off buf32 S E A R F O L B.
  - assert (remain = 0) by lia. subst remain. cbn [read_loop]. exists buf32, []. split; [|split; auto; constructor].
    rewrite Z.add_0_r. unfold flash_bytes. cbn [Z.to_nat seq map app]. rewrite firstn_skipn. reflexivity.
  - cbn [read_loop]. destruct (Z.eqb_spec remain 0) as [->|NZ].
    + exists buf32, []. split; [|split; auto; constructor]. rewrite Z.add_0_r. unfold flash_bytes. cbn [Z.to_nat seq map app]. rewrite firstn_skipn. reflexivity.
    + cbv zeta. set (chunk := if remain >? 256 then 256 else remain). assert (C : 0 < chunk <= 256 /\ chunk <= remain /\ remain - chunk <= 256 * Z.of_nat k).
      { unfold chunk. destruct (remain >? 256) eqn:G; lia. }
      destruct (hal_ok s addr chunk S E A ltac:(lia) ltac:(lia)) as [HR HI]. rewrite HR.
      pose proof (align_range addr ltac:(lia)) as AL. set (al := 4 - u32 (align32 addr - addr)) in *.
      set (b := flash_bytes (fs_flash s) (fs_start s + addr) chunk). assert (SB : size_of b = chunk) by (apply flash_size; lia).
      rewrite (put_ok buf32 al b) by lia. 
      assert (SL : slice (Z.to_nat al) (Z.to_nat chunk) (firstn (Z.to_nat al) buf32 ++ b ++ skipn (Z.to_nat (al + size_of b)) buf32) = b).
      { replace (Z.to_nat chunk) with (length b) by (unfold size_of in SB; lia). replace (Z.to_nat (al + size_of b)) with (Z.to_nat al + length b)%nat by (unfold size_of; lia).
        apply slice_put. unfold size_of in B. lia. }
      rewrite SL. rewrite (put_ok buf off b) by lia. rewrite SB.
      set (buf' := firstn (Z.to_nat off) buf ++ b ++ skipn (Z.to_nat (off + chunk)) buf).
      assert (LO : length (firstn (Z.to_nat off) buf) = Z.to_nat off) by (rewrite firstn_length; unfold size_of in L; lia).
      assert (SF' : size_of buf' = size_of buf).
      { unfold buf', size_of. rewrite !app_length, LO, skipn_length. unfold size_of in SB, L. lia. }
      rewrite u32_small by lia.
      destruct (IH (addr + chunk) (remain - chunk) buf' (off + chunk) (firstn (Z.to_nat al) buf32 ++ b ++ skipn (Z.to_nat (al + chunk)) buf32))
        as (b32 & l & RL & S32 & IL); try lia.
      { rewrite !size_app, SB. unfold size_of. rewrite firstn_length, skipn_length. unfold size_of in B. lia. }
      rewrite RL. exists b32, ([(fs_start s + addr, chunk)] ++ l). split; [|split; [exact S32|apply inside_app; auto]].
      do 3 f_equal. 
      assert (F1 : firstn (Z.to_nat (off + chunk)) buf' = firstn (Z.to_nat off) buf ++ b).
      { unfold buf'. rewrite app_assoc. rewrite firstn_app. replace (Z.to_nat (off + chunk) - length (firstn (Z.to_nat off) buf ++ b))%nat with 0%nat.
        2: { rewrite app_length, LO. unfold size_of in SB. lia. }
        rewrite firstn_O, app_nil_r. apply firstn_all2. rewrite app_length, LO. unfold size_of in SB. lia. }
      assert (F2 : skipn (Z.to_nat (off + chunk + (remain - chunk))) buf' = skipn (Z.to_nat (off + remain)) buf).
      { replace (off + chunk + (remain - chunk)) with (off + remain) by lia. unfold buf'. rewrite app_assoc, skipn_app.
        rewrite skipn_all2 by (rewrite app_length, LO; unfold size_of in SB; lia). cbn [app]. rewrite app_length, LO.
        rewrite skip_skip. f_equal. unfold size_of in SB. lia. }
      rewrite F1, F2. rewrite <- !app_assoc. f_equal.
      replace (flash_bytes (fs_flash s) (fs_start s + addr) remain) with (flash_bytes (fs_flash s) (fs_start s + addr) (chunk + (remain - chunk))) by (f_equal; lia).
      rewrite flash_app by lia. fold b. rewrite <- app_assoc. rewrite Z.add_assoc. reflexivity.
Qed.

(** An open file on a content. *)
Definition on_content (s : erfs) (content : list Z) (e : efile) : Prop :=
  0 <= fs_start s /\ fs_start s + fs_size s < 2147483648 /\ ef_size e = size_of content /\ 0 <= rec_data (ef_rec e) /\
  rec_data (ef_rec e) + size_of content <= fs_size s /\
  flash_bytes (fs_flash s) (fs_start s + rec_data (ef_rec e)) (size_of content) = content.
Lemma flash_sub : forall fl a n content pos m, flash_bytes fl a n = content -> 0 <= pos -> 0 <= m -> pos + m <= n ->
  flash_bytes fl (a + pos) m = firstn (Z.to_nat m) (skipn (Z.to_nat pos) content).
Proof.
  intros fl a n content pos m H P M L. rewrite <- H. replace n with (pos + (m + (n - pos - m))) by lia. rewrite !flash_app by lia.
  assert (LL : forall x k, length (flash_bytes fl x k) = Z.to_nat k) by (intros; unfold flash_bytes; rewrite map_length, seq_length; reflexivity).
  rewrite skipn_app, LL, Nat.sub_diag. rewrite skipn_all2 by (rewrite LL; lia). cbn [app skipn].
  rewrite firstn_app, LL, Nat.sub_diag, firstn_O, app_nil_r. symmetry. apply firstn_all2. rewrite LL. lia.
Qed.
Lemma read_ok : forall s content e a buf n buf32, on_content s content e -> 0 <= ef_pos e <= size_of content ->
  0 <= n <= size_of buf -> size_of buf < 2147483648 -> size_of buf32 = 260 ->
  let p := firstn (Z.to_nat n) (skipn (Z.to_nat (ef_pos e)) content) in
  exists buf32' l, erfs_read s a buf n buf32 e = Some (size_of p, p ++ skipn (length p) buf, buf32', at_pos e (ef_pos e + size_of p), l) /\
    size_of buf32' = 260 /\ inside s l.
Proof.
  intros s content e a buf n buf32 (S & E & SZ & D & R & C) P N NB B p. unfold erfs_read.
  destruct (Z.eqb_spec n 0) as [->|NZ].
  - exists buf32, []. unfold p. cbn [Z.to_nat firstn length skipn app]. rewrite size_nil, Z.add_0_r. split; [|split; auto; constructor]. destruct e; reflexivity.
  - cbv zeta. rewrite SZ. rewrite (u32_small (ef_pos e + n)) by lia.
    set (m := if ef_pos e + n >? size_of content then u32 (size_of content - ef_pos e) else n).
    assert (M : 0 <= m <= n /\ ef_pos e + m <= size_of content /\ size_of p = m /\ (m < n -> m = size_of content - ef_pos e)).
    { assert (SP : size_of p = Z.min n (size_of content - ef_pos e)).
      { unfold p, size_of. rewrite firstn_length, skipn_length. unfold size_of in P. lia. }
      unfold m. destruct (ef_pos e + n >? size_of content) eqn:G; [rewrite u32_small by lia|]; lia. }
    destruct M as (M1 & M2 & M3 & M4). rewrite (u32_small (rec_data (ef_rec e) + ef_pos e)) by lia. rewrite M3. rewrite (u32_small (ef_pos e + m)) by lia.
    assert (FP : flash_bytes (fs_flash s) (fs_start s + (rec_data (ef_rec e) + ef_pos e)) m = p).
    { rewrite Z.add_assoc. rewrite (flash_sub _ _ (size_of content) content (ef_pos e) m C) by lia. unfold p.
      destruct (Z.eq_dec m n) as [->|Q]; auto. assert (LS : Z.of_nat (length (skipn (Z.to_nat (ef_pos e)) content)) = m).
      { rewrite skipn_length. rewrite M4 by lia. unfold size_of in *. lia. }
      rewrite !firstn_all2 by lia. reflexivity. }
    assert (LP : length p = Z.to_nat m) by (unfold size_of in M3; lia).
    destruct (Z.land (rec_data (ef_rec e) + ef_pos e) 3 =? Z.land a 3).
    + destruct (hal_ok s (rec_data (ef_rec e) + ef_pos e) m S E ltac:(lia) ltac:(lia) ltac:(lia)) as [HR HI]. rewrite HR, FP.
      rewrite put_ok by lia. cbn [Z.to_nat firstn app]. rewrite Z.add_0_l, M3, <- LP. exists buf32, [(fs_start s + (rec_data (ef_rec e) + ef_pos e), m)].
      split; [reflexivity|]. auto.
    + pose proof (Z.div_mod m 256 ltac:(lia)) as DM. pose proof (Z.mod_pos_bound m 256 ltac:(lia)) as MB.
      assert (DP : 0 <= m / 256) by (apply Z.div_pos; lia).
      destruct (read_loop_ok s (Z.to_nat (m / 256 + 1)) (rec_data (ef_rec e) + ef_pos e) m buf 0 buf32 S E ltac:(lia) ltac:(lia) ltac:(lia) ltac:(lia) ltac:(lia) B)
        as (b32 & l & RL & S32 & IL).
      rewrite RL, FP. cbn [Z.to_nat firstn app]. rewrite Z.add_0_l, <- LP. exists b32, l. auto.
Qed.
Lemma on_content_pos : forall s content e p, on_content s content e -> on_content s content (at_pos e p).
Proof. intros s content e p H. exact H. Qed.
Lemma c41 : forall s content calls e buf32, on_content s content e -> 0 <= ef_pos e <= size_of content -> Forall sensible calls -> size_of buf32 = 260 ->
  exists l, session s buf32 e calls = Some (expected content (ef_pos e) calls, l) /\ inside s l.
Proof.
  intros s content. induction calls as [|c calls IH]; intros e buf32 O P F B; cbn [session expected].
  - exists []. split; auto. constructor.
  - inv F. destruct c as [a buf n|o mode].
    + destruct H1 as [N NB]. destruct (read_ok s content e a buf n buf32 O P N NB B) as (b32 & l & R & S32 & IL). cbv zeta in R. rewrite R.
      set (p := firstn (Z.to_nat n) (skipn (Z.to_nat (ef_pos e)) content)) in *.
      assert (SP : size_of p <= size_of content - ef_pos e) by (unfold p, size_of; rewrite firstn_length, skipn_length; unfold size_of in P; lia).
      pose proof (size_nonneg _ p).
      destruct (IH (at_pos e (ef_pos e + size_of p)) b32 (on_content_pos _ _ _ _ O)) as (l' & S' & I'); auto; [cbn [at_pos ef_pos]; lia|].
      rewrite S'. exists (l ++ l'). split; auto. apply inside_app; auto.
    + destruct O as (S & E & SZ & D & R & C). assert (O : on_content s content e) by (repeat split; auto).
      assert (LT : size_of content < 2147483648) by lia.
      set (target := match mode with SeekSet => o | SeekCur => ef_pos e + o | SeekEnd => size_of content - o end).
      set (ok := (0 <=? target) && match mode with SeekEnd => target <=? size_of content | _ => target <? size_of content end).
      assert (SK : erfs_seek (u32 o) mode e = (at_pos e (if ok then target else ef_pos e), ok)).
      { unfold erfs_seek. rewrite SZ. destruct mode; cbn [sensible] in H1.
        - rewrite u32_small by lia. unfold ok, target. replace (0 <=? o) with true by lia. cbn [andb]. destruct (o <? size_of content); auto. destruct e; reflexivity.
        - assert (U : u32 (u32 o + ef_pos e) = u32 (ef_pos e + o)) by (unfold u32; rewrite Zplus_mod_idemp_l; f_equal; lia).
          assert (U' : u32 (ef_pos e + u32 o) = u32 (ef_pos e + o)) by (unfold u32; rewrite Zplus_mod_idemp_r; reflexivity).
          rewrite U, U'. unfold ok, target. destruct (Z_le_dec 0 (ef_pos e + o)) as [G|G].
          + rewrite u32_small by lia. replace (0 <=? ef_pos e + o) with true by lia. cbn [andb]. destruct (ef_pos e + o <? size_of content); auto. destruct e; reflexivity.
          + replace (0 <=? ef_pos e + o) with false by lia. cbn [andb].
            replace (u32 (ef_pos e + o)) with (ef_pos e + o + 4294967296).
            2: { unfold u32. rewrite <- (Z_mod_plus_full _ 1). rewrite Z.mod_small; lia. }
            replace (ef_pos e + o + 4294967296 <? size_of content) with false by lia. destruct e; reflexivity.
        - rewrite u32_small by lia. unfold ok, target. destruct (Z.leb_spec o (size_of content)).
          + rewrite u32_small by lia. replace (0 <=? size_of content - o) with true by lia. replace (size_of content - o <=? size_of content) with true by lia. reflexivity.
          + replace (0 <=? size_of content - o) with false by lia. cbn [andb]. destruct e; reflexivity. }
      rewrite SK.
      destruct (IH (at_pos e (if ok then target else ef_pos e)) buf32 (on_content_pos _ _ _ _ O)) as (l' & S' & I'); auto.
      { cbn [at_pos ef_pos]. destruct ok eqn:OK; [|lia]. unfold ok in OK. destruct mode; lia. }
      rewrite S'. exists l'. split; auto.
Qed.
Lemma opened_content : forall s files A f B e, volume s files -> files = A ++ f :: B -> opened files A f e -> on_content s (src_data f) e.
Proof.
  intros s files A f B e V E (R & SZ & _). destruct (bounds s files V A f B E) as (B1 & B2 & B3 & B4 & B5). pose proof (data_room_facts f).
  pose proof (name_room_facts f). pose proof (size_nonneg _ (src_name f)). pose proof (round4_facts (2 * size_of files) ltac:(lia)).
  unfold on_content. rewrite R. split; [exact (v_start _ _ V)|]. split; [exact (v_end _ _ V)|]. split; [exact SZ|]. split; [lia|]. split; [lia|].
  exact (v_data _ _ V A f B E).
Qed.

(** ** C42 on any image *)
Lemma c42 : forall s calls buf32 e rs l, session s buf32 e calls = Some (rs, l) -> 0 <= ef_size e < 4294967296 -> 0 <= ef_pos e <= ef_size e ->
  Forall (fun c => match c with Read _ _ n => 0 <= n | _ => True end) calls ->
  Forall (fun r => 0 <= snd r <= ef_size e) rs /\
  forall k mode o ok p, nth_error calls k = Some (Seek o mode) -> nth_error rs k = Some (Sought ok, p) ->
    let before := nth k (ef_pos e :: map snd rs) 0 in
    if ok then p = match mode with SeekSet => u32 o | SeekCur => u32 (before + o) | SeekEnd => ef_size e - u32 o end else p = before.
Proof.
  intros s. induction calls as [|c calls IH]; intros buf32 e rs l H SZ P F; cbn [session] in H.
  - inv H. split; [constructor|]. intros [|k] mode o ok p N; discriminate N.
  - apply Forall_cons_iff in F. destruct F as [FC FR]. destruct c as [a buf n|o mode].
    + destruct (erfs_read s a buf n buf32 e) as [[[[[m buf'] b32] e'] l0]|] eqn:R; [|discriminate]. destruct (session s b32 e' calls) as [[rs' l']|] eqn:S; [|discriminate].
      assert (D : rs = (Got m buf', ef_pos e') :: rs') by congruence. subst rs.
      assert (E' : ef_size e' = ef_size e /\ 0 <= ef_pos e' <= ef_size e).
      { unfold erfs_read in R. destruct (n =? 0); [inv R; auto|]. cbv zeta in R.
        set (mm := if u32 (ef_pos e + n) >? ef_size e then u32 (ef_size e - ef_pos e) else n) in *.
        match type of R with context[match ?x with Some _ => _ | None => None end] => destruct x as [[[b1 b2] l1]|]; [|discriminate] end.
        inv R. split; [reflexivity|]. cbn [at_pos ef_pos]. unfold mm. destruct (u32 (ef_pos e + n) >? ef_size e) eqn:G.
        - rewrite (u32_small (ef_size e - ef_pos e)) by lia. rewrite u32_small by lia. lia.
        - unfold u32 in *. pose proof (Z.mod_pos_bound (ef_pos e + n) 4294967296 ltac:(lia)). lia. }
      destruct E' as [E1 E2]. destruct (IH _ _ _ _ S ltac:(lia) ltac:(lia) FR) as [G1 G2]. rewrite E1 in G1. split; [constructor; auto|].
      intros [|k] mode o ok p N1 N2; [discriminate N1|]. cbn [nth_error] in N1, N2. specialize (G2 k mode o ok p N1 N2). rewrite E1 in G2. exact G2.
    + destruct (erfs_seek (u32 o) mode e) as [e' ok] eqn:SK. destruct (session s buf32 e' calls) as [[rs' l']|] eqn:S; [|discriminate].
      assert (D : rs = (Sought ok, ef_pos e') :: rs') by congruence. subst rs.
      assert (U : 0 <= u32 o < 4294967296) by (unfold u32; apply Z.mod_pos_bound; lia).
      assert (E' : ef_size e' = ef_size e /\ 0 <= ef_pos e' <= ef_size e /\
        if ok then ef_pos e' = match mode with SeekSet => u32 o | SeekCur => u32 (ef_pos e + o) | SeekEnd => ef_size e - u32 o end else ef_pos e' = ef_pos e).
      { unfold erfs_seek in SK. destruct mode.
        - destruct (u32 o <? ef_size e) eqn:Q; inv SK; cbn [at_pos ef_pos]; repeat split; auto; try lia.
        - destruct (u32 (u32 o + ef_pos e) <? ef_size e) eqn:Q; inv SK; cbn [at_pos ef_pos]; [|repeat split; auto; lia].
          replace (u32 (u32 o + ef_pos e)) with (u32 (ef_pos e + o)) in Q by (unfold u32; rewrite Zplus_mod_idemp_l; f_equal; lia).
          replace (u32 (ef_pos e + u32 o)) with (u32 (ef_pos e + o)) by (unfold u32; rewrite Zplus_mod_idemp_r; reflexivity).
          pose proof (Z.mod_pos_bound (ef_pos e + o) 4294967296 ltac:(lia)). unfold u32 in *. repeat split; auto; lia.
        - destruct (u32 o <=? ef_size e) eqn:Q; inv SK; cbn [at_pos ef_pos]; [|repeat split; auto; lia].
          rewrite (u32_small (ef_size e - u32 o)) by lia. repeat split; auto; lia. }
      destruct E' as (E1 & E2 & E3). destruct (IH _ _ _ _ S ltac:(lia) ltac:(lia) FR) as [G1 G2]. rewrite E1 in G1. split; [constructor; auto|].
      intros [|k] mode' o' ok' p N1 N2; cbn [nth_error] in N1, N2.
      * inv N1. inv N2. cbn [nth]. exact E3.
      * specialize (G2 k mode' o' ok' p N1 N2). rewrite E1 in G2. exact G2.
Qed.

(** ** C45: directory and usage *)
Lemma list_files : forall s files, volume s files -> Forall regular files -> Forall (fun f => size_of (src_name f) <= 63) files ->
  forall B A rec name fuel, files = A ++ B -> (forall A1 f B1, files = A1 ++ f :: B1 -> name_at files A1 + 63 <= fs_size s) ->
  length name = 64%nat -> nth 63 name 0 = 0 -> (length B < fuel)%nat ->
  exists l, dir_list fuel s (mk_edir rec name (size_of A)) = Some (map (fun f => (src_name f, size_of (src_data f))) B, l) /\ inside s l.
Proof.
  intros s files V R S. induction B as [|f B IH]; intros A rec name fuel E OK LN ZN FU; (destruct fuel as [|fuel]; [lia|]); cbn [dir_list].
  - unfold dir_next. cbn [ed_index]. rewrite app_nil_r in E. rewrite (v_files _ _ V), <- E. rewrite Z.ltb_irrefl. exists []. split; auto. constructor.
  - destruct (bounds s files V A f B E) as (B1 & B2 & B3 & B4 & B5). pose proof (v_count _ _ V) as CNT.
    pose proof (name_room_facts f). pose proof (size_nonneg _ (src_name f)). pose proof (data_room_facts f). pose proof (size_nonneg _ (src_data f)).
    pose proof (round4_facts (2 * size_of files) ltac:(lia)). pose proof (v_end _ _ V). pose proof (v_start _ _ V).
    unfold dir_next. cbn [ed_index ed_rec ed_name]. rewrite (v_files _ _ V). replace (size_of A <? size_of files) with true by lia.
    rewrite (fat_is s files V). rewrite (u32_small (8 + round4 (2 * size_of files) + 16 * size_of A)) by lia.
    destruct (v_rec _ _ V A f B E) as (r & RF & R1 & R2 & R3 & R4). unfold read_into at 1.
    destruct (hal_ok s (8 + round4 (2 * size_of files) + 16 * size_of A) 16 (v_start _ _ V) (v_end _ _ V) ltac:(lia) ltac:(lia) ltac:(lia)) as [HR HI].
    rewrite HR, RF, R1. destruct (read_name s files [] V S A f B name E LN ZN (OK A f B E)) as (rest & RN & IN & LN' & ZN'). rewrite RN.
    assert (NZ : Forall (fun c => c <> 0) (src_name f)).
    { rewrite Forall_forall in R. destruct (R f) as (_ & F & _); [rewrite E; apply in_app_iff; right; left; auto|]. eapply Forall_impl; [|exact F]. intros x X. cbn in X. lia. }
    assert (DV : forall x y, dir_valid s (mk_edir x y (u16 (size_of A + 1))) = true).
    { intros. unfold dir_valid. cbn [ed_index]. unfold u16. rewrite Z.mod_small by lia. rewrite (v_files _ _ V). lia. }
    unfold dir_name, dir_size. rewrite DV. cbn [ed_name ed_rec]. rewrite cstr_from_app by auto.
    unfold u16. rewrite Z.mod_small by lia. replace (size_of A + 1) with (size_of (A ++ [f])) by (rewrite size_app; reflexivity).
    edestruct (IH (A ++ [f])) as (l & DL & IL); [rewrite <- app_assoc; exact E|exact OK|exact LN'|exact ZN'| |].
    2: { rewrite DL, R3. eexists. split; [reflexivity|]. repeat apply inside_app; auto. }
    cbn [length] in FU. lia.
Qed.
Lemma c45_list : forall s files, volume s files -> directory files -> Forall (fun f => size_of (src_name f) <= 63) files ->
  (forall A f B, files = A ++ f :: B -> name_at files A + 63 <= fs_size s) ->
  exists l, erfs_list s = Some (map (fun f => (src_name f, size_of (src_data f))) files, l) /\ inside s l.
Proof.
  intros s files V [R N] S OK. unfold erfs_list, dir_open. apply (list_files s files V R S files []); auto.
  rewrite (v_files _ _ V). unfold size_of. lia.
Qed.
Lemma c45_info : forall s files j, volume s files ->
  exists l, erfs_info s j = (fs_size s, match files with [] => 8 | _ => image_end files - (data_room (last files (mk_source [] [] 0)) - size_of (src_data (last files (mk_source [] [] 0)))) end, l) /\ inside s l.
Proof.
  intros s files j V. unfold erfs_info. rewrite (v_files _ _ V). destruct files as [|f0 files0] eqn:E0.
  - exists []. split; [reflexivity|constructor].
  - rewrite <- E0 in *. assert (SZ : size_of files > 0) by (rewrite E0, size_cons; pose proof (size_nonneg _ files0); lia).
    replace (size_of files >? 0) with true by lia.
    assert (EL : exists A f, files = A ++ [f]).
    { destruct (exists_last (l := files)) as (A & f & EL); [rewrite E0; discriminate|]. eauto. }
    destruct EL as (A & f & E). destruct (bounds s files V A f [] E) as (B1 & B2 & B3 & B4 & B5). pose proof (v_count _ _ V).
    pose proof (name_room_facts f). pose proof (size_nonneg _ (src_name f)). pose proof (data_room_facts f). pose proof (size_nonneg _ (src_data f)).
    pose proof (round4_facts (2 * size_of files) ltac:(lia)). pose proof (v_end _ _ V). pose proof (v_start _ _ V).
    rewrite (fat_is s files V). assert (SA : size_of files - 1 = size_of A) by (rewrite E, size_app; change (size_of [f]) with 1; lia). rewrite SA.
    rewrite (u32_small (8 + round4 (2 * size_of files) + 16 * size_of A)) by lia.
    destruct (v_rec _ _ V A f [] E) as (r & RF & R1 & R2 & R3 & R4). unfold read_into at 1.
    destruct (hal_ok s (8 + round4 (2 * size_of files) + 16 * size_of A) 16 (v_start _ _ V) (v_end _ _ V) ltac:(lia) ltac:(lia) ltac:(lia)) as [HR HI].
    rewrite HR, RF, R2, R3. eexists. split; [|exact HI]. rewrite u32_small by lia. do 2 f_equal.
    replace (last files (mk_source [] [] 0)) with f by (rewrite E, last_last; reflexivity).
    unfold image_end. assert (DA : data_at files files = data_at files A + data_room f).
    { assert (SD : sum (map data_room files) = sum (map data_room A) + data_room f).
      { rewrite E, map_app, sum_app. cbn [map]. rewrite sum_cons. change (sum []) with 0. lia. }
      unfold data_at. lia. }
    rewrite DA. lia.
Qed.
Lemma used_range : forall files, files <> [] -> 0 <= data_room (last files (mk_source [] [] 0)) - size_of (src_data (last files (mk_source [] [] 0))) < 4.
Proof. intros. pose proof (data_room_facts (last files (mk_source [] [] 0))). lia. Qed.

(** ** C44 on any image: an access outside the partition can only come from a wrapped sum. *)
Lemma hal_any : forall s addr n got l, 0 <= fs_start s -> fs_start s + fs_size s < 4294967296 -> 0 <= addr < 4294967296 -> 0 <= n < 4294967296 ->
  hal_read s addr n = (got, l) -> addr + n < 4294967296 -> inside s l.
Proof.
  intros s addr n got l S E A N H W. unfold hal_read in H. rewrite u32_small in H by lia. destruct (addr + n >? fs_size s) eqn:G; inv H; [constructor|].
  constructor; [|constructor]. cbn [fst snd]. rewrite u32_small by lia. lia.
Qed.

(** ** The statements *)
Lemma c39 : forall files size image s, directory files -> Forall (fun f => size_of (src_name f) <= 63) files ->
  create files size = Packed image -> installed s image ->
  exists s1 l0, erfs_begin s = (s1, true, l0) /\
    forall before f after path j, files = before ++ f :: after -> name_at files before + 63 <= fs_size s ->
      path = src_name f \/ path = 47 :: src_name f ->
      exists e l, erfs_open s1 path j = Some (Some e, l) /\ ef_size e = size_of (src_data f) /\ ef_time e = src_time f /\
        ef_full_name e = Some (src_name f) /\
        forall calls buf32, Forall sensible calls -> size_of buf32 = 260 ->
          exists l', session s1 buf32 e calls = Some (expected (src_data f) 0 calls, l').
Proof.
  intros files size image s D S C I. destruct (mount _ _ _ _ C I) as [M V]. do 2 eexists. split; [exact M|].
  intros A f B path j E L P. destruct (c39_open _ _ A f B path j V D S E L P) as (e & l & O & _ & OP). exists e, l. split; [exact O|].
  pose proof (opened_content _ _ _ _ _ _ V E OP) as OC. destruct OP as (O1 & O2 & O3 & O4 & O5). split; auto. split; auto. split; auto.
  intros calls buf32 F B32. destruct (c41 _ _ calls e buf32 OC) as (l' & SE & _); auto; [rewrite O5; pose proof (size_nonneg _ (src_data f)); lia|].
  rewrite O5 in SE. eauto.
Qed.
Lemma c40_full : forall files size image s s1 l0 path j, directory files -> Forall (fun f => size_of (src_name f) <= 63) files ->
  create files size = Packed image -> installed s image -> erfs_begin s = (s1, true, l0) ->
  Forall (fun c => c <> 0) path -> path <> [] -> path <> [47] ->
  ~ In path (map src_name files) -> (forall p, path = 47 :: p -> ~ In p (map src_name files)) ->
  (exists l, erfs_open s1 path j = Some (None, l)) /\ erfs_exists s1 path j = Some false.
Proof.
  intros files size image s s1 l0 path j D S C I M P N1 N2 NI NS. destruct (mount _ _ _ _ C I) as [M' V]. rewrite M in M'.
  assert (E1 : s1 = mounted s files) by congruence. subst s1.
  assert (K : path <> [] /\ (strip path = path \/ exists p, path = 47 :: p /\ strip path = p)).
  { split; auto. destruct path as [|c p]; [contradiction|]. destruct (Z.eq_dec c 47) as [->|Q]; [right; exists p; auto|left].
    unfold strip. destruct c as [|c|c]; auto. do 6 (destruct c as [c|c|]; auto). contradiction. }
  destruct K as [_ K].
  destruct (c40 _ files path j V D S P) as (l & O & _).
  - destruct K as [->|(p & -> & ->)]; auto. intros ->. apply N2. reflexivity.
  - destruct K as [->|(p & E & ->)]; auto.
  - split; [eauto|]. unfold erfs_exists. rewrite O. reflexivity.
Qed.
Lemma c41_start : forall s content e calls buf32, on_content s content e -> ef_pos e = 0 -> Forall sensible calls -> size_of buf32 = 260 ->
  exists l, session s buf32 e calls = Some (expected content 0 calls, l) /\ inside s l.
Proof.
  intros s content e calls buf32 O P F B. destruct (c41 s content calls e buf32 O) as (l & S & I); auto.
  - rewrite P. pose proof (size_nonneg _ content). lia.
  - rewrite P in S. eauto.
Qed.
Lemma c45 : forall files size image s s1 l0, directory files -> Forall (fun f => size_of (src_name f) <= 63) files ->
  create files size = Packed image -> installed s image -> erfs_begin s = (s1, true, l0) ->
  ((forall before f after, files = before ++ f :: after -> name_at files before + 63 <= fs_size s) ->
   exists l, erfs_list s1 = Some (map (fun f => (src_name f, size_of (src_data f))) files, l)) /\
  forall j, exists used l, erfs_info s1 j = (fs_size s, used, l) /\ image_end files - 3 <= used <= image_end files.
Proof.
  intros files size image s s1 l0 D S C I M. destruct (mount _ _ _ _ C I) as [M' V]. rewrite M in M'.
  assert (E1 : s1 = mounted s files) by congruence. subst s1. split.
  - intros OK. destruct (c45_list _ files V D S OK) as (l & L & _). eauto.
  - intros j. destruct (c45_info _ files j V) as (l & L & _). do 2 eexists. split; [exact L|]. destruct files as [|f fs]; [vm_compute; split; discriminate|].
    pose proof (used_range (f :: fs) ltac:(discriminate)). lia.
Qed.
(** All the accesses made on a built image are in the partition. *)
Lemma c44 : forall files size image s s1 l0, directory files -> Forall (fun f => size_of (src_name f) <= 63) files ->
  create files size = Packed image -> installed s image -> erfs_begin s = (s1, true, l0) -> inside s l0 /\
  (forall path j r l, Forall (fun c => c <> 0) path -> path <> [] -> path <> [47] -> erfs_open s1 path j = Some (r, l) -> inside s l /\
    forall e calls buf32 rs l', r = Some e -> Forall sensible calls -> size_of buf32 = 260 -> session s1 buf32 e calls = Some (rs, l') -> inside s l') /\
  (forall j t u l, erfs_info s1 j = (t, u, l) -> inside s l) /\
  ((forall before f after, files = before ++ f :: after -> name_at files before + 63 <= fs_size s) -> forall r l, erfs_list s1 = Some (r, l) -> inside s l).
Proof.
  intros files size image s s1 l0 D S C I M. destruct (mount _ _ _ _ C I) as [M' V]. rewrite M in M'.
  assert (E1 : s1 = mounted s files) by congruence. assert (E2 : l0 = [(fs_start s, 8)]) by congruence. subst s1 l0.
  pose proof (v_room _ _ V) as VR. cbn [mounted fs_size] in VR.
  assert (IE : 8 <= image_end files).
  { unfold image_end, data_at, names_start. pose proof (sum_names_nonneg files). pose proof (sum_datas_nonneg files).
    pose proof (size_nonneg _ files). pose proof (round4_facts (2 * size_of files) ltac:(lia)). lia. }
  split; [constructor; [cbn [fst snd]; lia|constructor]|]. split; [|split].
  - intros path j r l P N1 N2 O.
    assert (SN : strip path <> []).
    { destruct path as [|c p]; [contradiction|]. destruct (Z.eq_dec c 47) as [->|Q]; [cbn; intros ->; apply N2; reflexivity|].
      unfold strip. destruct c as [|c|c]; try discriminate. do 6 (destruct c as [c|c|]; try discriminate). contradiction. }
    destruct (open_spec _ files path j V (proj1 D) S P SN) as (r' & l' & O' & IN & MM). rewrite O in O'. assert (r' = r) by congruence. assert (l' = l) by congruence. subst r' l'.
    split; [exact IN|]. intros e calls buf32 rs l' -> F B32 SE. destruct MM as (A & f & B & E & _ & _ & OP).
    destruct (c41_start _ _ e calls buf32 (opened_content _ _ _ _ _ _ V E OP) (proj2 (proj2 (proj2 (proj2 OP)))) F B32) as (l'' & SE' & IN'). rewrite SE in SE'.
    assert (l'' = l') by congruence. subst. exact IN'.
  - intros j t u l H. destruct (c45_info _ files j V) as (l' & L & IN). rewrite H in L. assert (l = l') by congruence. subst. exact IN.
  - intros OK r l H. destruct (c45_list _ files V D S OK) as (l' & L & IN). rewrite H in L. assert (l = l') by congruence. subst. exact IN.
Qed.

(** ** Mounting *)
Lemma c44_mount : forall s a b c d e f g h image, installed s (a :: b :: c :: d :: e :: f :: g :: h :: image) ->
  Forall (fun x => 0 <= x < 256) [a; b; c; d; e; f; g; h] ->
  exists s1 ok, erfs_begin s = (s1, ok, [(fs_start s, 8)]) /\ (ok = true <-> [a; b; c; d; e; f] = str "ERFS" ++ [3; 2]) /\
    (ok = true -> fs_files s1 = g + 256 * h).
Proof.
  intros s a b c d e f g h image (S0 & S1 & S2 & S3 & S4) B.
  assert (L : 8 <= size_of (a :: b :: c :: d :: e :: f :: g :: h :: image)) by (unfold size_of; cbn [length]; lia).
  assert (R : hal_read s 0 8 = (Some [a; b; c; d; e; f; g; h], [(fs_start s, 8)])).
  { unfold hal_read. rewrite (u32_small (0 + 8)) by lia. replace (0 + 8 >? fs_size s) with false by (symmetry; rewrite Z.gtb_ltb; apply Z.ltb_ge; lia).
    rewrite u32_small, Z.add_0_r by lia. unfold flash_bytes. change (Z.to_nat 8) with 8%nat. cbn [seq map].
    rewrite !S4 by (cbn [Z.of_nat Pos.of_succ_nat Pos.succ]; lia). reflexivity. }
  unfold erfs_begin. rewrite R. cbn [nth skipn]. unfold word32, word16. cbn [nth].
  assert (B1 := Forall_inv B); apply Forall_inv_tail in B. assert (B2 := Forall_inv B); apply Forall_inv_tail in B. assert (B3 := Forall_inv B); apply Forall_inv_tail in B. assert (B4 := Forall_inv B); clear B. cbv beta in *.
  assert (W : a + 256 * b + 65536 * c + 16777216 * d = 1397117509 <-> a = 69 /\ b = 82 /\ c = 70 /\ d = 83) by lia.
  change (str "ERFS" ++ [3; 2]) with [69; 82; 70; 83; 3; 2].
  destruct (a + 256 * b + 65536 * c + 16777216 * d =? 1397117509) eqn:E1, (e =? 3) eqn:E2, (f =? 2) eqn:E3; cbn [andb];
    repeat match goal with H : (_ =? _) = true |- _ => apply Z.eqb_eq in H | H : (_ =? _) = false |- _ => apply Z.eqb_neq in H end;
    do 2 eexists; (split; [reflexivity|]); (split; [split; [intros X; try discriminate X|intros X; try reflexivity; injection X as -> -> -> -> -> ->; lia]|intros X; try discriminate X; reflexivity]).
  apply W in E1. destruct E1 as (-> & -> & -> & ->). subst. reflexivity.
Qed.
