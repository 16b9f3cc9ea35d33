(** Proofs about the CPU load. *)
From Coq Require Import ZArith List Bool Lia ZifyBool.
From Verif Require Import Base BaseFacts Teleinfo Tic TicSpec RequestProofs Cpu CpuSpec.
Import ListNotations.
Open Scope Z_scope.

(** perfs[] holds the last ten counts: after the index, the oldest ones; before it, the newest ones. *)
Definition holds (counts : list Z) (vals : list Z) (i : nat) : Prop :=
  exists A B, vals = A ++ B /\ length A = i /\ length vals = 10%nat /\ (i < 10)%nat /\
    rev A ++ rev B = firstn 10 (rev counts ++ repeat 0 10).
Lemma holds_init : holds [] (repeat 0 10) 0.
Proof. exists [], (repeat 0 10). repeat split; auto; lia. Qed.
Lemma upd_split : forall (A B : list Z) b v, upd (A ++ b :: B) (length A) v = Some (A ++ v :: B).
Proof. induction A; intros; cbn; auto. rewrite IHA. reflexivity. Qed.
Lemma firstn_snoc_drop : forall (l : list Z) n a r, firstn (S n) l = r ++ [a] -> length r = n -> firstn n l = r.
Proof.
  intros l n a r H L. assert (E : firstn n (firstn (S n) l) = firstn n l) by (rewrite firstn_firstn; f_equal; lia).
  rewrite H in E. rewrite firstn_app, L, Nat.sub_diag, firstn_O, app_nil_r in E. rewrite <- E. rewrite firstn_all2; auto. lia.
Qed.
Lemma holds_step : forall counts vals i k, holds counts vals i ->
  exists vals', upd vals i k = Some vals' /\ holds (counts ++ [k]) vals' ((i + 1) mod 10).
Proof.
  intros counts vals i k (A & B & -> & LA & L10 & Li & R). rewrite app_length in L10.
  destruct B as [|b B]; [cbn in L10; lia|]. subst i. rewrite upd_split. eexists. split; [reflexivity|]. cbn [length] in L10.
  assert (N : k :: rev A ++ rev B = firstn 10 (rev (counts ++ [k]) ++ repeat 0 10)).
  { rewrite rev_app_distr. cbn [rev app]. change (firstn 10 (k :: rev counts ++ repeat 0 10)) with (k :: firstn 9 (rev counts ++ repeat 0 10)).
    f_equal. symmetry. apply (firstn_snoc_drop _ _ b).
    - rewrite <- R. cbn [rev]. rewrite app_assoc. reflexivity.
    - rewrite app_length, !rev_length. lia. }
  destruct (Nat.eq_dec (length A) 9) as [E|E].
  - rewrite E. change ((9 + 1) mod 10)%nat with 0%nat. exists [], (A ++ k :: B). split; [reflexivity|]. split; [reflexivity|].
    split; [rewrite app_length; cbn [length]; lia|]. split; [lia|]. rewrite <- N. cbn [rev app].
    destruct B; [|cbn in L10; lia]. rewrite rev_app_distr. cbn. rewrite app_nil_r. reflexivity.
  - rewrite Nat.mod_small by lia. exists (A ++ [k]), B. split; [rewrite <- app_assoc; reflexivity|].
    split; [rewrite app_length; cbn; lia|]. split; [rewrite app_length; cbn [length]; lia|]. split; [lia|]. rewrite <- N.
    rewrite rev_app_distr. cbn. reflexivity.
Qed.
Lemma counted_app : forall fs1 fs2 k, exists k', counted k (fs1 ++ fs2) = counted k fs1 ++ counted k' fs2.
Proof. induction fs1 as [|[] fs1 IH]; intros; cbn; eauto. destruct (IH fs2 0) as [k' ->]. eauto. Qed.

(** One iteration. *)
Lemma run_counts : forall a ds b k counts p,
  0 <= b -> spaced 1000 b ds -> ticking a 1000 b (pf_timer p) -> pf_counter p = u32 k -> 0 <= k ->
  Forall (fun n => n < 4294967296) (counted k (firings 1000 b ds)) ->
  holds counts (pf_vals p) (pf_index p) ->
  exists p', cpuload_run (times a ds) p = Some p' /\ holds (counts ++ counted k (firings 1000 b ds)) (pf_vals p') (pf_index p').
Proof.
  intros a. induction ds as [|d ds IH]; intros b k counts p Hb S T C K F H.
  - cbn [times map cpuload_run firings counted]. rewrite app_nil_r. eauto.
  - cbn [spaced] in S. destruct S as (S1 & S2 & S3). cbn [times map cpuload_run firings counted] in *. unfold cpuload_loop.
    destruct (poll a 1000 b d (pf_timer p) ltac:(lia) ltac:(lia) S2 T) as [E T'].
    destruct (tm_expired (u32 (a + d)) (pf_timer p)) as [fired tm]. cbn [fst snd] in E, T'. subst fired.
    assert (U : u32 (pf_counter p + 1) = u32 (k + 1)).
    { rewrite C. unfold u32. rewrite Zplus_mod_idemp_l. reflexivity. }
    rewrite U. destruct (slot_passed 1000 b d).
    + inv F. rewrite (u32_small (k + 1)) by lia. destruct (holds_step _ _ _ (k + 1) H) as (v & -> & H'). 
      destruct (IH d 0 (counts ++ [k + 1]) (mk_perf 0 v ((pf_index p + 1) mod 10) tm)) as (p' & R & H''); auto; try lia.
      exists p'. split; auto. rewrite <- app_assoc in H''. exact H''.
    + destruct (IH d (k + 1) counts (mk_perf (u32 (k + 1)) (pf_vals p) (pf_index p) tm)) as (p' & R & H''); auto; try lia. eauto.
Qed.
Lemma sum_small : forall l s, 0 <= s -> Forall (fun v => 0 <= v <= 85000) l -> s + 85000 * Z.of_nat (length l) < 4294967296 ->
  fold_left (fun s v => u32 (s + v)) l s = s + fold_right Z.add 0 l.
Proof.
  induction l as [|v l IH]; intros s H F B; cbn [fold_left fold_right]; [lia|]. inv F. cbn [length] in B.
  rewrite u32_small by lia. rewrite IH by (auto; lia). lia.
Qed.
Lemma sum_bounds : forall l, Forall (fun v => 0 <= v <= 85000) l -> 0 <= fold_right Z.add 0 l <= 85000 * Z.of_nat (length l).
Proof. induction 1; cbn [fold_right length]; lia. Qed.
Lemma sum_app : forall a b, fold_right Z.add 0 (a ++ b) = fold_right Z.add 0 a + fold_right Z.add 0 b.
Proof. induction a; intros; cbn; [lia|]. rewrite IHa. lia. Qed.
Lemma sum_rev : forall l, fold_right Z.add 0 (rev l) = fold_right Z.add 0 l.
Proof. induction l; cbn; auto. rewrite sum_app, IHl. cbn. lia. Qed.
Lemma counted_nonneg : forall fs k, 0 <= k -> Forall (fun n => 0 <= n) (counted k fs).
Proof. induction fs as [|[] fs IH]; intros k K; cbn [counted]; auto; [constructor; [lia|apply IH; lia]|apply IH; lia]. Qed.
Lemma start_ticking : forall a, 0 <= a < 4294967296 -> ticking a 1000 0 (pf_timer (perf_init a)).
Proof. intros a A. repeat split. cbn. rewrite Z.add_0_r, u32_small; auto. Qed.
Lemma run_holds : forall a ds, 0 <= a < 4294967296 -> spaced 1000 0 ds ->
  Forall (fun n => n < 4294967296) (counted 0 (firings 1000 0 ds)) ->
  exists p, cpuload_run (times a ds) (perf_init a) = Some p /\ holds (counted 0 (firings 1000 0 ds)) (pf_vals p) (pf_index p).
Proof.
  intros a ds A S F.
  destruct (run_counts a ds 0 0 [] (perf_init a) ltac:(lia) S (start_ticking a A) eq_refl ltac:(lia) F holds_init) as (p & R & H). eauto.
Qed.
Lemma c47 : forall a ds, 0 <= a < 4294967296 -> spaced 1000 0 ds ->
  Forall (fun n => n <= 85000) (counted 0 (firings 1000 0 ds)) ->
  exists p, cpuload_run (times a ds) (perf_init a) = Some p /\
    cpuload_cpu p = 100 * (85000 - average (counted 0 (firings 1000 0 ds))) / 85000 /\ 0 <= cpuload_cpu p <= 100.
Proof.
  intros a ds A S F. destruct (run_holds a ds A S) as (p & R & P & Q & V & LA & L10 & Li & E).
  { eapply Forall_impl; [|exact F]. intros n N. cbn in N. lia. }
  exists p. split; auto. pose proof (counted_nonneg (firings 1000 0 ds) 0 ltac:(lia)) as N.
  set (cs := counted 0 (firings 1000 0 ds)) in *.
  assert (G : Forall (fun v => 0 <= v <= 85000) (firstn 10 (rev cs ++ repeat 0 10))).
  { apply Forall_forall. intros x I.  assert (J : In x (rev cs ++ repeat 0 10)).
    { rewrite <- (firstn_skipn 10 (rev cs ++ repeat 0 10)). apply in_app_iff. auto. }
    apply in_app_iff in J. destruct J as [J|J].
    - apply in_rev in J. rewrite Forall_forall in F, N. specialize (F x J). specialize (N x J). cbn in *. lia.
    - apply repeat_spec in J. lia. }
  assert (L : length (firstn 10 (rev cs ++ repeat 0 10)) = 10%nat).
  { rewrite firstn_length, app_length, repeat_length. lia. }
  assert (SV : fold_right Z.add 0 (pf_vals p) = fold_right Z.add 0 (firstn 10 (rev cs ++ repeat 0 10))).
  { rewrite <- E, V, !sum_app, !sum_rev. reflexivity. }
  assert (GV : Forall (fun v => 0 <= v <= 85000) (pf_vals p)).
  { rewrite <- E in G. apply Forall_app in G. destruct G as [G1 G2]. rewrite V. apply Forall_app.
    rewrite Forall_forall in G1, G2. split; apply Forall_forall; intros x I; [apply G1|apply G2]; apply -> in_rev; auto. }
  pose proof (sum_bounds _ G) as B. rewrite L in B.
  unfold cpuload_cpu, MAX_COUNTER. rewrite sum_small by (auto; rewrite ?L10; lia). rewrite SV, Z.add_0_l. unfold average.
  set (s := fold_right Z.add 0 (firstn 10 (rev cs ++ repeat 0 10))) in *.
  assert (D : 0 <= s / 10 <= 85000) by (split; [apply Z.div_pos; lia|apply Z.div_le_upper_bound; lia]).
  rewrite (u32_small (85000 - s / 10)) by lia. rewrite u32_small by lia. split; [reflexivity|].
  split; [apply Z.div_pos; lia|apply Z.div_le_upper_bound; lia].
Qed.

Lemma c47_average : forall a ds, 0 <= a < 4294967296 -> spaced 1000 0 ds ->
  Forall (fun n => n <= 85000) (counted 0 (firings 1000 0 ds)) ->
  exists p, cpuload_run (times a ds) (perf_init a) = Some p /\
    fold_left (fun s v => u32 (s + v)) (pf_vals p) 0 / 10 = average (counted 0 (firings 1000 0 ds)).
Proof.
  intros a ds A S F. destruct (run_holds a ds A S) as (p & R & P & Q & V & LA & L10 & Li & E).
  { eapply Forall_impl; [|exact F]. intros n N. cbn in N. lia. }
  exists p. split; auto. pose proof (counted_nonneg (firings 1000 0 ds) 0 ltac:(lia)) as N.
  set (cs := counted 0 (firings 1000 0 ds)) in *.
  assert (G : Forall (fun v => 0 <= v <= 85000) (firstn 10 (rev cs ++ repeat 0 10))).
  { apply Forall_forall. intros x I.  assert (J : In x (rev cs ++ repeat 0 10)).
    { rewrite <- (firstn_skipn 10 (rev cs ++ repeat 0 10)). apply in_app_iff. auto. }
    apply in_app_iff in J. destruct J as [J|J].
    - apply in_rev in J. rewrite Forall_forall in F, N. specialize (F x J). specialize (N x J). cbn in *. lia.
    - apply repeat_spec in J. lia. }
  assert (L : length (firstn 10 (rev cs ++ repeat 0 10)) = 10%nat).
  { rewrite firstn_length, app_length, repeat_length. lia. }
  assert (SV : fold_right Z.add 0 (pf_vals p) = fold_right Z.add 0 (firstn 10 (rev cs ++ repeat 0 10))).
  { rewrite <- E, V, !sum_app, !sum_rev. reflexivity. }
  assert (GV : Forall (fun v => 0 <= v <= 85000) (pf_vals p)).
  { rewrite <- E in G. apply Forall_app in G. destruct G as [G1 G2]. rewrite V. apply Forall_app.
    rewrite Forall_forall in G1, G2. split; apply Forall_forall; intros x I; [apply G1|apply G2]; apply -> in_rev; auto. }
  pose proof (sum_bounds _ G) as B. rewrite L in B.
  rewrite sum_small by (auto; rewrite ?L10; lia). rewrite SV, Z.add_0_l. reflexivity.
Qed.

(** A second with more iterations than the constant allows. *)
Lemma counted_quiet : forall n k r, counted k (repeat false n ++ true :: r) = (k + Z.of_nat n + 1) :: counted 0 r.
Proof. induction n as [|n IH]; intros; cbn [repeat app counted]; [f_equal; lia|]. rewrite IH. f_equal. lia. Qed.
Lemma firings_quiet : forall n b ds, firings 1000 b (repeat b n ++ ds) = repeat false n ++ firings 1000 b ds.
Proof.
  induction n as [|n IH]; intros; cbn [repeat app firings]; auto. rewrite IH. unfold slot_passed. rewrite Z.ltb_irrefl. reflexivity.
Qed.
Lemma spaced_quiet : forall n b ds, spaced 1000 b ds -> spaced 1000 b (repeat b n ++ ds).
Proof. induction n as [|n IH]; intros; cbn [repeat app spaced]; auto. repeat split; auto; lia. Qed.
Lemma busy_second : forall n, 0 <= n < 4000000000 ->
  exists p, cpuload_run (times 0 (repeat 0 (Z.to_nat n) ++ [1000])) (perf_init 0) = Some p /\
    counted 0 (firings 1000 0 (repeat 0 (Z.to_nat n) ++ [1000])) = [n + 1] /\
    cpuload_cpu p = u32 (100 * u32 (85000 - (n + 1) / 10)) / 85000.
Proof.
  intros n N. assert (C : counted 0 (firings 1000 0 (repeat 0 (Z.to_nat n) ++ [1000])) = [n + 1]).
  { rewrite firings_quiet. cbn [firings]. change (slot_passed 1000 0 1000) with true. rewrite counted_quiet. cbn [counted].
    f_equal. lia. }
  destruct (run_holds 0 (repeat 0 (Z.to_nat n) ++ [1000])) as (p & R & A & B & V & LA & L10 & Li & E).
  - lia.
  - apply spaced_quiet. cbn. lia.
  - rewrite C. repeat constructor. lia.
  - exists p. split; auto. split; auto. rewrite C in E. cbn [rev app repeat firstn] in E.
    unfold cpuload_cpu, MAX_COUNTER. do 3 f_equal. f_equal. f_equal. 
    assert (Q : forall l s, fold_left (fun s v => u32 (s + v)) l (u32 s) = u32 (s + fold_right Z.add 0 l)).
    { induction l as [|v l IH]; intros s; cbn [fold_left fold_right]; [f_equal; lia|].
      replace (u32 (u32 s + v)) with (u32 (s + v)) by (unfold u32; now rewrite Zplus_mod_idemp_l). rewrite IH. f_equal. lia. }
    change 0 with (u32 0) at 1. rewrite Q, V.
    replace (fold_right Z.add 0 (A ++ B)) with (fold_right Z.add 0 (rev A ++ rev B)) by (rewrite !sum_app, !sum_rev; reflexivity).
    rewrite E. cbn [fold_right]. rewrite u32_small by lia. f_equal. lia.
Qed.
Lemma c47_refuted : exists a ds p, 0 <= a < 4294967296 /\ spaced 1000 0 ds /\ cpuload_run (times a ds) (perf_init a) = Some p /\
  cpuload_cpu p = 50529.
Proof.
  assert (N : exists n, n = 850009) by eauto. destruct N as [n N].
  destruct (busy_second n ltac:(lia)) as (p & R & C & E). exists 0, (repeat 0 (Z.to_nat n) ++ [1000]), p.
  split; [lia|]. split; [apply spaced_quiet; cbn; lia|]. split; [exact R|]. rewrite E, N. reflexivity.
Qed.
