(** The load of the processor for any number of iterations that a processor at 80 MHz can make (src/cpuload.cpp:39-48). *)
From Coq Require Import ZArith List Bool Lia.
From Verif Require Import Base BaseFacts Teleinfo Tic TicSpec RequestProofs Cpu CpuSpec CpuProofs.
Import ListNotations.
Open Scope Z_scope.

Lemma sum_range : forall m l, Forall (fun v => 0 <= v <= m) l -> 0 <= fold_right Z.add 0 l <= m * Z.of_nat (length l).
Proof. induction l as [|v l IH]; intros H; cbn [fold_right length]; [lia|]. inversion H; subst. specialize (IH ltac:(assumption)). lia. Qed.
Lemma sum_wrap : forall l s, fold_left (fun s v => u32 (s + v)) l (u32 s) = u32 (s + fold_right Z.add 0 l).
Proof.
  induction l as [|v l IH]; intros s; cbn [fold_left fold_right]; [f_equal; lia|].
  replace (u32 (u32 s + v)) with (u32 (s + v)) by (unfold u32; now rewrite Zplus_mod_idemp_l). rewrite IH. f_equal. lia.
Qed.
Lemma c47_exactly : forall a ds, 0 <= a < 4294967296 -> spaced 1000 0 ds ->
  Forall (fun n => n <= 40000000) (counted 0 (firings 1000 0 ds)) ->
  exists p, cpuload_run (times a ds) (perf_init a) = Some p /\
    let avg := average (counted 0 (firings 1000 0 ds)) in
    (avg <= 85000 -> cpuload_cpu p = 100 * (85000 - avg) / 85000 /\ 0 <= cpuload_cpu p <= 100) /\
    (85000 < avg -> cpuload_cpu p = (4294967296 - 100 * (avg - 85000)) / 85000 /\ 3000 < cpuload_cpu p).
Proof.
  intros a ds A S F. destruct (run_holds a ds A S) as (p & R & P & Q & V & LA & L10 & Li & E).
  { eapply Forall_impl; [|exact F]. intros n N. cbn in N. lia. }
  exists p. split; auto. pose proof (counted_nonneg (firings 1000 0 ds) 0 ltac:(lia)) as N.
  set (cs := counted 0 (firings 1000 0 ds)) in *.
  assert (G : Forall (fun v => 0 <= v <= 40000000) (firstn 10 (rev cs ++ repeat 0 10))).
  { apply Forall_forall. intros x I. assert (J : In x (rev cs ++ repeat 0 10)).
    { rewrite <- (firstn_skipn 10 (rev cs ++ repeat 0 10)). apply in_app_iff. auto. }
    apply in_app_iff in J. destruct J as [J|J].
    - apply in_rev in J. rewrite Forall_forall in F, N. specialize (F x J). specialize (N x J). cbn in *. lia.
    - apply repeat_spec in J. lia. }
  assert (L : length (firstn 10 (rev cs ++ repeat 0 10)) = 10%nat).
  { rewrite firstn_length, app_length, repeat_length. lia. }
  assert (SV : fold_right Z.add 0 (pf_vals p) = fold_right Z.add 0 (firstn 10 (rev cs ++ repeat 0 10))).
  { rewrite <- E, V, !sum_app, !sum_rev. reflexivity. }
  pose proof (sum_range _ _ G) as B. rewrite L in B. cbv zeta. unfold cpuload_cpu, MAX_COUNTER.
  pose proof (sum_wrap (pf_vals p) 0) as W. change (u32 0) with 0 in W. rewrite W, SV, Z.add_0_l. unfold average.
  set (s := fold_right Z.add 0 (firstn 10 (rev cs ++ repeat 0 10))) in *.
  rewrite (u32_small s) by lia. assert (D : 0 <= s / 10 <= 40000000) by (split; [apply Z.div_pos; lia|apply Z.div_le_upper_bound; lia]).
  set (v := s / 10) in *. clearbody v. split; intros H.
  - rewrite (u32_small (85000 - v)) by lia. rewrite u32_small by lia. split; [reflexivity|].
    split; [apply Z.div_pos; lia|apply Z.div_le_upper_bound; lia].
  - assert (X : u32 (100 * u32 (85000 - v)) = 4294967296 - 100 * (v - 85000)).
    { unfold u32. rewrite Z.mul_mod_idemp_r by lia. symmetry. apply (Z.mod_unique _ _ (-1)); lia. }
    rewrite X. split; [reflexivity|]. apply Z.lt_le_trans with 3435; [lia|]. apply Z.div_le_lower_bound; lia.
Qed.
