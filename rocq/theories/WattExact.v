(** Proofs for C10: what the power is for any consumption in the window. *)
From Coq Require Import ZArith List Bool Lia Sorted.
From Verif Require Import Base BaseFacts Teleinfo TeleinfoSpec Publish HistorySpec PublishProofs WattSpec WattProofs.
Import ListNotations.
Open Scope Z_scope.

Lemma last_choice : forall (A : Type) (l : list A) d, last l d = d \/ In (last l d) l.
Proof.
  induction l as [|a l IH]; intros d; [left; reflexivity|]. rewrite last_cons. destruct (IH a) as [E|E].
  - right. left. symmetry. exact E.
  - right. right. exact E.
Qed.
Lemma window_bounds : forall p n fs older, normal fs -> rev fs = n :: older ->
  let o := window_start p n fs in 0 <= at_ms n - at_ms o < 4294967296 /\ wh o <= wh n.
Proof.
  intros p n fs older Hn Hrev o. destruct fs as [|f1 r]; [contradiction|]. destruct Hn as (_ & Hsort & Hspan & _).
  assert (Hrec : recent (f1 :: r) = n :: firstn 47 older) by exact (f_equal (firstn 48) Hrev).
  unfold o, window_start. rewrite Hrec in *. inversion Hsort as [|? ? _ Hf]; subst.
  destruct (last_choice _ (filter (fun f => at_ms n - at_ms f <=? p) (n :: firstn 47 older)) n) as [-> | Hl]; [lia|].
  apply filter_In in Hl. destruct Hl as [Hl _]. pose proof (Hspan n _ (or_introl eq_refl) Hl) as S.
  destruct Hl as [<- | Hl]; [lia|]. rewrite Forall_forall in Hf. apply Hf in Hl. lia.
Qed.
Lemma c10_any : forall sgn g1 g2 es fs n older periode, length g1 = 350%nat -> length g2 = 350%nat ->
  Forall is_byte (map snd (fed false es)) ->
  frames_in (fed false es) fs -> normal fs -> rev fs = n :: older -> 0 <= periode <= 2147483 ->
  let o := window_start (periode * 1000) n fs in
  exists p w, pub_run sgn es (pub_init g1 g2) = Some p /\ watt (p_ti p) periode = Some w /\
    (at_ms n = at_ms o -> w = 0) /\
    (at_ms n <> at_ms o -> w = (3600000 * (wh n - wh o)) mod 4294967296 / (at_ms n - at_ms o) /\
       (w = 3600000 * (wh n - wh o) / (at_ms n - at_ms o) <-> wh n - wh o <= 1193)).
Proof.
  intros sgn g1 g2 es fs n older periode Hg1 Hg2 Hb Hfs Hn Hrev Hp o.
  destruct (pub_holds sgn g1 g2 es) as (p & fs' & E & Hfs' & HH); auto.
  rewrite (frames_in_unique _ _ Hfs' _ Hfs) in HH.
  pose proof (window_bounds (periode * 1000) n fs older Hn Hrev) as [D W]. fold o in D, W.
  exists p. eexists. split; [exact E|]. split; [exact (watt_normal (p_ti p) fs n older periode HH Hn Hrev Hp)|]. fold o.
  split; intros A.
  - apply Z.eqb_eq in A. rewrite A. reflexivity.
  - assert (A' := A). apply Z.eqb_neq in A'. rewrite A'. split; [reflexivity|]. unfold u32.
    set (d := wh n - wh o) in *. assert (Hd : 0 <= d) by (unfold d; lia). set (dt := at_ms n - at_ms o) in *.
    assert (Hdt : 0 < dt < 4294967296) by (unfold dt in *; lia). split.
    + intros Q. destruct (Z_le_gt_dec d 1193) as [K|K]; [exact K|exfalso].
      assert (M : (3600000 * d) mod 4294967296 <= 3600000 * d - dt).
      { pose proof (Z.div_mod (3600000 * d) 4294967296 ltac:(lia)) as X.
        assert (1 <= 3600000 * d / 4294967296) by (apply Z.div_le_lower_bound; lia). lia. }
      apply (Z.div_le_mono _ _ dt) in M; [|lia]. replace (3600000 * d - dt) with (3600000 * d + (-1) * dt) in M by lia.
      rewrite Z.div_add in M by lia. lia.
    + intros Q. rewrite Z.mod_small by lia. reflexivity.
Qed.
