(** Proofs of C93. *)
From Coq Require Import ZArith List Bool Lia Sorted.
From Verif Require Import Base BaseFacts Teleinfo TeleinfoSpec Publish HistorySpec WattSpec WattProofs TimeSetSpec.
Import ListNotations.
Open Scope Z_scope.

Lemma walk_stop : forall n f1 p l b r,
  (forall f, In f l -> 0 <= at_ms n - at_ms f < 4294967296 /\ wh f1 <= wh f < 4294967295) ->
  p < (at_ms n - at_ms b) mod 4294967296 ->
  walk (date_ms (smp f1 n)) p (map (smp f1) (l ++ b :: r)) = tw n p l.
Proof.
  induction l; intros b r H Hb; cbn [map walk tw app].
  - destruct (_ =? 0); auto. rewrite !date_smp, u32_diff. fold (u32 (at_ms n - at_ms b)) in Hb.
    destruct (Z.ltb_spec p (u32 (at_ms n - at_ms b))); [auto|lia].
  - destruct (H a) as [H1 H2]. { left; auto. }
    rewrite wh_smp by auto. destruct (Z.eqb_spec (wh a - wh f1 + 1) 0); [lia|].
    assert (Hd : u32 (date_ms (smp f1 n) - date_ms (smp f1 a)) = at_ms n - at_ms a).
    { rewrite !date_smp, u32_diff. unfold u32. apply Z.mod_small. auto. }
    rewrite Hd.
    destruct (Z.ltb_spec p (at_ms n - at_ms a)); destruct (Z.leb_spec (at_ms n - at_ms a) p); try lia; auto.
    f_equal. apply IHl; auto. intros. apply H. right; auto.
Qed.

Lemma tw_le : forall n p l, (tw n p l <= length l)%nat.
Proof. induction l; cbn [tw length]; [lia|]. destruct (_ <=? _); lia. Qed.

Lemma watt_set : forall t bef aft n older p, Holds t (bef ++ aft) -> set_between bef aft -> rev aft = n :: older ->
  (48 <= length aft)%nat \/ told_apart (p * 1000) bef n -> 0 <= p <= 2147483 ->
  let o := window_start (p * 1000) n aft in
  watt t p = Some (if at_ms n =? at_ms o then 0 else u32 (3600000 * (wh n - wh o)) / (at_ms n - at_ms o)) /\
  wh o <= wh n.
Proof.
  intros t bef aft n older p [HR _] Hn Hrev Hsep Hp o.
  unfold set_between in Hn. destruct (bef ++ aft) as [|f1 r] eqn:Efs; [contradiction|].
  destruct Hn as (Hbase & Hsort & Hspan & Hwh).
  assert (Hall : rev (f1 :: r) = n :: older ++ rev bef). { rewrite <- Efs, rev_app_distr, Hrev. reflexivity. }
  assert (Hss : rev (samples zero_conso (f1 :: r)) = map (smp f1) (n :: older ++ rev bef)).
  { rewrite samples_normal by auto. rewrite <- map_rev. exact (f_equal (map (smp f1)) Hall). }
  rewrite (watt_ring t _ p HR), Hss. cbv zeta.
  cbn [map nth].
  assert (Hrec : recent aft = n :: firstn 47 older) by exact (f_equal (firstn 48) Hrev).
  assert (Hin : forall f, In f (n :: older) -> In f (f1 :: r)).
  { intros f Hf. rewrite <- Efs. apply in_or_app. right. rewrite <- Hrev in Hf. apply in_rev in Hf. auto. }
  assert (Hin47 : forall f, In f (firstn 47 older) -> In f older).
  { intros f Hf. rewrite <- (firstn_skipn 47 older). apply in_or_app. auto. }
  rewrite Hrec in Hsort, Hspan. inversion Hsort as [|? ? Hsort' Hfst]; subst.
  assert (Hu : u32 (p * 1000) = p * 1000) by (unfold u32; apply Z.mod_small; lia). rewrite Hu.
  assert (Hok : forall f, In f (firstn 47 older) -> 0 <= at_ms n - at_ms f < 4294967296 /\ wh f1 <= wh f < 4294967295).
  { intros f Hf. split.
    - rewrite Forall_forall in Hfst. pose proof (Hfst f Hf) as [Hle _]. pose proof (Hspan n f (or_introl eq_refl) (or_intror Hf)). lia.
    - apply Hwh, Hin. right. auto. }
  assert (Hwalk : walk (date_ms (smp f1 n)) (p * 1000) (map (smp f1) (firstn 47 (older ++ rev bef))) =
    tw n (p * 1000) (firstn 47 older)).
  { rewrite firstn_app. destruct (firstn (47 - length older) (rev bef)) as [|b rb] eqn:Eb.
    - rewrite app_nil_r. apply walk_frames; auto.
    - apply walk_stop; auto. destruct Hsep as [Hlen|Hap].
      + exfalso. assert (length (rev aft) = S (length older)) by (rewrite Hrev; reflexivity). rewrite rev_length in H.
        replace (47 - length older)%nat with 0%nat in Eb by lia. discriminate.
      + unfold told_apart in Hap. destruct (rev bef) as [|b' rb']; [destruct (47 - length older)%nat; discriminate|].
        destruct (47 - length older)%nat; [discriminate|]. cbn [firstn] in Eb.
        assert (b' = b) by congruence. subst b'. exact Hap. }
  assert (Hcp : first_sample (date_ms (smp f1 n)) (p * 1000) (smp f1 n :: map (smp f1) (older ++ rev bef)) = smp f1 o /\
    (at_ms n - at_ms o <= p * 1000) /\ In o (n :: firstn 47 older)).
  { unfold first_sample. rewrite view_split.
    match goal with |- context[skipn 1 (firstn 48 (?a :: ?l) ++ ?z)] =>
      change (skipn 1 (firstn 48 (a :: l) ++ z)) with (firstn 47 l ++ z) end.
    rewrite walk_zeros, firstn_map, Hwalk.
    unfold o, window_start. rewrite Hrec. cbn [filter]. rewrite Z.sub_diag. destruct (Z.leb_spec 0 (p * 1000)); [|lia].
    rewrite last_cons, (last_filter_tw n (p * 1000) (firstn 47 older) n n) by auto.
    pose proof (tw_le n (p * 1000) (firstn 47 older)) as Hk.
    set (k := tw n (p * 1000) (firstn 47 older)) in *.
    split.
    - change (smp f1 n :: map (smp f1) (older ++ rev bef)) with (map (smp f1) (n :: older ++ rev bef)).
      rewrite (nth_indep _ zero_conso (smp f1 n)).
      2:{ rewrite map_length. cbn [length]. rewrite app_length. rewrite firstn_length in Hk. lia. }
      rewrite map_nth. f_equal. destruct k as [|k']; [reflexivity|]. cbn [nth].
      rewrite <- (firstn_skipn 47 older) at 1. rewrite <- app_assoc. rewrite app_nth1 by lia. reflexivity.
    - split.
      + unfold k. clear - Hp. generalize (firstn 47 older) as l.
        assert (G : forall l c, at_ms n - at_ms c <= p * 1000 -> at_ms n - at_ms (nth (tw n (p * 1000) l) (c :: l) n) <= p * 1000).
        { induction l; intros c Hc; cbn [tw]; auto. destruct (Z.leb_spec (at_ms n - at_ms a) (p * 1000)); auto.
          cbn [nth]. apply (IHl a). auto. }
        intros l. apply G. lia.
      + apply nth_In. cbn [length]. lia. }
  destruct Hcp as (-> & Hwin & Hino).
  assert (Hdiff : 0 <= at_ms n - at_ms o < 4294967296 /\ wh o <= wh n).
  { destruct Hino as [<-|Hino]; [lia|]. rewrite Forall_forall in Hfst. pose proof (Hfst o Hino) as [? ?].
    pose proof (Hspan n o (or_introl eq_refl) (or_intror Hino)). lia. }
  split; [|apply Hdiff].
  assert (Hino' : In o (f1 :: r)). { apply Hin. destruct Hino; [left; auto|right; auto]. }
  assert (Hinn : In n (f1 :: r)). { apply Hin. left; auto. }
  rewrite !wh_smp by (apply Hwh; auto).
  set (dn := date_ms (smp f1 n)). set (d_o := date_ms (smp f1 o)).
  assert (Hmod : u32 (dn - d_o) = at_ms n - at_ms o).
  { unfold dn, d_o. rewrite !date_smp, u32_diff. unfold u32. apply Z.mod_small. lia. }
  assert (Hdn : 0 <= dn < 4294967296) by (unfold dn; rewrite date_smp; apply Z.mod_pos_bound; lia).
  assert (Hdo : 0 <= d_o < 4294967296) by (unfold d_o; rewrite date_smp; apply Z.mod_pos_bound; lia).
  destruct (Z.eqb_spec dn d_o) as [E|E].
  - assert (at_ms n - at_ms o = 0). { rewrite <- Hmod, E, Z.sub_diag. reflexivity. }
    destruct (Z.eqb_spec (at_ms n) (at_ms o)); [auto|lia].
  - destruct (Z.eqb_spec (at_ms n) (at_ms o)) as [E2|E2].
    { exfalso. rewrite E2, Z.sub_diag in Hmod. unfold u32 in Hmod. apply Z.mod_divide in Hmod; [|lia]. destruct Hmod as [q Hq].
      assert (q = 0) by lia. subst q. lia. }
    assert (Hi : i32 (dn - d_o) = at_ms n - at_ms o).
    { unfold i32. rewrite <- Zplus_mod_idemp_l. fold (u32 (dn - d_o)). rewrite Hmod, Z.mod_small; lia. }
    rewrite Hi. destruct (Z.ltb_spec (at_ms n - at_ms o) 0); [lia|].
    destruct (Z.eqb_spec (at_ms n - at_ms o) 0); [lia|].
    f_equal. f_equal.
    + replace (wh n - wh f1 + 1 - (wh o - wh f1 + 1)) with (wh n - wh o) by lia.
      unfold u32. rewrite Zmult_mod_idemp_r. auto.
    + unfold u32. apply Z.mod_small. lia.
Qed.

Lemma c93 : forall sgn g1 g2 es bef aft n older periode, length g1 = 350%nat -> length g2 = 350%nat ->
  Forall is_byte (map snd (fed false es)) ->
  frames_in (fed false es) (bef ++ aft) -> set_between bef aft -> rev aft = n :: older -> 0 <= periode <= 2147483 ->
  (48 <= length aft)%nat \/ told_apart (periode * 1000) bef n ->
  let o := window_start (periode * 1000) n aft in
  wh n - wh o <= 1193 ->
  exists p, pub_run sgn es (pub_init g1 g2) = Some p /\ watt (p_ti p) periode = Some (slope o n).
Proof.
  intros sgn g1 g2 es bef aft n older periode Hg1 Hg2 Hb Hfs Hn Hrev Hp Hsep o Ho.
  destruct (pub_holds sgn g1 g2 es) as (p & fs' & E & Hfs' & HH); auto.
  rewrite (frames_in_unique _ _ Hfs' _ Hfs) in HH.
  exists p. split; auto.
  destruct (watt_set (p_ti p) bef aft n older periode HH Hn Hrev Hsep Hp) as [-> Hle]. fold o in Hle |- *.
  unfold slope. destruct (at_ms n =? at_ms o); auto. unfold u32. rewrite Z.mod_small; auto. lia.
Qed.

Lemma at_kept : forall d c, at_ms (kept d c) = (d + fst c) / 1000.
Proof.
  intros. unfold at_ms, kept. cbn [fst tv_sec tv_usec].
  pose proof (Z.div_mod (d + fst c) 1000000 ltac:(lia)) as E.
  rewrite E at 3.
  replace (1000000 * ((d + fst c) / 1000000) + (d + fst c) mod 1000000)
    with ((d + fst c) mod 1000000 + ((d + fst c) / 1000000) * 1000 * 1000) by lia.
  rewrite Z.div_add by lia. lia.
Qed.

(** the frames came in order since the start *)
Lemma in_order : forall d l, StronglySorted (fun a b => fst b <= fst a /\ wh (kept d b) <= wh (kept d a)) l ->
  StronglySorted (fun a b => at_ms b <= at_ms a /\ wh b <= wh a) (map (kept d) l).
Proof.
  induction 1; cbn [map]; constructor; auto. rewrite Forall_map. eapply Forall_impl; [|exact H0]. cbn beta.
  intros b [L1 L2]. split; auto. rewrite !at_kept. apply Z.div_le_mono; lia.
Qed.

Lemma wh_kept : forall d c, wh (kept d c) = index_of c.
Proof. reflexivity. Qed.

Lemma sorted_app_r : forall (A : Type) (R : A -> A -> Prop) l1 l2, StronglySorted R (l1 ++ l2) -> StronglySorted R l2.
Proof. induction l1; intros; auto. inversion H; subst. auto. Qed.
Lemma sorted_cross : forall (A : Type) (R : A -> A -> Prop) l1 l2 a b, StronglySorted R (l1 ++ l2) -> In a l1 -> In b l2 -> R a b.
Proof.
  induction l1; intros l2 x b H Ha Hb; [contradiction|]. inversion H; subst. destruct Ha as [<-|Ha]; [|eauto].
  rewrite Forall_forall in H3. apply H3, in_or_app. auto.
Qed.
Lemma sorted_rev : forall (A : Type) (R : A -> A -> Prop) l, StronglySorted R l -> StronglySorted (fun a b => R b a) (rev l).
Proof.
  induction l; intros H; cbn [rev]; [constructor|]. inversion H; subst. specialize (IHl H2).
  assert (G : forall l' , StronglySorted (fun a b => R b a) l' -> (forall x, In x l' -> R a x) -> StronglySorted (fun a b => R b a) (l' ++ [a])).
  { induction l'; intros S1 S2; cbn [app]; [repeat constructor|]. inversion S1; subst. constructor.
    - apply IHl'; auto. intros x Hx. apply S2. right; auto.
    - apply Forall_app. split; [exact H5|]. constructor; [|constructor]. apply S2. left; auto. }
  apply G; auto. intros x Hx. apply in_rev in Hx. rewrite Forall_forall in H3. auto.
Qed.
Lemma sorted_firstn : forall (A : Type) (R : A -> A -> Prop) k l, StronglySorted R l -> StronglySorted R (firstn k l).
Proof.
  induction k; intros l H; cbn [firstn]; [constructor|]. destruct l; [constructor|]. inversion H; subst. constructor; [auto|].
  rewrite Forall_forall in *. intros x Hx. apply H3. rewrite <- (firstn_skipn k l). apply in_or_app. auto.
Qed.

Lemma recent_kept : forall d l, recent (map (kept d) l) = map (kept d) (firstn 48 (rev l)).
Proof. intros. unfold recent. rewrite <- map_rev, firstn_map. reflexivity. Qed.

Lemma set_since : forall d cs1 cs2, since_start d cs1 cs2 -> cs2 <> [] ->
  set_between (map (kept (start_date * 1000000)) cs1) (map (kept d) cs2).
Proof.
  intros d cs1 cs2 (Hs & Hr & Hsp & Hd) Hne. unfold set_between.
  destruct (map (kept (start_date * 1000000)) cs1 ++ map (kept d) cs2) as [|f1 r] eqn:E.
  { destruct cs1; [|discriminate]. destruct cs2; [contradiction|discriminate]. }
  assert (Hf1 : exists c0 d0, hd_error (cs1 ++ cs2) = Some c0 /\ f1 = kept d0 c0 /\ start_date * 1000000 <= d0 < 2147483648000000).
  { destruct cs1 as [|c0 cs1]; cbn [map app] in E.
    - destruct cs2 as [|c0 cs2]; [contradiction|]. cbn [map] in E. assert (f1 = kept d c0) by congruence. exists c0, d. auto.
    - assert (f1 = kept (start_date * 1000000) c0) by congruence. exists c0, (start_date * 1000000). split; [reflexivity|].
      split; [assumption|]. unfold start_date. lia. }
  destruct Hf1 as (c0 & d0 & Hh & -> & Hd0).
  assert (Hc0 : In c0 (cs1 ++ cs2)). { destruct (cs1 ++ cs2); [discriminate|]. left. cbn in Hh. congruence. }
  assert (Hmin : forall c, In c (cs1 ++ cs2) -> index_of c0 <= index_of c).
  { intros c Hc. destruct (cs1 ++ cs2) as [|x l]; [discriminate|]. cbn in Hh. assert (x = c0) by congruence. subst x.
    destruct Hc as [<-|Hc]; [lia|]. inversion Hs; subst. rewrite Forall_forall in H2. apply H2; auto. }
  split; [|split; [|split]].
  - cbn [kept fst tv_sec]. destruct (Hr c0 Hc0) as [_ Hc]. unfold start_date in *.
    assert (1510592825 <= (d0 + fst c0) / 1000000). { apply Z.div_le_lower_bound; lia. }
    assert ((d0 + fst c0) / 1000000 < 4294967296). { apply Z.div_lt_upper_bound; lia. }
    rewrite Z.mod_small by lia. lia.
  - rewrite recent_kept. apply in_order.
    apply sorted_firstn. apply sorted_app_r in Hs. apply sorted_rev in Hs. exact Hs.
  - rewrite recent_kept. intros a b Ha Hb. apply in_map_iff in Ha, Hb. destruct Ha as (x & <- & Hx), Hb as (y & <- & Hy).
    rewrite !at_kept. pose proof (Hsp x y Hx Hy) as Hxy. clear - Hxy. Z.div_mod_to_equations. lia.
  - intros f Hf. rewrite wh_kept. rewrite <- E in Hf. apply in_app_or in Hf.
    assert (Hc : exists c d', f = kept d' c /\ In c (cs1 ++ cs2)).
    { destruct Hf as [Hf|Hf]; apply in_map_iff in Hf; destruct Hf as (c & <- & Hc); do 2 eexists; split; [reflexivity| |reflexivity|]; apply in_or_app; auto. }
    destruct Hc as (c & d' & -> & Hc). rewrite wh_kept. split; [apply Hmin; auto|apply Hr; auto].
Qed.

Lemma clear_apart : forall p d cs1 n, (forall b, In b cs1 -> fst b <= fst n) -> clear_jump p d cs1 n ->
  told_apart p (map (kept (start_date * 1000000)) cs1) (kept d n).
Proof.
  intros p d cs1 n Hb H. unfold told_apart, clear_jump, came in *. rewrite <- map_rev.
  destruct (rev cs1) as [|b r] eqn:E; cbn [map]; [exact Logic.I|].
  assert (Hin : In b cs1). { apply in_rev. rewrite E. left; auto. }
  specialize (Hb b Hin). rewrite !at_kept.
  set (s := start_date * 1000000) in *.
  assert (Hs : s = 1510592825000 * 1000) by reflexivity. clearbody s.
  set (j := (d - s) / 1000) in *.
  assert (Hx : 0 <= (d + fst n) / 1000 - (s + fst b) / 1000 - j <= (fst n - fst b) / 1000 + 2).
  { unfold j. rewrite Hs. clear - Hb. Z.div_mod_to_equations. lia. }
  set (x := (d + fst n) / 1000 - (s + fst b) / 1000 - j) in *.
  replace ((d + fst n) / 1000 - (s + fst b) / 1000) with (j + x) by (unfold x; lia).
  rewrite <- Zplus_mod_idemp_l. rewrite Z.mod_small; [lia|]. pose proof (Z.mod_pos_bound j 4294967296). lia.
Qed.

Lemma c93_start : forall sgn g1 g2 es d cs1 cs2 n older, length g1 = 350%nat -> length g2 = 350%nat ->
  Forall is_byte (map snd (fed false es)) -> since_start d cs1 cs2 ->
  frames_in (fed false es) (map (kept (start_date * 1000000)) cs1 ++ map (kept d) cs2) ->
  rev cs2 = n :: older ->
  (48 <= length cs2)%nat \/ clear_jump 60000 d cs1 n ->
  let o := window_start 60000 (kept d n) (map (kept d) cs2) in
  index_of n - wh o <= 1193 ->
  exists p, pub_run sgn es (pub_init g1 g2) = Some p /\ watt (p_ti p) 60 = Some (slope o (kept d n)).
Proof.
  intros sgn g1 g2 es d cs1 cs2 n older Hg1 Hg2 Hb Hss Hfs Hrev Hsep o Ho.
  apply (c93 sgn g1 g2 es (map (kept (start_date * 1000000)) cs1) (map (kept d) cs2) (kept d n) (map (kept d) older) 60); auto.
  - apply set_since; auto. intros ->. discriminate.
  - rewrite <- map_rev, Hrev. reflexivity.
  - lia.
  - destruct Hsep as [L|C]; [left; rewrite map_length; exact L|right]. apply clear_apart; auto.
    intros b Hin. destruct Hss as (Hs & _). apply (sorted_cross _ _ cs1 cs2 b n Hs Hin).
    apply in_rev. rewrite Hrev. left; auto.
Qed.
