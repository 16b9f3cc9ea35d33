(** Proofs about updates down to the flash memory. *)
From Coq Require Import ZArith List Bool Lia ZifyBool ZifyNat.
From Verif Require Import Base BaseFacts Publish Config Tic Pages Sse Cpu Web WebSpec Device DevicePages Erfs ErfsSpec Flasher FlasherSpec.
Import ListNotations.
Open Scope Z_scope.

Lemma land_octet : forall b, is_octet b -> Z.land 255 b = b.
Proof. intros b B. rewrite Z.land_comm. change 255 with (Z.ones 8). rewrite Z.land_ones by lia. apply Z.mod_small. exact B. Qed.
Lemma size_app : forall a b : list Z, size_of (a ++ b) = size_of a + size_of b.
Proof. intros a b. unfold size_of. rewrite app_length. lia. Qed.
Lemma size_pos : forall a : list Z, 0 <= size_of a.
Proof. intros a. unfold size_of. lia. Qed.

Lemma range_in : forall a n i, a <= i < a + n -> (a <=? i) && (i <? a + n) = true.
Proof. intros a n i H. lia. Qed.
Lemma range_out : forall a n i, i < a \/ a + n <= i -> (a <=? i) && (i <? a + n) = false.
Proof. intros a n i H. lia. Qed.

Section Running.
  Variable l : layout.
  Hypothesis SL : sound_layout l.
  Notation S := (ly_sector l).
  Notation B := (ly_buffer l).

  Lemma sector_pos : 0 < S.
  Proof. destruct SL as (B0 & (n & n0 & E) & _). rewrite E. nia. Qed.
  (** The first byte of the sector *)
  Definition base (i : Z) : Z := i / S * S.
  Lemma base_le : forall i, base i <= i < base i + S.
  Proof. intros i. unfold base. assert (P := sector_pos). assert (M := Z.div_mod i S ltac:(lia)). assert (R := Z.mod_pos_bound i S P). lia. Qed.
  Lemma base_iff : forall i j, i / S = j / S <-> base i = base j.
  Proof. intros i j. unfold base. assert (P := sector_pos). split; [intros ->; reflexivity|]. intros E. apply (Z.mul_reg_r _ _ S); lia. Qed.
  Lemma base_aligned : forall i, i mod S = 0 <-> base i = i.
  Proof. intros i. unfold base. assert (P := sector_pos). assert (M := Z.div_mod i S ltac:(lia)). split; intros; lia. Qed.
  Lemma base_mono : forall i j, i <= j -> base i <= base j.
  Proof. intros i j L. unfold base. assert (P := sector_pos). apply Z.mul_le_mono_nonneg_r; [lia|]. apply Z.div_le_mono; lia. Qed.
  Lemma base_gap : forall i j, base i < base j + S -> base j <= base i -> base i = base j.
  Proof.
    intros i j. unfold base. assert (P := sector_pos). intros L1 L2. f_equal. assert (i / S < j / S + 1) by (apply (Z.mul_lt_mono_pos_r S); lia).
    assert (j / S <= i / S) by (apply (Z.mul_le_mono_pos_r _ _ S); lia). lia.
  Qed.
  Lemma in_sector : forall addr i, addr mod B = 0 -> addr <= i < addr + B -> base i = base addr.
  Proof.
    intros addr i A I. apply base_iff. destruct SL as (B0 & (n & n0 & E) & _). assert (P := sector_pos).
    assert (D : addr = B * (addr / B)) by (apply Z.div_exact; lia). set (q := addr / B) in *.
    assert (M := Z.div_mod addr S ltac:(lia)). assert (R := Z.mod_pos_bound addr S P). set (x := addr / S) in *. set (r := addr mod S) in *.
    assert (RB : r = B * (q - n * x)) by nia. assert (r <= S - B).
    { assert (q - n * x < n) by nia. nia. }
    symmetry. apply (Z.div_unique i S x (i - S * x)); lia.
  Qed.
  (** The sector of [addr], erased if [addr] is its beginning *)
  Definition prepared (addr : Z) (m : Z -> Z) : Z -> Z := if addr mod S =? 0 then erase l addr m else m.
  Lemma prepared_other : forall addr m i, base i <> base addr -> prepared addr m i = m i.
  Proof.
    intros addr m i I. unfold prepared. destruct (addr mod S =? 0); [|reflexivity]. unfold erase. destruct (i / S =? addr / S) eqn:Q; [|reflexivity].
    apply Z.eqb_eq in Q. apply base_iff in Q. congruence.
  Qed.
  Lemma prepared_before : forall addr m i, i < addr -> prepared addr m i = m i.
  Proof.
    intros addr m i I. unfold prepared. destruct (addr mod S =? 0) eqn:AL; [|reflexivity]. apply Z.eqb_eq in AL. apply base_aligned in AL. unfold erase.
    destruct (i / S =? addr / S) eqn:Q; [|reflexivity]. apply Z.eqb_eq in Q. apply base_iff in Q. pose proof (base_le i). lia.
  Qed.
  Lemma prepared_erased : forall addr m i, (forall j, addr <= j -> base j < addr -> m j = 255) -> addr <= i -> base i = base addr -> prepared addr m i = 255.
  Proof.
    intros addr m i H I1 I2. unfold prepared. destruct (addr mod S =? 0) eqn:AL.
    - unfold erase. replace (i / S =? addr / S) with true; [reflexivity|]. symmetry. apply Z.eqb_eq. apply base_iff. exact I2.
    - apply H; [exact I1|]. apply Z.eqb_neq in AL. pose proof (base_le addr). assert (base addr <> addr) by (intro Q; apply AL; apply base_aligned; exact Q). lia.
  Qed.
  Variables (st N : Z) (m0 : Z -> Z).
  Hypothesis ST : st mod ly_sector l = 0.
  (** [t]: what has been written; [k]: how much of it is in flash. *)
  Definition kept (t : list Z) (k : Z) (u : updater) (m : Z -> Z) : Prop :=
    up_size u = N /\ up_start u = st /\ up_addr u = st + k /\ 0 <= k /\ k + size_of (up_buf u) = size_of t /\ skipn (Z.to_nat k) t = up_buf u /\
    Forall is_octet t /\
    (forall i, st <= i < st + k -> m i = nth (Z.to_nat (i - st)) t 0) /\
    (forall i, i < st \/ st + k <= base i -> m i = m0 i) /\
    (forall i, st + k <= i -> base i < st + k -> m i = 255).
  Definition opened (t : list Z) (u : updater) (m : Z -> Z) : Prop :=
    exists k, kept t k u m /\ k mod B = 0 /\ size_of (up_buf u) <= B /\ size_of t <= N.
  Definition closed (t : list Z) (u : updater) (m : Z -> Z) : Prop := kept t N u m /\ up_buf u = [].

  Lemma start_multiple : st mod B = 0.
  Proof.
    destruct SL as (B0 & (n & n0 & E) & _). assert (P := sector_pos). assert (D : st = S * (st / S)) by (apply Z.div_exact; lia). rewrite D, E.
    rewrite <- Z.mul_assoc, (Z.mul_comm n), <- Z.mul_assoc. rewrite Z.mul_comm. apply Z.mod_mul. lia.
  Qed.
  Lemma flush_kept : forall t k u m u' m', kept t k u m -> k mod B = 0 -> 0 < size_of (up_buf u) <= B -> flush l (u, m) = (u', m') ->
    kept t (size_of t) u' m' /\ up_buf u' = [] /\ up_error u' = up_error u.
  Proof.
    intros t k u m u' m' (K1 & K2 & K3 & K4 & K5 & K6 & K7 & K8 & K9 & K10) KB LB F.
    assert (B0 : 0 < B) by apply SL.
    assert (AB : (st + k) mod B = 0) by (rewrite Z.add_mod, start_multiple, KB by lia; reflexivity).
    unfold flush in F. fold (prepared (up_addr u) m) in F. injection F as <- <-. cbn [up_size up_start up_addr up_buf up_error]. rewrite K3 in *. set (b := up_buf u) in *. clearbody b.
    split; [|split; reflexivity]. assert (SEC : forall i, st + k <= i < st + k + size_of b -> base i = base (st + k)) by (intros i I; apply (in_sector (st + k) i AB); lia).
    clear KB AB. remember (st + k) as addr eqn:EA. assert (LT : size_of t = k + size_of b) by lia.
    assert (EE : st + size_of t = addr + size_of b) by lia.
    unfold kept. cbn [up_size up_start up_addr up_buf]. rewrite EE. clear K5.
    split; [exact K1|]. split; [exact K2|]. split; [reflexivity|]. split; [lia|]. split; [unfold size_of; cbn [length]; lia|].
    split; [rewrite skipn_all2; [reflexivity|]; unfold size_of; lia|]. split; [exact K7|]. split; [|split].
    - intros i I. unfold program. destruct (Z_lt_ge_dec i addr) as [I1|I1].
      + rewrite range_out by (left; exact I1). rewrite prepared_before by exact I1. apply K8. lia.
      + rewrite range_in by lia. rewrite (prepared_erased addr m i K10 ltac:(lia) (SEC i ltac:(lia))).
        assert (Q : nth (Z.to_nat (i - st)) t 0 = nth (Z.to_nat (i - addr)) b 0).
        { rewrite <- K6. rewrite <- (firstn_skipn (Z.to_nat k) t) at 1.
          assert (LK : length (firstn (Z.to_nat k) t) = Z.to_nat k) by (apply firstn_length_le; clear - K4 LT; unfold size_of in *; lia).
          rewrite app_nth2; rewrite LK; [|clear - EA I1 K4; lia]. f_equal. clear - EA I1 K4. lia. }
        rewrite Q. apply land_octet. rewrite <- Q. rewrite Forall_forall in K7. apply K7. apply nth_In. clear - I EA I1 LT K4. unfold size_of in *. lia.
    - intros i I. unfold program. pose proof (base_le i) as SI. pose proof (base_le addr) as SA. rewrite range_out by lia. destruct I as [I|I].
      + rewrite prepared_before by lia. apply K9. left. exact I.
      + rewrite prepared_other by lia. apply K9. right. lia.
    - intros i I1 I2. unfold program. rewrite range_out by lia. apply prepared_erased; [exact K10|lia|].
      pose proof (base_le (addr + size_of b - 1)) as SX. rewrite (SEC (addr + size_of b - 1)) in SX by lia. apply base_gap; [lia|]. apply base_mono. lia.
  Qed.
  Lemma kept_append : forall t k u m b, kept t k u m -> is_octet b -> kept (t ++ [b]) k (mk_updater (up_size u) (up_start u) (up_addr u) (up_buf u ++ [b]) (up_error u)) m.
  Proof.
    intros t k u m b (K1 & K2 & K3 & K4 & K5 & K6 & K7 & K8 & K9 & K10) O. pose proof (size_pos (up_buf u)) as PB. unfold kept. cbn [up_size up_start up_addr up_buf]. repeat split; try assumption.
    - rewrite !size_app. lia.
    - rewrite skipn_app, K6. f_equal. replace (Z.to_nat k - length t)%nat with 0%nat by (unfold size_of in *; lia). reflexivity.
    - apply Forall_app. split; [exact K7|constructor; [exact O|constructor]].
    - intros i I. rewrite app_nth1 by (unfold size_of in *; lia). apply K8. exact I.
  Qed.
  Lemma push_opened : forall t u m b, opened t u m -> is_octet b -> size_of t < N ->
    exists u' m', push l (u, m) b = (u', m') /\ opened (t ++ [b]) u' m' /\ up_error u' = up_error u /\ 0 < size_of (up_buf u').
  Proof.
    intros t u m b (k & K & KB & LB & TN) O LN. destruct SL as (B0 & (n & n0 & E) & _). unfold push. cbn [fst].
    destruct (size_of (up_buf u) =? B) eqn:F.
    - destruct (flush l (u, m)) as [u1 m1] eqn:FL. destruct (flush_kept t k u m u1 m1 K KB ltac:(lia) FL) as (K1 & BU & ER).
      do 2 eexists. split; [reflexivity|]. cbn [up_buf up_error]. rewrite BU, ER. cbn [app]. split; [|split; [reflexivity|unfold size_of; cbn; lia]].
      exists (size_of t). assert (Q := kept_append t (size_of t) u1 m1 b K1 O). rewrite BU, ER in Q. cbn [app] in Q. split; [exact Q|].
      destruct K as (_ & _ & _ & _ & K5 & _). split; [|split; [unfold size_of; cbn; lia|rewrite size_app; unfold size_of at 2; cbn [length]; lia]].
      replace (size_of t) with (k + B) by lia. rewrite Z.add_mod, Z.mod_same, KB by lia. reflexivity.
    - do 2 eexists. split; [reflexivity|]. cbn [up_buf up_error]. assert (PB := size_pos (up_buf u)).
      split; [|split; [reflexivity|rewrite size_app; unfold size_of at 2; cbn [length]; lia]].
      exists k. split; [apply kept_append; assumption|]. split; [exact KB|]. cbn [up_buf]. rewrite !size_app. unfold size_of at 2 4. cbn [length]. lia.
  Qed.
  Lemma pushes_opened : forall data t u m, opened t u m -> Forall is_octet data -> size_of t + size_of data <= N -> data <> [] ->
    exists u' m', fold_left (push l) data (u, m) = (u', m') /\ opened (t ++ data) u' m' /\ up_error u' = up_error u /\ 0 < size_of (up_buf u').
  Proof.
    induction data as [|b data IH]; intros t u m O F L NE; [congruence|]. inversion F as [|x y Fb Fd]; subst. clear NE.
    change (b :: data) with ([b] ++ data) in L. rewrite size_app in L. unfold size_of at 2 in L. cbn [length] in L. pose proof (size_pos data) as PD.
    destruct (push_opened t u m b O Fb ltac:(lia)) as (u1 & m1 & E1 & O1 & R1 & B1). cbn [fold_left]. rewrite E1.
    destruct data as [|b2 data]; [exists u1, m1; split; [reflexivity|]; auto|].
    destruct (IH (t ++ [b]) u1 m1 O1 Fd ltac:(rewrite size_app; unfold size_of at 2; cbn [length] in *; lia) ltac:(discriminate)) as (u2 & m2 & E2 & O2 & R2 & B2).
    exists u2, m2. split; [exact E2|]. rewrite <- app_assoc in O2. split; [exact O2|]. split; [congruence|exact B2].
  Qed.
  Lemma kept_progress : forall t k u m, kept t k u m -> progress u = k.
  Proof using. clear SL ST. intros t k u m (_ & K2 & K3 & _). unfold progress. lia. Qed.
  (** A piece that fits *)
  Lemma write_fits : forall data t u m, opened t u m -> up_error u = false -> Forall is_octet data -> size_of t + size_of data <= N -> data <> [] -> 0 < N ->
    exists u' m', up_write l data (u, m) = (u', m', true) /\ up_error u' = false /\
      ((size_of t + size_of data = N /\ closed (t ++ data) u' m') \/ (size_of t + size_of data < N /\ opened (t ++ data) u' m')).
  Proof.
    intros data t u m O ER F L NE N0. pose proof O as (k & K & KB & LB & TN). unfold up_write. rewrite ER. pose proof K as (K1 & K2 & K3 & K4 & K5 & _).
    replace (up_size u =? 0) with false by lia. cbn [orb]. rewrite (kept_progress _ _ _ _ K), K1. replace (k + size_of (up_buf u) + size_of data >? N) with false by lia.
    destruct (pushes_opened data t u m O F L NE) as (u1 & m1 & E1 & O1 & R1 & B1). rewrite E1. cbn [fst]. pose proof O1 as (k1 & Q & QB & QL & QN).
    pose proof Q as (Q1 & _ & _ & _ & Q5 & _). rewrite (kept_progress _ _ _ _ Q), Q1. rewrite size_app in Q5.
    destruct (size_of (up_buf u1) =? N - k1) eqn:G.
    - destruct (flush l (u1, m1)) as [u2 m2] eqn:FL. destruct (flush_kept _ _ _ _ _ _ Q QB ltac:(lia) FL) as (K2' & BU & ER2).
      exists u2, m2. split; [reflexivity|]. split; [congruence|]. left. split; [lia|]. split; [|exact BU]. rewrite size_app in K2'. replace (size_of t + size_of data) with N in K2' by lia. exact K2'.
    - exists u1, m1. split; [reflexivity|]. split; [congruence|]. right. split; [lia|exact O1].
  Qed.
  Lemma opened_start : forall e, 0 <= N -> opened [] (mk_updater N st st [] e) m0.
  Proof.
    intros e N0. destruct SL as (B0 & _). assert (P := sector_pos). exists 0. split; [|split; [apply Z.mod_0_l; lia|split; [unfold size_of; cbn; lia|exact N0]]].
    unfold kept. cbn [up_size up_start up_addr up_buf]. repeat split; try lia; try constructor.
      intros i I1 I2. exfalso. pose proof (proj1 (base_aligned st) ST) as SA. pose proof (base_mono st i ltac:(lia)). lia.
  Qed.
End Running.
