(** Updates down to the flash memory: the theorems. *)
From Coq Require Import ZArith List Bool Lia ZifyBool ZifyNat.
From Verif Require Import Base BaseFacts Publish Config Tic Pages Sse Cpu Web WebSpec Device DevicePages Erfs ErfsSpec Flasher FlasherSpec FlasherProofs.
Import ListNotations.
Open Scope Z_scope.

Lemma kept_protected : forall l st N m1 t k u m i, kept l st N m1 t k u m -> k <= N -> i < st \/ st + N <= base l i -> m i = m1 i.
Proof. intros l st N m1 t k u m i (_ & _ & _ & _ & _ & _ & _ & _ & K9 & _) L I. apply K9. destruct I as [I|I]; [left; exact I|right; lia]. Qed.
Lemma opened_short : forall l st N m1 t u m, opened l st N m1 t u m -> exists k, kept l st N m1 t k u m /\ k mod ly_buffer l = 0 /\ size_of (up_buf u) <= ly_buffer l /\ k <= N /\ size_of t <= N.
Proof.
  intros l st N m1 t u m (k & K & KB & LB & TN). exists k. pose proof K as (_ & _ & _ & _ & K5 & _). pose proof (size_pos (up_buf u)).
  split; [exact K|]. split; [exact KB|]. split; [exact LB|]. split; [lia|exact TN].
Qed.
Lemma closed_end : forall l st N m1 t u m, closed l st N m1 t u m -> size_of t = N.
Proof. intros l st N m1 t u m [(_ & _ & _ & _ & K5 & _) B]. rewrite B in K5. unfold size_of in *. cbn [length] in K5. lia. Qed.

(** ** A whole file for the site *)
Lemma pieces_written : forall l st N m0 pieces t s, sound_layout l -> st mod ly_sector l = 0 -> 0 < N ->
  opened l st N m0 t (mo_upd s) (mo_flash s) -> up_error (mo_upd s) = false ->
  Forall (fun p => snd p <> [] /\ Forall is_octet (snd p)) pieces -> size_of t + size_of (concat (map snd pieces)) = N -> pieces <> [] ->
  exists s', take_parts l (map (fun p : around * list Z => (fst p, Piece (snd p))) pieces) s = (s', map (fun p => UpdateWrite (snd p)) pieces) /\
    mo_dev s' = mo_dev s /\ closed l st N m0 (t ++ concat (map snd pieces)) (mo_upd s') (mo_flash s') /\ up_error (mo_upd s') = false.
Proof.
  intros l st N m0 pieces. induction pieces as [|[a data] pieces IH]; intros t s SL ST N0 O ER F SZ NE; [congruence|]. clear NE.
  inversion F as [|x y [Fn Fo] Fp]; subst x y. cbn [snd fst] in *. cbn [map concat fst snd] in *. rewrite size_app in SZ. pose proof (size_pos (concat (map snd pieces))) as PC.
  destruct s as [d u m]. cbn [mo_upd mo_flash mo_dev] in *.
  destruct (write_fits l SL st N m0 ST data t u m O ER Fo ltac:(lia) Fn N0) as (u1 & m1 & W & E1 & CS). cbn [take_parts]. unfold take_part. cbn [mo_dev mo_upd mo_flash]. rewrite W.
  cbn [handle_upload fst snd]. destruct pieces as [|p pieces].
  - cbn [map take_parts concat app] in *. rewrite app_nil_r. eexists. split; [reflexivity|]. cbn [mo_dev mo_upd mo_flash]. split; [reflexivity|]. split; [|exact E1].
    destruct CS as [[_ C]|[L _]]; [exact C|]. exfalso. unfold size_of in SZ at 3. cbn [length] in SZ. lia.
  - assert (PP : 0 < size_of (concat (map snd (p :: pieces)))).
    { inversion Fp as [|x y [Pn _] _]; subst. cbn [map concat]. rewrite size_app. pose proof (size_pos (concat (map snd pieces))). destruct (snd p); [congruence|]. unfold size_of at 1. cbn [length]. lia. }
    destruct CS as [[X _]|[L O1]]; [exfalso; lia|].
    destruct (IH (t ++ data) (mk_module d u1 m1) SL ST N0 O1 E1 Fp ltac:(rewrite size_app; lia) ltac:(discriminate)) as (s2 & T & D2 & C2 & E2).
    rewrite T. exists s2. split; [reflexivity|]. split; [exact D2|]. split; [rewrite <- app_assoc in C2; exact C2|exact E2].
Qed.
Lemma parts_app : forall l a b s, take_parts l (a ++ b) s = let '(s1, o1) := take_parts l a s in let '(s2, o2) := take_parts l b s1 in (s2, o1 ++ o2).
Proof.
  intros l a. induction a as [|[x p] a IH]; intros b s; cbn [app take_parts]; [destruct (take_parts l b s); reflexivity|].
  destruct (take_part l x p s) as [s1 o1]. rewrite IH. destruct (take_parts l a s1) as [s2 o2]. destruct (take_parts l b s2) as [s3 o3]. rewrite app_assoc. reflexivity.
Qed.
Lemma rounded_whole : forall l n, 0 < ly_sector l -> n mod ly_sector l = 0 -> rounded_up l n = n.
Proof.
  intros l n P M. unfold rounded_up. assert (D : n = ly_sector l * (n / ly_sector l)) by (apply Z.div_exact; lia). set (q := n / ly_sector l) in *. clearbody q. subst n.
  replace (ly_sector l * q + ly_sector l - 1) with ((ly_sector l - 1) + q * ly_sector l) by lia. rewrite Z.div_add, Z.div_small by lia. lia.
Qed.
Lemma rounded_above : forall l n, 0 < ly_sector l -> n <= rounded_up l n /\ rounded_up l n mod ly_sector l = 0.
Proof.
  intros l n P. unfold rounded_up. assert (M := Z.div_mod (n + ly_sector l - 1) (ly_sector l) ltac:(lia)). assert (R := Z.mod_pos_bound (n + ly_sector l - 1) (ly_sector l) P).
  split; [lia|]. apply Z.mod_mul. lia.
Qed.
Lemma site_contains : forall name, for_site name -> contains (str "fs.bin") name = true.
Proof. intros name H. apply contains_iff. exact H. Qed.
Lemma program_contains : forall name, ~ for_site name -> contains (str "fs.bin") name = false.
Proof. intros name H. destruct (contains (str "fs.bin") name) eqn:E; [|reflexivity]. exfalso. apply H. apply contains_iff. exact E. Qed.

Lemma site_written : forall l name len a pieces a' s image, sound_layout l -> for_site name -> a_fs_size a = ly_fs_size l -> up_size (mo_upd s) = 0 ->
  Forall (fun p => snd p <> [] /\ Forall is_octet (snd p)) pieces -> concat (map snd pieces) = image -> size_of image = ly_fs_size l ->
  exists s', take_parts l (whole name len a pieces a') s =
      (s', UpdateBegin true (ly_fs_size l) :: map (fun p => UpdateWrite (snd p)) pieces ++ [UpdateEnd true; Reply 200 Text (str "OK")]) /\
    (forall i, 0 <= i < ly_fs_size l -> mo_flash s' (ly_fs l + i) = nth (Z.to_nat i) image 0) /\
    (forall i, ~ in_partition l i -> mo_flash s' i = mo_flash s i) /\
    mo_dev s' = with_upload false true (mo_dev s) /\ up_size (mo_upd s') = 0.
Proof.
  intros l name len a pieces a' s image SL FS AS ID F CI SZ. pose proof SL as (B0 & (n & n0 & E) & FA & FM & SK & FS0 & _). assert (SP := sector_pos l SL).
  unfold whole. cbn [take_parts]. destruct s as [d u m]. unfold take_part at 1. cbn [mo_dev mo_upd mo_flash] in *. rewrite (site_contains name FS), AS. unfold up_begin. rewrite ID.
  change (0 <? 0) with false. cbv iota. replace (ly_fs_size l =? 0) with false by lia. rewrite (rounded_whole l _ SP FM).
  replace (ly_fs l + ly_fs_size l >? ly_fs l + ly_fs_size l) with false by lia. cbv iota beta. cbn [fst snd]. cbn [handle_upload]. rewrite (site_contains name FS), AS.
  rewrite parts_app.
  assert (O := opened_start l SL (ly_fs l) (ly_fs_size l) m FA false ltac:(lia)).
  destruct (pieces_written l (ly_fs l) (ly_fs_size l) m pieces [] (mk_module (with_upload true false d) (mk_updater (ly_fs_size l) (ly_fs l) (ly_fs l) [] false) m) SL FA FS0 O eq_refl F) as (s2 & T & D2 & C2 & E2).
  { rewrite CI, SZ. reflexivity. }
  { intros ->. cbn [map concat] in CI. subst image. unfold size_of in SZ. cbn [length] in SZ. lia. }
  rewrite T. cbn [app] in C2. rewrite CI in C2. destruct s2 as [d2 u2 m2]. cbn [mo_dev mo_upd mo_flash] in *. pose proof C2 as [K BU].
  cbn [take_parts]. unfold take_part. cbn [mo_dev mo_upd mo_flash]. unfold up_end. pose proof K as (K1 & _). rewrite K1. replace (ly_fs_size l =? 0) with false by lia.
  rewrite E2, (kept_progress _ _ _ _ _ _ _ _ K). cbn [orb]. replace (ly_fs_size l =? 0) with false by lia. rewrite Z.eqb_refl. cbn [negb andb orb]. rewrite BU.
  change (true && (0 <? size_of (@nil Z))) with false. cbv iota. cbn [snd fst handle_upload update_finish].
  eexists. split; [cbn [app]; reflexivity|]. cbn [mo_dev mo_upd mo_flash]. split; [|split; [|split]].
  - intros i I. destruct K as (_ & _ & _ & _ & _ & _ & _ & K8 & _). rewrite K8 by lia. f_equal. lia.
  - intros i I. apply (kept_protected l _ _ _ _ _ _ _ i K); [lia|]. unfold in_partition in I.
    destruct (Z_lt_ge_dec i (ly_fs l)) as [L|L]; [left; exact L|right].
    assert (Q : (ly_fs l + ly_fs_size l) mod ly_sector l = 0) by (rewrite Z.add_mod, FA, FM by lia; reflexivity).
    apply (base_aligned l SL) in Q. pose proof (base_mono l SL (ly_fs l + ly_fs_size l) i ltac:(lia)). lia.
  - rewrite D2. reflexivity.
  - reflexivity.
Qed.

(** ** Whatever is posted *)
Section Protected.
  Variable l : layout.
  Hypothesis SL : sound_layout l.
  Variable Pr : Z -> Prop.
  Definition off (st N : Z) : Prop := forall i, Pr i -> i < st \/ st + N <= base l i.
  Definition steady (u : updater) (m : Z -> Z) : Prop :=
    up_size u = 0 \/ exists st N m1 t, st mod ly_sector l = 0 /\ 0 < N /\ off st N /\ (opened l st N m1 t u m \/ closed l st N m1 t u m).
  Definition same (m m' : Z -> Z) : Prop := forall i, Pr i -> m' i = m i.
  Lemma flush_steady : forall st N m1 t u m u' m', st mod ly_sector l = 0 -> off st N -> opened l st N m1 t u m -> 0 < size_of (up_buf u) -> flush l (u, m) = (u', m') -> same m m'.
  Proof.
    intros st N m1 t u m u' m' ST OF O BU FL i I. destruct (opened_short _ _ _ _ _ _ _ O) as (k & K & KB & LB & KN & TN).
    destruct (flush_kept l SL st N m1 ST t k u m u' m' K KB ltac:(lia) FL) as (K' & _). specialize (OF i I).
    rewrite (kept_protected _ _ _ _ _ _ _ _ i K' TN OF). symmetry. exact (kept_protected _ _ _ _ _ _ _ _ i K KN OF).
  Qed.
  Lemma write_steady : forall data u m u' m' ok, steady u m -> data <> [] -> Forall is_octet data -> up_write l data (u, m) = (u', m', ok) -> steady u' m' /\ same m m'.
  Proof.
    intros data u m u' m' ok S NE F W. unfold up_write in W. destruct (up_error u || (up_size u =? 0)) eqn:EI.
    { injection W as <- <- _. split; [exact S|intros i I; reflexivity]. }
    apply orb_false_iff in EI. destruct EI as [ER SZ]. destruct S as [S|(st & N & m1 & t & ST & N0 & OF & OC)]; [rewrite S in SZ; discriminate|].
    destruct (progress u + size_of (up_buf u) + size_of data >? up_size u) eqn:TL.
    { injection W as <- <- _. split; [right; exists st, N, m1, t; split; [exact ST|]; split; [exact N0|]; split; [exact OF|exact OC]|intros i I; reflexivity]. }
    assert (LD : 0 < size_of data) by (destruct data; [congruence|unfold size_of; cbn [length]; lia]).
    destruct OC as [O|C].
    - destruct (opened_short _ _ _ _ _ _ _ O) as (k & K & KB & LB & KN & TN). pose proof K as (K1 & _ & _ & _ & K5 & _). pose proof (kept_progress _ _ _ _ _ _ _ _ K) as PR.
      destruct (write_fits l SL st N m1 ST data t u m O ER F ltac:(lia) NE N0) as (u1 & m2 & W1 & E1 & CS).
      assert (WW : up_write l data (u, m) = (u', m', ok)) by (unfold up_write; rewrite ER, SZ, TL; exact W). rewrite W1 in WW.
      assert (u1 = u' /\ m2 = m') as [-> ->] by (split; congruence). split.
      + right. exists st, N, m1, (t ++ data). split; [exact ST|]. split; [exact N0|]. split; [exact OF|]. destruct CS as [[_ C]|[_ O1]]; [right; exact C|left; exact O1].
      + intros i I. specialize (OF i I). rewrite (kept_protected _ _ _ _ _ _ _ _ i K KN OF). destruct CS as [[_ [C _]]|[_ O1]].
        * exact (kept_protected _ _ _ _ _ _ _ _ i C ltac:(lia) OF).
        * destruct (opened_short _ _ _ _ _ _ _ O1) as (k1 & Q & _ & _ & QN & _). exact (kept_protected _ _ _ _ _ _ _ _ i Q QN OF).
    - exfalso. destruct C as [K BU]. pose proof K as (K1 & _). rewrite (kept_progress _ _ _ _ _ _ _ _ K), K1, BU in TL. unfold size_of in TL at 1. cbn [length] in TL. lia.
  Qed.
  Lemma end_steady : forall even u m u' m' ok, steady u m -> up_end l even (u, m) = (u', m', ok) -> steady u' m' /\ same m m'.
  Proof.
    intros even u m u' m' ok S W. unfold up_end in W. destruct (up_size u =? 0) eqn:SZ; [injection W as <- <- _; split; [exact S|intros i I; reflexivity]|].
    cbv zeta in W. destruct (_ || _) in W; [injection W as <- <- _; split; [left; reflexivity|intros i I; reflexivity]|].
    destruct (even && (0 <? size_of (up_buf u))) eqn:EV; [|injection W as <- <- _; split; [left; reflexivity|intros i I; reflexivity]].
    destruct (flush l (u, m)) as [u2 m2] eqn:FL. injection W as <- <- _. split; [left; reflexivity|]. destruct S as [S|(st & N & m1 & t & ST & N0 & OF & OC)]; [rewrite S in SZ; discriminate|].
    apply andb_true_iff in EV. destruct EV as [_ EV]. destruct OC as [O|[_ BU]]; [|rewrite BU in EV; discriminate].
    exact (flush_steady st N m1 t u m u2 m2 ST OF O ltac:(lia) FL).
  Qed.
  Variable allowed : list Z -> Prop.
  Hypothesis AL : forall name st N, allowed name -> 0 < N -> st mod ly_sector l = 0 ->
    (if contains (str "fs.bin") name then st = ly_fs l /\ rounded_up l N <= ly_fs_size l else ly_sketch l <= st /\ st + rounded_up l N = ly_fs l) -> off st N.
  Lemma begin_steady : forall name size u m u' ok, allowed name -> 0 <= size -> steady u m -> up_begin l (contains (str "fs.bin") name) size u = (u', ok) -> steady u' m.
  Proof.
    intros name size u m u' ok A S0 S BG. unfold up_begin in BG. pose proof SL as (_ & _ & FA & FM & SK & FS0 & _). assert (SP := sector_pos l SL).
    destruct (0 <? up_size u) eqn:SU; [injection BG as <- _; exact S|]. destruct (size =? 0) eqn:SZ; [injection BG as <- _; left; reflexivity|]. cbv zeta in BG.
    destruct (rounded_above l size SP) as [R1 R2].
    destruct (contains (str "fs.bin") name) eqn:CN.
    - destruct (_ >? _) eqn:TL in BG; [injection BG as <- _; left; reflexivity|]. injection BG as <- _. right. exists (ly_fs l), size, m, [].
      split; [exact FA|]. split; [lia|]. split; [|left; apply opened_start; [exact SL|exact FA|lia]].
      apply (AL name); [exact A|lia|exact FA|]. rewrite CN. split; [reflexivity|lia].
    - destruct (ly_fs l >? rounded_up l size) eqn:TL.
      + destruct (_ <? _) eqn:TS in BG; [injection BG as <- _; left; reflexivity|]. injection BG as <- _.
        assert (ST : (ly_fs l - rounded_up l size) mod ly_sector l = 0) by (rewrite Zminus_mod, FA, R2; reflexivity).
        right. exists (ly_fs l - rounded_up l size), size, m, []. split; [exact ST|]. split; [lia|]. split; [|left; apply opened_start; [exact SL|exact ST|lia]].
        apply (AL name); [exact A|lia|exact ST|]. rewrite CN. lia.
      + replace (0 <? ly_sketch l) with true in BG by lia. injection BG as <- _. left. reflexivity.
  Qed.
  Lemma part_steady : forall a p s s' o, fair (a, p) -> match p with Begins name _ => allowed name | _ => True end -> steady (mo_upd s) (mo_flash s) -> take_part l a p s = (s', o) ->
    steady (mo_upd s') (mo_flash s') /\ same (mo_flash s) (mo_flash s').
  Proof.
    intros a p [d u m] s' o FR A S T. cbn [mo_upd mo_flash] in *. unfold take_part in T. cbn [mo_dev mo_upd mo_flash] in T. destruct p as [name len|data| |]; cbn [fair snd fst] in FR.
    - destruct (up_begin l (contains (str "fs.bin") name) (if contains (str "fs.bin") name then a_fs_size a else len) u) as [u1 ok] eqn:BG.
      assert (S1 : steady u1 m) by (apply (begin_steady name _ u m u1 ok A) in BG; [exact BG|destruct (contains (str "fs.bin") name); lia|exact S]).
      destruct ok.
      + destruct (handle_upload _ _ _) as [d' o'] in T. injection T as <- _. split; [exact S1|intros i I; reflexivity].
      + destruct (up_end l false (u1, m)) as [[u2 m2] ended] eqn:EN. destruct (handle_upload _ _ _) as [d' o'] in T. injection T as <- _. exact (end_steady false u1 m u2 m2 ended S1 EN).
    - destruct FR as [NE F]. destruct (up_write l data (u, m)) as [[u1 m1] ok] eqn:W. destruct (write_steady data u m u1 m1 ok S NE F W) as [S1 M1]. destruct ok.
      + destruct (handle_upload _ _ _) as [d' o'] in T. injection T as <- _. split; assumption.
      + destruct (up_end l false (u1, m1)) as [[u2 m2] ended] eqn:EN. destruct (handle_upload _ _ _) as [d' o'] in T. injection T as <- _. cbn [mo_upd mo_flash fst snd].
        destruct (end_steady false u1 m1 u2 m2 ended S1 EN) as [S2 M2]. split; [exact S2|]. intros i I. rewrite (M2 i I). exact (M1 i I).
    - destruct (up_end l true (u, m)) as [[u2 m2] ended] eqn:EN. destruct (handle_upload _ _ _) as [d' o'] in T. injection T as <- _. exact (end_steady true u m u2 m2 ended S EN).
    - destruct (up_end l false (u, m)) as [[u2 m2] ended] eqn:EN. destruct (handle_upload _ _ _) as [d' o'] in T. injection T as <- _. exact (end_steady false u m u2 m2 ended S EN).
  Qed.
  Lemma parts_steady : forall ps s s' o, Forall fair ps -> (forall a name len, In (a, Begins name len) ps -> allowed name) -> steady (mo_upd s) (mo_flash s) ->
    take_parts l ps s = (s', o) -> same (mo_flash s) (mo_flash s').
  Proof.
    induction ps as [|[a p] ps IH]; intros s s' o F A S T; [injection T as <- _; intros i I; reflexivity|]. inversion F as [|x y Fp Fs]; subst. cbn [take_parts] in T.
    destruct (take_part l a p s) as [s1 o1] eqn:P. destruct (take_parts l ps s1) as [s2 o2] eqn:R. injection T as <- _.
    destruct (part_steady a p s s1 o1 Fp) as [S1 M1]; [destruct p; try exact Logic.I; eapply A; left; reflexivity|exact S|exact P|].
    intros i I. rewrite (IH s1 s2 o2 Fs ltac:(intros; eapply A; right; eassumption) S1 R i I). exact (M1 i I).
  Qed.
End Protected.

Lemma base_end : forall l i x, sound_layout l -> x mod ly_sector l = 0 -> x <= i -> x <= base l i.
Proof. intros l i x SL M L. apply (base_aligned l SL) in M. pose proof (base_mono l SL x i L). lia. Qed.
(** Neither the running program nor what comes after the partition (the settings) *)
Lemma rest_kept : forall l ps s s' o, sound_layout l -> up_size (mo_upd s) = 0 -> Forall fair ps -> take_parts l ps s = (s', o) ->
  forall i, i < ly_sketch l \/ ly_fs l + ly_fs_size l <= i -> mo_flash s' i = mo_flash s i.
Proof.
  intros l ps s s' o SL ID F T. pose proof SL as (_ & _ & FA & FM & SK & FS0 & _). assert (SP := sector_pos l SL).
  assert (FE : (ly_fs l + ly_fs_size l) mod ly_sector l = 0) by (rewrite Z.add_mod, FA, FM by lia; reflexivity).
  apply (parts_steady l SL (fun i => i < ly_sketch l \/ ly_fs l + ly_fs_size l <= i) (fun _ => True)) with (ps := ps) (s := s) (s' := s') (o := o); auto.
  - intros name st N _ N0 ST C i I. destruct (rounded_above l N SP) as [R1 _]. destruct (contains (str "fs.bin") name).
    + destruct C as [-> C]. destruct I as [I|I]; [left; lia|right]. pose proof (base_end l i _ SL FE I). lia.
    + destruct C as [C1 C2]. destruct I as [I|I]; [left; lia|right]. pose proof (base_end l i _ SL FE I). lia.
  - left. exact ID.
Qed.
(** A program leaves the site as it is. *)
Lemma site_kept : forall l ps s s' o, sound_layout l -> up_size (mo_upd s) = 0 -> Forall fair ps -> (forall a name len, In (a, Begins name len) ps -> ~ for_site name) ->
  take_parts l ps s = (s', o) -> forall i, in_partition l i -> mo_flash s' i = mo_flash s i.
Proof.
  intros l ps s s' o SL ID F A T. pose proof SL as (_ & _ & FA & FM & SK & FS0 & _). assert (SP := sector_pos l SL).
  apply (parts_steady l SL (in_partition l) (fun name => ~ for_site name)) with (ps := ps) (s := s) (s' := s') (o := o); auto.
  - intros name st N NF N0 ST C i I. rewrite (program_contains name NF) in C. destruct C as [C1 C2]. destruct (rounded_above l N SP) as [R1 _]. right.
    pose proof (base_end l i _ SL FA (proj1 I)). lia.
  - left. exact ID.
Qed.
