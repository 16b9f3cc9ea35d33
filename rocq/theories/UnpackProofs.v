(** Proofs about the unpacking of an image. *)
From Coq Require Import ZArith List Bool Lia.
From Verif Require Import Base BaseFacts Json Clock Erfs ErfsSpec ErfsProofs Prep PrepProofs JsonBuildFacts FormMain Unpack UnpackSpec.
From Verif Require Srv SrvSpec SrvFinal.
Import ListNotations.
Open Scope Z_scope.

Lemma part_mid : forall a b c ptr n, size_of a = ptr -> size_of b = n -> part (a ++ b ++ c) ptr n = b.
Proof.
  intros a b c ptr n A B. unfold part, slice, size_of in *. rewrite skipn_app, (skipn_all2 a) by lia.
  replace (Z.to_nat ptr - length a)%nat with O by lia. cbn [skipn app]. rewrite firstn_app, firstn_all2 by lia.
  replace (Z.to_nat n - length b)%nat with O by lia. cbn [firstn]. apply app_nil_r.
Qed.
Lemma skipn_mid : forall (a b : list Z) ptr, size_of a = ptr -> skipn (Z.to_nat ptr) (a ++ b) = b.
Proof. intros a b ptr A. unfold size_of in A. rewrite skipn_app, (skipn_all2 a) by lia. replace (Z.to_nat ptr - length a)%nat with O by lia. reflexivity. Qed.

(** ** The records *)
Fixpoint described (files : list source) (np dp : Z) (rs : list (list Z)) : Prop :=
  match files, rs with
  | [], [] => True
  | f :: fl, r :: rl =>
      rec_name r = np /\ rec_data r = dp /\ rec_len r = size_of (src_data f) /\ rec_time r = src_time f /\
      described fl (np + name_room f) (dp + data_room f) rl
  | _, _ => False
  end.
Lemma read_table_ok : forall files np dp fat pre post off, fat_table files np dp = Some fat -> size_of pre = off ->
  exists rs, read_table (length files) off (pre ++ fat ++ post) = Some rs /\ described files np dp rs.
Proof.
  induction files as [|f files IH]; intros np dp fat pre post off F P; cbn [fat_table] in F.
  - exists []. split; [reflexivity|exact I].
  - destruct (pack_I np) as [a|] eqn:A; [|discriminate]. destruct (pack_I dp) as [b|] eqn:B; [|discriminate].
    destruct (pack_I (size_of (src_data f))) as [c|] eqn:C; [|discriminate]. destruct (pack_I (src_time f)) as [d|] eqn:D; [|discriminate].
    rewrite !py_align in F by (pose proof (size_nonneg _ (src_name f)); pose proof (size_nonneg _ (src_data f)); lia).
    fold (name_room f) in F. fold (data_room f) in F.
    destruct (fat_table files (np + name_room f) (dp + data_room f)) as [t|] eqn:T; [|discriminate].
    assert (fat = (a ++ b ++ c ++ d) ++ t) by (inversion F; rewrite <- !app_assoc; reflexivity). subst fat. clear F.
    apply pack_I_facts in A, B, C, D.
    assert (R : size_of (a ++ b ++ c ++ d) = 16) by (rewrite !size_app; lia).
    destruct (IH _ _ _ (pre ++ (a ++ b ++ c ++ d)) post (off + 16) T) as (rs & RT & DS); [rewrite size_app; lia|].
    exists ((a ++ b ++ c ++ d) :: rs). split.
    + cbn [length read_table]. cbv zeta.
      rewrite <- (app_assoc (a ++ b ++ c ++ d) t post). rewrite (part_mid pre (a ++ b ++ c ++ d) (t ++ post) off 16) by auto. rewrite R. cbv iota beta.
      change (16 =? 16) with true. cbv iota.
      rewrite <- (app_assoc pre) in RT. rewrite RT. reflexivity.
    + cbn [described]. split; [|split; [|split; [|split]]]; auto.
      * unfold rec_name. rewrite word32_app by lia. lia.
      * unfold rec_data. rewrite (skipn_size a) by lia. rewrite word32_app by lia. lia.
      * unfold rec_len. rewrite app_assoc, (skipn_size (a ++ b)) by (rewrite size_app; lia). rewrite word32_app by lia. lia.
      * unfold rec_time. rewrite !app_assoc, (skipn_size ((a ++ b) ++ c)) by (rewrite !size_app; lia). lia.
Qed.

(** ** Names *)
Lemma get_string_end : forall n rest, Forall (fun c => c <> 0) n -> get_string (n ++ 0 :: rest) = renamed n.
Proof.
  induction n as [|c n IH]; intros rest H; cbn [app get_string]; [reflexivity|]. inversion H; subst.
  replace (c =? 0) with false by lia. rewrite IH by auto. reflexivity.
Qed.
Lemma dec_aux_length : forall f n acc, (length acc <= length (dec_aux f n acc))%nat.
Proof. induction f; intros n acc; cbn [dec_aux]; auto. cbv zeta. destruct (n <? 10); [cbn [length]; lia|]. etransitivity; [|apply IHf]. cbn [length]. lia. Qed.
Lemma piece_length : forall c, 0 < c < 256 -> let p := if c <? 32 then [60] ++ dec c ++ [62] else utf8_of c in
  (1 <= length p)%nat /\ (32 <= c < 128 -> p = [c]) /\ (~ 32 <= c < 128 -> (2 <= length p)%nat).
Proof.
  intros c C p. subst p. destruct (Z.ltb_spec c 32).
  - rewrite !app_length. cbn [length]. split; [lia|]. split; lia.
  - unfold utf8_of. destruct (Z.ltb_spec c 128); [cbn [length]; split; [lia|]; split; [auto|lia]|].
    replace (c <? 2048) with true by lia. cbn [length]. split; [lia|]. split; lia.
Qed.
Lemma renamed_same : forall n, Forall (fun c => 0 < c < 256) n -> renamed n = n <-> printable n.
Proof.
  intros n H.
  assert (G : (length n <= length (renamed n))%nat /\ (length (renamed n) = length n <-> printable n) /\ (printable n -> renamed n = n)).
  { induction H as [|c n C H IH]; [cbn; split; [lia|]; split; [|auto]; split; [constructor|auto]|].
    destruct IH as (I1 & I2 & I3). pose proof (piece_length c C) as P. cbv zeta in P. unfold renamed in *. cbn [flat_map].
    set (p := if c <? 32 then [60] ++ dec c ++ [62] else utf8_of c) in *. rewrite app_length. cbn [length]. destruct P as (P1 & P2 & P3).
    split; [lia|]. split; [split|].
    - intros L. assert (Q : 32 <= c < 128) by (destruct (Z_le_dec 32 c); [destruct (Z_lt_dec c 128); [lia|]|]; specialize (P3 ltac:(lia)); lia).
      constructor; auto. apply I2. lia.
    - intros L. inversion L; subst. rewrite (P2 ltac:(auto)) in *. apply I2 in H3. cbn [length]. lia.
    - intros L. inversion L; subst. rewrite (P2 ltac:(auto)). rewrite I3 by auto. reflexivity. }
  destruct G as (_ & G1 & G2). split; [intros E; apply G1; rewrite E; reflexivity|exact G2].
Qed.

(** ** The image *)
Lemma image_shape : forall files size image rest, directory files -> create files size = Packed image ->
  exists n hashes fat tail, image ++ rest = (str "ERFS" ++ [3; 2] ++ n) ++ hashes ++ pad2 files ++ fat ++ name_table files ++ data_table files ++ tail /\
    pack_H (size_of files) = Some n /\ hash_table files = Some hashes /\ fat_table files (names_start files) (data_at files []) = Some fat.
Proof.
  intros files size image rest D C. pose proof (c43 files size) as K. rewrite C in K. destruct K as (_ & _ & w & W & _ & E).
  destruct (written_inv _ _ W) as (n & h & fat & -> & N & H & F). exists n, h, fat, (zeros (size - image_end files) ++ rest).
  split; [|auto]. rewrite E. rewrite <- !app_assoc. reflexivity.
Qed.
Lemma opened_image : forall files size image rest, directory files -> create files size = Packed image ->
  exists rs, open_image (image ++ rest) = Table (3, 2) rs /\ length rs = length files /\ described files (names_start files) (data_at files []) rs /\
    exists a b c d, image ++ rest = a ++ name_table files ++ b /\ size_of a = names_start files /\
      image ++ rest = c ++ data_table files ++ d /\ size_of c = data_at files [].
Proof.
  intros files size image rest D C. destruct (image_shape _ _ _ rest D C) as (n & h & fat & tail & E & N & H & F).
  pose proof (hash_size _ _ H) as HS. pose proof (fat_size _ _ _ _ F) as FS. pose proof (pad2_size files) as PS. pose proof (name_size files) as NS.
  pose proof (pack_H_facts _ _ N) as (NR & N2 & NV & NB). pose proof (size_nonneg _ files) as Z0.
  assert (H6 : size_of (str "ERFS" ++ [3; 2]) = 6) by reflexivity.
  assert (H8 : size_of (str "ERFS" ++ [3; 2] ++ n) = 8) by (rewrite !size_app; change (size_of (str "ERFS")) with 4; change (size_of [3; 2]) with 2; lia).
  rewrite E.
  destruct (read_table_ok files _ _ fat ((str "ERFS" ++ [3; 2] ++ n) ++ h ++ pad2 files) (name_table files ++ data_table files ++ tail) (8 + round4 (2 * size_of files)) F) as (rs & RT & DS).
  { rewrite size_app, H8, size_app. lia. }
  assert (L : length rs = length files).
  { clear -DS. revert DS. generalize (names_start files) (data_at files []). revert rs. induction files as [|f fl IH]; intros [|r rl] np dp DS; cbn in DS; try easy.
    destruct DS as (_ & _ & _ & _ & DS). cbn. f_equal. eapply IH; eauto. }
  exists rs. split; [|split; [exact L|split; [exact DS|]]].
  - unfold open_image.
    assert (SZ : size_of ((str "ERFS" ++ [3; 2] ++ n) ++ h ++ pad2 files ++ fat ++ name_table files ++ data_table files ++ tail) >= 8 + 2 * size_of files).
    { rewrite size_app, H8, size_app. pose proof (size_nonneg _ (pad2 files ++ fat ++ name_table files ++ data_table files ++ tail)). lia. }
    set (im := (str "ERFS" ++ [3; 2] ++ n) ++ h ++ pad2 files ++ fat ++ name_table files ++ data_table files ++ tail) in *.
    replace (size_of im <? 8) with false by lia.
    assert (P0 : part im 0 4 = str "ERFS") by reflexivity. rewrite P0, beq_refl. cbv iota beta delta [negb].
    assert (P6 : part im 6 2 = n).
    { unfold im. replace ((str "ERFS" ++ [3; 2] ++ n) ++ h ++ pad2 files ++ fat ++ name_table files ++ data_table files ++ tail)
        with ((str "ERFS" ++ [3; 2]) ++ n ++ (h ++ pad2 files ++ fat ++ name_table files ++ data_table files ++ tail)) by (rewrite <- !app_assoc; reflexivity).
      apply part_mid; auto. }
    rewrite P6, NV. cbv zeta. replace (size_of im <? 8 + 2 * size_of files) with false by lia.
    rewrite py_align by lia. replace (round4 (8 + 2 * size_of files)) with (8 + round4 (2 * size_of files)).
    2: { unfold round4. replace (8 + 2 * size_of files + 3) with (2 * 4 + (2 * size_of files + 3)) by lia. rewrite Z.div_add_l by lia. lia. }
    replace (Z.to_nat (size_of files)) with (length files) by (unfold size_of; lia).
    replace im with (((str "ERFS" ++ [3; 2] ++ n) ++ h ++ pad2 files) ++ fat ++ name_table files ++ data_table files ++ tail).
    2: { unfold im. rewrite <- !app_assoc. reflexivity. }
    rewrite RT. reflexivity.
  - exists ((str "ERFS" ++ [3; 2] ++ n) ++ h ++ pad2 files ++ fat), (data_table files ++ tail), ((str "ERFS" ++ [3; 2] ++ n) ++ h ++ pad2 files ++ fat ++ name_table files), tail.
    split; [rewrite <- !app_assoc; reflexivity|]. split; [rewrite !(size_app _ (_ ++ _)), H8, !size_app; unfold names_start; lia|].
    split; [rewrite <- !app_assoc; reflexivity|]. rewrite !(size_app _ (_ ++ _)), H8, !size_app. unfold data_at, names_start. cbn [map]. change (sum []) with 0. lia.
Qed.

(** ** The loops *)
Lemma name_here : forall f rest, regular f -> exists c s, src_name f ++ zeros (py_align32 (size_of (src_name f) + 1) - size_of (src_name f)) ++ rest = c :: s /\
  c <> 0 /\ get_string (c :: s) = renamed (src_name f).
Proof.
  intros f rest (NE & B & _). pose proof (name_room_facts f) as R. unfold name_room in R. rewrite py_align by (pose proof (size_nonneg _ (src_name f)); lia).
  assert (Zs : exists k, zeros (round4 (size_of (src_name f) + 1) - size_of (src_name f)) = 0 :: k).
  { unfold zeros. destruct (Z.to_nat (round4 (size_of (src_name f) + 1) - size_of (src_name f))) as [|m] eqn:M; [lia|]. cbn [repeat]. eauto. }
  destruct Zs as [k ->]. assert (G : get_string (src_name f ++ (0 :: k) ++ rest) = renamed (src_name f)).
  { cbn [app]. apply get_string_end. eapply Forall_impl; [|exact B]. cbn. intros; lia. }
  destruct (src_name f) as [|c s]; [congruence|]. exists c, (s ++ (0 :: k) ++ rest). inversion B; subst. split; [reflexivity|]. split; [lia|exact G].
Qed.
Definition kept_copy (z : zone) (f : source) : taken := mk_taken (renamed (src_name f)) (src_data f) (z_mktime z (z_local z (src_time f))).
Lemma take_ok : forall z sel fs files rs np dp a b c d, Forall regular files -> described files np dp rs ->
  fs = a ++ name_table files ++ b -> size_of a = np -> fs = c ++ data_table files ++ d -> size_of c = dp ->
  take z sel fs rs = (map (kept_copy z) (filter (fun f => sel (renamed (src_name f))) files), Complete) /\
  forall i, list_lines z fs i rs = listing z i files.
Proof.
  intros z sel fs. induction files as [|f files IH]; intros [|r rs] np dp a b c d R D E1 A E2 C; cbn [described] in D; try easy.
  inversion R; subst x l. destruct D as (D1 & D2 & D3 & D4 & D5).
  assert (N1 : name_table (f :: files) = (src_name f ++ zeros (py_align32 (size_of (src_name f) + 1) - size_of (src_name f))) ++ name_table files) by reflexivity.
  assert (N2 : data_table (f :: files) = (src_data f ++ zeros (py_align32 (size_of (src_data f)) - size_of (src_data f))) ++ data_table files) by reflexivity.
  pose proof (name_room_facts f) as R1. pose proof (data_room_facts f) as R2. pose proof (size_nonneg _ (src_name f)). pose proof (size_nonneg _ (src_data f)).
  destruct (IH rs (np + name_room f) (dp + data_room f) (a ++ src_name f ++ zeros (py_align32 (size_of (src_name f) + 1) - size_of (src_name f))) b
    (c ++ src_data f ++ zeros (py_align32 (size_of (src_data f)) - size_of (src_data f))) d) as [I1 I2]; auto.
  - rewrite E1, N1. rewrite <- !app_assoc. reflexivity.
  - rewrite !size_app. rewrite py_align by lia. fold (name_room f). rewrite size_zeros by (unfold name_room in *; lia). unfold name_room; lia.
  - rewrite E2, N2. rewrite <- !app_assoc. reflexivity.
  - rewrite !size_app. rewrite py_align by lia. fold (data_room f). rewrite size_zeros by (unfold data_room in *; lia). unfold data_room; lia.
  - assert (SK : skipn (Z.to_nat (rec_name r)) fs = src_name f ++ zeros (py_align32 (size_of (src_name f) + 1) - size_of (src_name f)) ++ name_table files ++ b).
    { rewrite D1, E1, N1. rewrite skipn_mid by auto. rewrite <- !app_assoc. reflexivity. }
    destruct (name_here f (name_table files ++ b) H1) as (x & s & NE & X & G). rewrite NE in SK.
    assert (CT : content fs r = src_data f).
    { unfold content. rewrite D2, D3, E2, N2. rewrite <- !app_assoc. apply part_mid; auto. }
    split.
    + cbn [take]. rewrite SK. replace (x =? 0) with false by lia. cbv zeta. rewrite G, I1, CT, D4. cbn [filter]. destruct (sel (renamed (src_name f))); reflexivity.
    + intros i. cbn [list_lines listing]. rewrite SK. replace (x =? 0) with false by lia. rewrite G, D3, D4, I2. reflexivity.
Qed.
Lemma taken_files : forall z sel files size image rest, directory files -> create files size = Packed image ->
  exists rs, open_image (image ++ rest) = Table (3, 2) rs /\ length rs = length files /\
    take z sel (image ++ rest) rs = (map (kept_copy z) (filter (fun f => sel (renamed (src_name f))) files), Complete) /\
    forall i, list_lines z (image ++ rest) i rs = listing z i files.
Proof.
  intros z sel files size image rest D C. destruct (opened_image _ _ _ rest D C) as (rs & O & L & DS & a & b & c & d & E1 & A & E2 & B).
  exists rs. split; [exact O|]. split; [exact L|]. exact (take_ok z sel (image ++ rest) files rs _ _ a b c d (proj1 D) DS E1 A E2 B).
Qed.

(** ** The directory *)
Lemma resolve_proper : forall l above, Forall (fun p => p <> [] /\ p <> str "." /\ p <> str "..") l -> resolve above l = Some (rev above ++ l).
Proof.
  induction l as [|p l IH]; intros above H; cbn [resolve]; [rewrite app_nil_r; reflexivity|]. inversion H; subst. destruct H2 as (A & B & C).
  rewrite (proj2 (beq_neq p []) A), (proj2 (beq_neq p [46]) B), (proj2 (beq_neq p [46; 46]) C). cbn [orb]. rewrite IH by auto. cbn [rev]. rewrite <- app_assoc. reflexivity.
Qed.
Lemma place_proper : forall n, proper n -> hd 0 n <> 47 -> place n = Some (parts n).
Proof. intros n P S. unfold place. replace (hd 0 n =? 47) with false by lia. apply (resolve_proper (parts n) []). exact P. Qed.
Lemma join_parts : forall n, Prep.join (parts n) = n.
Proof.
  unfold parts. induction n as [|c n IH]; [reflexivity|]. cbn [split_on]. cbv zeta.
  pose proof (split_nil 47 n). destruct (split_on 47 n) as [|p q] eqn:E; [congruence|].
  destruct (Z.eqb_spec c 47) as [->|X].
  - change (Prep.join ([] :: p :: q)) with ([] ++ 47 :: Prep.join (p :: q)). rewrite IH. reflexivity.
  - cbn [hd tl]. destruct q as [|p2 q].
    + cbn [Prep.join] in *. rewrite IH. reflexivity.
    + change (Prep.join ((c :: p) :: p2 :: q)) with ((c :: p) ++ 47 :: Prep.join (p2 :: q)). change (Prep.join (p :: p2 :: q)) with (p ++ 47 :: Prep.join (p2 :: q)) in IH.
      rewrite <- app_comm_cons, IH. reflexivity.
Qed.
Lemma parts_inj : forall a b, parts a = parts b -> a = b.
Proof. intros a b E. rewrite <- (join_parts a), <- (join_parts b), E. reflexivity. Qed.

(** Files written one after the other. *)
Definition set_copies (l : list (path * file)) (t : tree) : tree := fold_left (fun t e => put t (fst e) (snd e)) l t.
Lemma stored : forall z l dir out, Forall (fun f => proper (renamed (src_name f)) /\ hd 0 (renamed (src_name f)) <> 47) l ->
  fold_left store (map (kept_copy z) l) (dir, out) =
  (set_copies (map (fun f => (parts (renamed (src_name f)), mk_file (z_mktime z (z_local z (src_time f)) * 1000000000) (src_data f))) l) dir, out).
Proof.
  intros z. induction l as [|f l IH]; intros dir out H; [reflexivity|]. inversion H; subst. destruct H2 as [P S]. cbn [map fold_left].
  unfold store at 2. cbn [k_name kept_copy k_time k_data fst snd]. rewrite place_proper by auto. rewrite IH by auto. reflexivity.
Qed.
Lemma path_eq_refl : forall p, path_eq p p = true.
Proof. induction p; cbn; auto. rewrite beq_refl, IHp. reflexivity. Qed.
Lemma path_eq_iff : forall p q, path_eq p q = true <-> p = q.
Proof.
  induction p as [|x p IH]; intros [|y q]; cbn; split; try easy; intros H.
  - apply andb_prop in H. destruct H as [A B]. apply beq_eq in A. apply IH in B. congruence.
  - inversion H; subst. rewrite beq_refl. cbn. apply IH. reflexivity.
Qed.
Lemma put_new : forall t p f, ~ In p (map fst t) -> put t p f = t ++ [(p, f)].
Proof.
  induction t as [|[q g] t IH]; intros p f H; cbn [put]; [reflexivity|]. destruct (path_eq q p) eqn:E.
  - apply path_eq_iff in E. subst. exfalso. apply H. left. reflexivity.
  - rewrite IH; [reflexivity|]. intros I. apply H. right. exact I.
Qed.
Lemma set_fresh : forall l t, NoDup (map fst (t ++ l)) -> set_copies l t = t ++ l.
Proof.
  induction l as [|[p f] l IH]; intros t N; [rewrite app_nil_r; reflexivity|]. cbn [set_copies fold_left fst snd].
  rewrite put_new. 2: { rewrite map_app in N. cbn [map fst] in N. apply NoDup_remove_2 in N. intros I. apply N. apply in_or_app. left. exact I. }
  fold (set_copies l (t ++ [(p, f)])). rewrite IH; rewrite <- app_assoc; auto.
Qed.
Lemma set_other : forall l t p, ~ In p (map fst l) -> get (set_copies l t) p = get t p.
Proof.
  induction l as [|[q f] l IH]; intros t p N; [reflexivity|]. cbn [set_copies fold_left fst snd]. fold (set_copies l (put t q f)).
  rewrite IH by (intros I; apply N; right; exact I). rewrite get_put. destruct (path_eq q p) eqn:E; [|reflexivity].
  apply path_eq_iff in E. subst. exfalso. apply N. left. reflexivity.
Qed.
Lemma set_found : forall l t p f, NoDup (map fst l) -> In (p, f) l -> get (set_copies l t) p = Some f.
Proof.
  induction l as [|[q g] l IH]; intros t p f N I; [easy|]. cbn [map fst] in N. inversion N; subst. cbn [set_copies fold_left fst snd]. fold (set_copies l (put t q g)).
  destruct I as [E|I].
  - inversion E; subst. rewrite set_other by auto. rewrite get_put, path_eq_refl. reflexivity.
  - apply IH; auto.
Qed.

(** ** The theorems *)
Lemma same_names : forall z files, Forall regular files -> Forall (fun f => printable (src_name f) /\ proper (src_name f) /\ clear_date z f) files -> forall sel,
  map (kept_copy z) (filter (fun f => sel (renamed (src_name f))) files) = map (fun f => mk_taken (src_name f) (src_data f) (src_time f)) (filter (fun f => sel (src_name f)) files).
Proof.
  intros z files R H sel. induction files as [|f files IH]; [reflexivity|]. inversion R; subst. inversion H; subst. destruct H4 as (P & _ & C).
  assert (E : renamed (src_name f) = src_name f) by (apply renamed_same; [apply H2|exact P]).
  cbn [filter]. rewrite E. specialize (IH H3 H5). destruct (sel (src_name f)); [|exact IH]. cbn [map]. rewrite <- IH. unfold kept_copy at 1. rewrite E. unfold clear_date in C. rewrite C. reflexivity.
Qed.
Lemma stored2 : forall l dir out, Forall (fun f => proper (src_name f) /\ hd 0 (src_name f) <> 47) l ->
  fold_left store (map (fun f => mk_taken (src_name f) (src_data f) (src_time f)) l) (dir, out) = (set_copies (map copy_of l) dir, out).
Proof.
  induction l as [|f l IH]; intros dir out H; [reflexivity|]. inversion H; subst. destruct H2 as [P S]. cbn [map fold_left].
  unfold store at 2. cbn [k_name k_time k_data fst snd]. rewrite place_proper by auto. rewrite IH by auto. reflexivity.
Qed.
Lemma copies_nodup : forall files, NoDup (map src_name files) -> NoDup (map fst (map copy_of files)).
Proof.
  induction files as [|f files IH]; intros N; [constructor|]. cbn [map] in *. inversion N; subst. constructor; [|auto].
  cbn [copy_of fst]. intros I. apply H1. rewrite map_map in I. apply in_map_iff in I. destruct I as (g & E & G). cbn [copy_of fst] in E.
  apply parts_inj in E. rewrite <- E. apply in_map. exact G.
Qed.
Lemma filter_nodup : forall (files : list source) sel, NoDup (map src_name files) -> NoDup (map src_name (filter sel files)).
Proof.
  induction files as [|f files IH]; intros sel N; [constructor|]. cbn [map] in N. inversion N; subst. cbn [filter]. destruct (sel f); [|auto].
  cbn [map]. constructor; [|auto]. intros I. apply H1. apply in_map_iff in I. destruct I as (g & E & G). apply filter_In in G. rewrite <- E. apply in_map. apply G.
Qed.
Lemma c107_take : forall z sel files size image rest dir, directory files -> Forall (fun f => printable (src_name f) /\ proper (src_name f) /\ clear_date z f) files ->
  create files size = Packed image -> extract z sel (image ++ rest) dir = Extracted (set_copies (map copy_of (filter (fun f => sel (src_name f)) files)) dir) [] Complete /\
  extract_out z sel (image ++ rest) = Some (flat_map src_data (filter (fun f => sel (src_name f)) files)).
Proof.
  intros z sel files size image rest dir D H C. destruct (taken_files z sel _ _ _ rest D C) as (rs & O & _ & T & _).
  rewrite same_names in T by (try exact H; apply D). split.
  - unfold extract. rewrite O, T. rewrite stored2; [reflexivity|]. apply Forall_forall. intros f I. apply filter_In in I. destruct I as [I _].
    destruct D as [D _]. rewrite Forall_forall in D, H. specialize (D f I). specialize (H f I). split; [apply H|apply D].
  - unfold extract_out. rewrite O, T. cbn [fst]. f_equal. generalize (filter (fun f => sel (src_name f)) files) as l. induction l as [|f l IH]; [reflexivity|]. cbn [map flat_map k_data]. rewrite IH. reflexivity.
Qed.
Lemma c107_fresh : forall z sel files size image rest, directory files -> Forall (fun f => printable (src_name f) /\ proper (src_name f) /\ clear_date z f) files ->
  create files size = Packed image -> extract z sel (image ++ rest) [] = Extracted (map copy_of (filter (fun f => sel (src_name f)) files)) [] Complete.
Proof.
  intros z sel files size image rest D H C. rewrite (proj1 (c107_take z sel _ _ _ rest [] D H C)). rewrite set_fresh; [reflexivity|].
  cbn [app]. apply copies_nodup, filter_nodup, D.
Qed.
Lemma c107_over : forall z sel files size image rest dir, directory files -> Forall (fun f => printable (src_name f) /\ proper (src_name f) /\ clear_date z f) files ->
  create files size = Packed image -> exists dir', extract z sel (image ++ rest) dir = Extracted dir' [] Complete /\
    (forall f, In f files -> sel (src_name f) = true -> get dir' (parts (src_name f)) = Some (mk_file (src_time f * 1000000000) (src_data f))) /\
    (forall p, (forall f, In f files -> sel (src_name f) = true -> p <> parts (src_name f)) -> get dir' p = get dir p).
Proof.
  intros z sel files size image rest dir D H C. eexists. split; [exact (proj1 (c107_take z sel _ _ _ rest dir D H C))|].
  split.
  - intros f I S. apply set_found; [apply copies_nodup, filter_nodup, D|]. apply (in_map copy_of). apply filter_In. auto.
  - intros p N. apply set_other. intros I. rewrite map_map in I. apply in_map_iff in I. destruct I as (f & E & F). apply filter_In in F.
    apply (N f (proj1 F) (proj2 F)). exact (eq_sym E).
Qed.
Lemma c107_out : forall z sel files size image rest, directory files -> Forall (fun f => printable (src_name f) /\ proper (src_name f) /\ clear_date z f) files ->
  create files size = Packed image -> extract_out z sel (image ++ rest) = Some (flat_map src_data (filter (fun f => sel (src_name f)) files)).
Proof. intros. eapply (proj2 (c107_take z sel _ _ _ _ [] H H0 H1)). Qed.
Lemma c107_list : forall z files size image rest, directory files -> create files size = Packed image ->
  list_text z (image ++ rest) = Some (str "Version: 3.2" ++ [10] ++ str "Number of files: " ++ dec (size_of files) ++ [10] ++ listing z 1 files).
Proof.
  intros z files size image rest D C. destruct (taken_files z (fun _ => true) _ _ _ rest D C) as (rs & O & L & _ & T).
  unfold list_text. rewrite O, T. unfold size_of. rewrite L. reflexivity.
Qed.
Lemma c107_names : forall z sel files size image rest, directory files -> create files size = Packed image ->
  exists rs, open_image (image ++ rest) = Table (3, 2) rs /\ take z sel (image ++ rest) rs =
    (map (fun f => mk_taken (renamed (src_name f)) (src_data f) (z_mktime z (z_local z (src_time f)))) (filter (fun f => sel (renamed (src_name f))) files), Complete).
Proof. intros z sel files size image rest D C. destruct (taken_files z sel _ _ _ rest D C) as (rs & O & _ & T & _). exists rs. auto. Qed.
Lemma name_parts : forall n, name_of (parts n) = last (parts n) [].
Proof. reflexivity. Qed.
Lemma c107_again : forall z files size image, directory files -> Forall (fun f => printable (src_name f) /\ proper (src_name f) /\ clear_date z f) files ->
  Forall (fun f => last (parts (src_name f)) [] <> str ".DS_Store" /\ last (parts (src_name f)) [] <> str ".git") files ->
  create files size = Packed image -> exists dir, extract z (fun _ => true) image [] = Extracted dir [] Complete /\ to_pack dir = files /\ create (to_pack dir) size = Packed image.
Proof.
  intros z files size image D H G C. pose proof (c107_fresh z (fun _ => true) _ _ _ [] D H C) as F. rewrite app_nil_r in F.
  assert (T : forall l : list source, filter (fun f => (fun _ => true) (src_name f)) l = l) by (induction l as [|x l IH]; [reflexivity|]; cbn [filter]; rewrite IH; reflexivity).
  rewrite T in F. exists (map copy_of files). split; [exact F|].
  assert (K : to_pack (map copy_of files) = files).
  { clear -G. unfold to_pack. induction files as [|f files IH]; [reflexivity|]. inversion G; subst. destruct H1 as [A B].
    cbn [map filter copy_of fst]. change (name_of (parts (src_name f))) with (last (parts (src_name f)) []). rewrite (proj2 (beq_neq _ (str ".DS_Store")) A), (proj2 (beq_neq _ (str ".git")) B). cbn [orb negb map]. rewrite IH by auto. cbn [fst snd f_data f_time].
    unfold copy_of; cbn [fst snd f_data f_time]. rewrite join_parts, Z.div_mul by lia. destruct f; reflexivity. }
  rewrite K. auto.
Qed.

(** Any image: what is written elsewhere has an absolute name or a part "..". *)
Lemma resolve_out : forall l above, resolve above l = None -> In (str "..") l.
Proof.
  induction l as [|p l IH]; intros above H; cbn [resolve] in H; [discriminate|]. destruct (beq p [] || beq p [46]); [right; eauto|].
  destruct (beq p [46; 46]) eqn:E; [|right; eauto]. apply beq_eq in E. left. exact E.
Qed.
Lemma store_out : forall l w, Forall (fun k => hd 0 (k_name k) = 47 \/ In (str "..") (parts (k_name k))) (snd w) ->
  Forall (fun k => hd 0 (k_name k) = 47 \/ In (str "..") (parts (k_name k))) (snd (fold_left store l w)).
Proof.
  induction l as [|k l IH]; intros w H; [exact H|]. cbn [fold_left]. apply IH. unfold store. destruct (place (k_name k)) eqn:P; [exact H|].
  cbn [snd]. apply Forall_app. split; [exact H|]. constructor; [|constructor]. unfold place in P. destruct (Z.eqb_spec (hd 0 (k_name k)) 47); [left; auto|]. right. eapply resolve_out. exact P.
Qed.
Lemma c107_inside : forall z sel fs dir dir' out e, extract z sel fs dir = Extracted dir' out e ->
  Forall (fun k => hd 0 (k_name k) = 47 \/ In (str "..") (parts (k_name k))) out.
Proof.
  intros z sel fs dir dir' out e H. unfold extract in H. destruct (open_image fs) as [| |v rs]; try discriminate. destruct (take z sel fs rs) as [l e1].
  pose proof (store_out l (dir, []) (Forall_nil _)) as S. destruct (fold_left store l (dir, [])) as [t o]. inversion H; subst. exact S.
Qed.

(** ** Sizes *)
Lemma last_snoc : forall (l : list Z) c d, last (l ++ [c]) d = c.
Proof. intros. apply last_last. Qed.
Lemma c107_size : forall n, 0 <= n -> read_size (dec n) = Some n /\ read_size (dec n ++ str "k") = Some (n * 1024) /\ read_size (dec n ++ str "K") = Some (n * 1024) /\
  read_size (dec n ++ str "m") = Some (n * 1048576) /\ read_size (dec n ++ str "M") = Some (n * 1048576).
Proof.
  intros n N. pose proof (dec_digits n) as G. pose proof (dec_value_dec n N) as V. pose proof (dec_nonempty n N) as E.
  assert (T : number_text (dec n) = Some n).
  { unfold number_text. rewrite G, V. destruct (dec n); [congruence|reflexivity]. }
  assert (L : isdigit (last (dec n) 0) = true).
  { rewrite forallb_forall in G. apply G. destruct (exists_last E) as (a & x & ->). rewrite last_last. apply in_or_app. right. left. reflexivity. }
  unfold isdigit in L. repeat split.
  - unfold read_size. cbv zeta. replace ((last (dec n) 0 =? 107) || (last (dec n) 0 =? 75)) with false by lia.
    replace ((last (dec n) 0 =? 109) || (last (dec n) 0 =? 77)) with false by lia. exact T.
  - unfold read_size. change (str "k") with [107]. rewrite last_last, removelast_last, T. reflexivity.
  - unfold read_size. change (str "K") with [75]. rewrite last_last, removelast_last, T. reflexivity.
  - unfold read_size. change (str "m") with [109]. rewrite last_last, removelast_last, T. reflexivity.
  - unfold read_size. change (str "M") with [77]. rewrite last_last, removelast_last, T. reflexivity.
Qed.

(** ** Dates of the list *)
Lemma stamp_written : forall r, stamp r = written_date r.
Proof. reflexivity. Qed.
Lemma written_says : forall t, 0 <= t < 253402300800 -> SrvSpec.says_z (written_date (gmtime t)) t.
Proof.
  intros t H. rewrite <- stamp_written. pose proof (proj1 (SrvFinal.srv_says 0 t ltac:(lia))) as S. unfold Srv.srv_timestamp in S. rewrite Z.add_0_r in S. exact S.
Qed.

(** ** The end of the loop *)
Lemma c107_end : forall z sel fs rs ks e, take z sel fs rs = (ks, e) ->
  exists before left, rs = before ++ left /\ Forall (fun r => exists c, name_start fs r = Some c /\ c <> 0) before /\ take z sel fs before = (ks, Complete) /\
    match e with
    | Complete => left = []
    | BadEntry => exists r after, left = r :: after /\ name_start fs r = Some 0
    | Exception => exists r after, left = r :: after /\ name_start fs r = None
    end.
Proof.
  intros z sel fs. assert (HD : forall (l : list Z) n, nth_error l n = hd_error (skipn n l)).
  { induction l as [|x l IH]; intros [|n]; cbn; auto. }
  induction rs as [|r rs IH]; intros ks e T; cbn [take] in T.
  - apply pair_equal_spec in T. destruct T as [<- <-]. exists [], []. auto.
  - assert (N : name_start fs r = hd_error (skipn (Z.to_nat (rec_name r)) fs)) by apply HD.
    destruct (skipn (Z.to_nat (rec_name r)) fs) as [|c s] eqn:SK; cbn [hd_error] in N.
    { apply pair_equal_spec in T. destruct T as [<- <-]. exists [], (r :: rs). repeat split; auto. eauto. }
    destruct (Z.eqb_spec c 0) as [->|C].
    { apply pair_equal_spec in T. destruct T as [<- <-]. exists [], (r :: rs). repeat split; auto. eauto. }
    cbv zeta in T. destruct (take z sel fs rs) as [l e'] eqn:TR. destruct (IH _ _ eq_refl) as (b & lf & E & F & TB & M).
    exists (r :: b), lf. split; [rewrite E; reflexivity|]. split; [constructor; eauto|].
    assert (EE : e' = e) by (destruct (sel (get_string (c :: s))); apply pair_equal_spec in T; apply T). subst e'. split; [|exact M].
    cbn [take]. rewrite SK. replace (c =? 0) with false by lia. cbv zeta. rewrite TB.
    destruct (sel (get_string (c :: s))); apply pair_equal_spec in T; destruct T as [<- _]; reflexivity.
Qed.
Lemma number_only : forall s v, number_text s = Some v -> s <> [] /\ Forall (fun c => 48 <= c <= 57) s /\ v = dec_value s.
Proof.
  intros s v. unfold number_text. destruct s as [|x s]; [discriminate|]. destruct (forallb isdigit (x :: s)) eqn:F; [|discriminate].
  intros E. assert (v = dec_value (x :: s)) by congruence. split; [discriminate|]. split; [|assumption].
  rewrite forallb_forall in F. apply Forall_forall. intros c I. specialize (F c I). unfold isdigit in F. apply andb_prop in F. lia.
Qed.
Lemma c107_size_only : forall s v, read_size s = Some v -> exists ds unit k, s = ds ++ unit /\ ds <> [] /\ Forall (fun c => 48 <= c <= 57) ds /\ v = dec_value ds * k /\
  In (unit, k) [([], 1); (str "k", 1024); (str "K", 1024); (str "m", 1048576); (str "M", 1048576)].
Proof.
  intros s v H. unfold read_size in H. cbv zeta in H.
  assert (P : last s 0 <> 0 -> s = removelast s ++ [last s 0]) by (intros N; apply app_removelast_last; intros ->; apply N; reflexivity).
  destruct ((last s 0 =? 107) || (last s 0 =? 75)) eqn:K.
  { destruct (number_text (removelast s)) as [n|] eqn:E; [|discriminate]. assert (v = n * 1024) by congruence. destruct (number_only _ _ E) as (A & B & ->).
    exists (removelast s), [last s 0], 1024. apply orb_prop in K. split; [apply P; lia|]. split; [exact A|]. split; [exact B|]. split; [assumption|].
    destruct K as [K|K]; apply Z.eqb_eq in K; rewrite K; cbn; tauto. }
  destruct ((last s 0 =? 109) || (last s 0 =? 77)) eqn:M.
  { destruct (number_text (removelast s)) as [n|] eqn:E; [|discriminate]. assert (v = n * 1048576) by congruence. destruct (number_only _ _ E) as (A & B & ->).
    exists (removelast s), [last s 0], 1048576. apply orb_prop in M. split; [apply P; lia|]. split; [exact A|]. split; [exact B|]. split; [assumption|].
    destruct M as [M|M]; apply Z.eqb_eq in M; rewrite M; cbn; tauto. }
  destruct (number_only _ _ H) as (A & B & ->). exists s, [], 1. split; [symmetry; apply app_nil_r|]. split; [exact A|]. split; [exact B|].
  split; [symmetry; apply Z.mul_1_r|]. cbn. tauto.
Qed.
