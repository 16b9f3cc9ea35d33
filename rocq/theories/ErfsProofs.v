(** Proofs about the file system: the image. *)
From Coq Require Import ZArith List Bool Lia ZifyBool.
From Verif Require Import Base BaseFacts Erfs ErfsSpec.
Import ListNotations.
Open Scope Z_scope.
Ltac inv H := inversion H; subst; clear H.

Lemma size_app : forall A (a b : list A), size_of (a ++ b) = size_of a + size_of b.
Proof. intros. unfold size_of. rewrite app_length. lia. Qed.
Lemma size_nonneg : forall A (a : list A), 0 <= size_of a.
Proof. intros. unfold size_of. lia. Qed.
Lemma size_zeros : forall n, 0 <= n -> size_of (zeros n) = n.
Proof. intros. unfold size_of, zeros. rewrite repeat_length. lia. Qed.
Lemma size_cons : forall A (x : A) l, size_of (x :: l) = 1 + size_of l.
Proof. intros. unfold size_of. cbn [length]. lia. Qed.

(** ** Rounding *)
Lemma land3 : forall n, Z.land n 3 = n mod 4.
Proof. intros. change 3 with (Z.ones 2). rewrite Z.land_ones by lia. reflexivity. Qed.
Lemma lor3 : forall n, 0 <= n -> Z.lor n 3 = n / 4 * 4 + 3.
Proof.
  intros n H.
  assert (A : forall q r, 0 <= r < 4 -> Z.lor (q * 4) r = q * 4 + r).
  { intros q r R. symmetry. rewrite Z.add_nocarry_lxor, Z.lxor_lor; auto.
    all: apply Z.bits_inj'; intros k K; rewrite Z.land_spec, Z.bits_0; change 4 with (2 ^ 2); rewrite <- Z.shiftl_mul_pow2 by lia;
      rewrite Z.shiftl_spec by lia;
      destruct (Z.ltb_spec k 2); [rewrite Z.testbit_neg_r by lia; reflexivity|];
      replace (Z.testbit r k) with false; [apply andb_false_r|]; symmetry; destruct (Z.eq_dec r 0); [subst; apply Z.bits_0|];
      apply Z.bits_above_log2; try lia;
      assert (Z.log2 r < 2) by (apply Z.log2_lt_pow2; lia); lia. }
  pose proof (Z.div_mod n 4 ltac:(lia)) as D. pose proof (Z.mod_pos_bound n 4 ltac:(lia)) as M.
  replace (Z.lor n 3) with (Z.lor (Z.lor (n / 4 * 4) (n mod 4)) 3) by (rewrite A by lia; f_equal; lia).
  rewrite <- Z.lor_assoc. replace (Z.lor (n mod 4) 3) with 3; [apply A; lia|].
  assert (C : n mod 4 = 0 \/ n mod 4 = 1 \/ n mod 4 = 2 \/ n mod 4 = 3) by lia. destruct C as [->|[->|[->| ->]]]; reflexivity.
Qed.
Lemma round4_facts : forall n, 0 <= n -> n <= round4 n < n + 4 /\ round4 n mod 4 = 0.
Proof. intros n H. unfold round4. rewrite Z.mod_mul by lia. pose proof (Z.div_mod (n + 3) 4 ltac:(lia)). pose proof (Z.mod_pos_bound (n + 3) 4 ltac:(lia)). lia. Qed.
Lemma py_align : forall n, 0 <= n -> py_align32 n = round4 n.
Proof.
  intros n H. unfold py_align32, round4. rewrite land3. rewrite lor3 by auto.
  pose proof (Z.div_mod n 4 ltac:(lia)) as D. pose proof (Z.mod_pos_bound n 4 ltac:(lia)) as M.
  destruct (Z.eqb_spec (n mod 4) 0) as [E|E].
  - replace (n + 3) with (n / 4 * 4 + 3) by lia. rewrite Z.div_add_l by lia. change (3 / 4) with 0. lia.
  - replace (n + 3) with ((n / 4 + 1) * 4 + (n mod 4 - 1)) by lia. rewrite Z.div_add_l by lia. rewrite (Z.div_small (n mod 4 - 1)) by lia. lia.
Qed.
Lemma fw_align : forall n, 0 <= n <= 4294967292 -> align32 n = round4 n.
Proof.
  intros n H. rewrite <- py_align by lia. unfold align32, py_align32. destruct (Z.eqb_spec (Z.land n 3) 0); auto.
  rewrite lor3 by lia. pose proof (Z.div_mod n 4 ltac:(lia)). pose proof (Z.mod_pos_bound n 4 ltac:(lia)).
  rewrite land3 in n0. unfold u32. rewrite Z.mod_small; auto.
  assert (n / 4 <= 1073741822 \/ n / 4 = 1073741823) by lia. lia.
Qed.

(** ** Hash *)
Lemma hash_mod : forall name h, u16 (fold_left (fun h c => (h + c) * 2) name h) = fold_left (fun h c => u16 (2 * u16 (h + c))) name (u16 h).
Proof.
  induction name as [|c name IH]; intros h; cbn [fold_left]; [reflexivity|]. rewrite IH. f_equal. unfold u16.
  rewrite (Z.mul_comm (h + c) 2). rewrite Zplus_mod_idemp_l, Zmult_mod_idemp_r. reflexivity.
Qed.
Lemma same_hash : forall name, py_hash name = name_hash name.
Proof.
  intros. unfold py_hash, name_hash. change 65535 with (Z.ones 16). rewrite Z.land_ones by lia.
  change (2 ^ 16) with 65536. change (fold_left (fun h c => (h + c) * 2) name 0 mod 65536) with (u16 (fold_left (fun h c => (h + c) * 2) name 0)).
  rewrite hash_mod. reflexivity.
Qed.
Lemma hash_range : forall name, 0 <= name_hash name < 65536.
Proof. intros. rewrite <- same_hash. unfold py_hash. change 65535 with (Z.ones 16). rewrite Z.land_ones by lia. apply Z.mod_pos_bound. lia. Qed.

(** ** Packing *)
Lemma pack_H_facts : forall v b, pack_H v = Some b -> 0 <= v < 65536 /\ size_of b = 2 /\ word16 b = v /\ bytes b.
Proof.
  unfold pack_H. intros v b H. destruct ((0 <=? v) && (v <? 65536)) eqn:E; [|discriminate]. inv H. 
  assert (0 <= v < 65536) by lia. pose proof (Z.div_mod v 256 ltac:(lia)). pose proof (Z.mod_pos_bound v 256 ltac:(lia)).
  assert (0 <= v / 256 < 256) by (split; [apply Z.div_pos; lia|apply Z.div_lt_upper_bound; lia]).
  split; auto. split; [reflexivity|]. split; [unfold word16; cbn [nth]; lia|]. unfold bytes, is_byte. constructor; [lia|]. constructor; [lia|]. constructor.
Qed.
Lemma pack_H_ok : forall v, 0 <= v < 65536 -> exists b, pack_H v = Some b.
Proof. intros. unfold pack_H. replace ((0 <=? v) && (v <? 65536)) with true by lia. eauto. Qed.
Lemma pack_I_facts : forall v b, pack_I v = Some b -> 0 <= v < 4294967296 /\ size_of b = 4 /\ word32 b = v.
Proof.
  unfold pack_I. intros v b H. destruct ((0 <=? v) && (v <? 4294967296)) eqn:E; [|discriminate]. inv H.
  assert (0 <= v < 4294967296) by lia. split; auto. split; [reflexivity|]. unfold word32; cbn [nth].
  replace (v / 65536) with (v / 256 / 256) by (rewrite Z.div_div by lia; reflexivity).
  replace (v / 16777216) with (v / 256 / 256 / 256) by (rewrite !Z.div_div by lia; reflexivity).
  pose proof (Z.div_mod v 256 ltac:(lia)). pose proof (Z.div_mod (v / 256) 256 ltac:(lia)). pose proof (Z.div_mod (v / 256 / 256) 256 ltac:(lia)).
  pose proof (Z.mod_pos_bound (v / 256 / 256 / 256) 256 ltac:(lia)). lia.
Qed.
Lemma pack_I_ok : forall v, 0 <= v < 4294967296 -> exists b, pack_I v = Some b.
Proof. intros. unfold pack_I. replace ((0 <=? v) && (v <? 4294967296)) with true by lia. eauto. Qed.

(** ** Sums *)
Lemma sum_app : forall a b, sum (a ++ b) = sum a + sum b.
Proof. unfold sum. induction a; intros; cbn [app fold_right]; [lia|]. rewrite IHa. lia. Qed.
Lemma sum_cons : forall x l, sum (x :: l) = x + sum l.
Proof. reflexivity. Qed.
Lemma name_room_facts : forall f, size_of (src_name f) + 1 <= name_room f < size_of (src_name f) + 5 /\ name_room f mod 4 = 0.
Proof. intros. unfold name_room. pose proof (size_nonneg _ (src_name f)). pose proof (round4_facts (size_of (src_name f) + 1) ltac:(lia)). lia. Qed.
Lemma data_room_facts : forall f, size_of (src_data f) <= data_room f < size_of (src_data f) + 4 /\ data_room f mod 4 = 0.
Proof. intros. unfold data_room. pose proof (size_nonneg _ (src_data f)). pose proof (round4_facts (size_of (src_data f)) ltac:(lia)). lia. Qed.
Lemma sum_names_nonneg : forall l, 0 <= sum (map name_room l).
Proof. induction l; cbn [map]; [cbn; lia|]. rewrite sum_cons. pose proof (name_room_facts a). pose proof (size_nonneg _ (src_name a)). lia. Qed.
Lemma sum_datas_nonneg : forall l, 0 <= sum (map data_room l).
Proof. induction l; cbn [map]; [cbn; lia|]. rewrite sum_cons. pose proof (data_room_facts a). pose proof (size_nonneg _ (src_data a)). lia. Qed.
Lemma sum_mod4 : forall g l, (forall f : source, g f mod 4 = 0) -> sum (map g l) mod 4 = 0.
Proof.
  intros g l H. induction l as [|f l IH]; [reflexivity|]. cbn [map]. change (sum (g f :: map g l)) with (g f + sum (map g l)).
  rewrite Z.add_mod by lia. rewrite H, IH. reflexivity.
Qed.
Lemma fold_sum : forall (g : source -> Z) l t, fold_left (fun t f => t + g f) l t = t + sum (map g l).
Proof. intros g. induction l as [|f l IH]; intros t; cbn [fold_left map]; [cbn; lia|]. rewrite IH, sum_cons. lia. Qed.
Lemma fold_ext : forall (g h : Z -> source -> Z) l t, (forall t f, g t f = h t f) -> fold_left g l t = fold_left h l t.
Proof. intros g h l t E. revert t. induction l as [|f l IH]; intros t; cbn [fold_left]; auto. rewrite E, IH. reflexivity. Qed.

(** C43: the size computed first is the number of bytes written. *)
Lemma total_is_end : forall files, total_size files = image_end files.
Proof.
  intros. unfold total_size.
  rewrite (fold_ext _ (fun t f => t + (18 + name_room f + data_room f))).
  2: { intros. unfold name_room, data_room. rewrite !py_align; [lia|apply size_nonneg|pose proof (size_nonneg _ (src_name f)); lia]. }
  rewrite fold_sum.
  assert (E : sum (map (fun f => 18 + name_room f + data_room f) files) = 18 * size_of files + sum (map name_room files) + sum (map data_room files)).
  { induction files as [|f files IH]; [reflexivity|]. cbn [map]. rewrite size_cons.
    rewrite !sum_cons, IH. lia. }
  rewrite E. pose proof (sum_names_nonneg files). pose proof (sum_datas_nonneg files). pose proof (size_nonneg _ files).
  rewrite py_align by lia. unfold image_end, data_at, names_start.
  pose proof (sum_mod4 name_room files (fun f => proj2 (name_room_facts f))) as N4.
  pose proof (sum_mod4 data_room files (fun f => proj2 (data_room_facts f))) as D4.
  set (a := sum (map name_room files)) in *. set (b := sum (map data_room files)) in *. set (n := size_of files) in *.
  apply Z.mod_divide in N4; [|lia]. apply Z.mod_divide in D4; [|lia]. destruct N4 as [x ->]. destruct D4 as [y ->]. unfold round4.
  replace (8 + (18 * n + x * 4 + y * 4) + 3) with ((2 + 4 * n + x + y) * 4 + (2 * n + 3)) by lia.
  rewrite Z.div_add_l by lia. lia.
Qed.

(** ** Where things are in what is written *)
Ltac opt H := match type of H with context[match ?e with Some _ => _ | None => None end] => let E := fresh "E" in destruct e eqn:E; [|discriminate H] end.
Lemma hash_split : forall A f B t, hash_table (A ++ f :: B) = Some t ->
  exists a h b, t = a ++ h ++ b /\ size_of a = 2 * size_of A /\ pack_H (py_hash (src_name f)) = Some h.
Proof.
  induction A as [|g A IH]; intros f B t H; cbn [app hash_table] in H.
  - opt H. opt H. inv H. exists [], l, l0. auto.
  - opt H. opt H. inv H. destruct (IH _ _ _ E0) as (a & h & b & -> & S & P). exists (l ++ a), h, b.
    rewrite <- app_assoc. split; auto. split; auto. rewrite size_app, size_cons, S. apply pack_H_facts in E. lia.
Qed.
Lemma hash_size : forall files t, hash_table files = Some t -> size_of t = 2 * size_of files.
Proof.
  induction files as [|f files IH]; intros t H; cbn [hash_table] in H; [inv H; reflexivity|]. opt H. opt H. inv H.
  rewrite size_app, size_cons, (IH _ eq_refl). apply pack_H_facts in E. lia.
Qed.
Lemma hash_ok : forall files, exists t, hash_table files = Some t.
Proof.
  induction files as [|f files [t IH]]; cbn [hash_table]; eauto.
  destruct (pack_H_ok (py_hash (src_name f))) as [h ->]; [rewrite same_hash; apply hash_range|]. rewrite IH. eauto.
Qed.
Lemma skipn_size : forall (a b : list Z) n, size_of a = Z.of_nat n -> skipn n (a ++ b) = b.
Proof. intros a b n H. unfold size_of in H. assert (E : n = length a) by lia. rewrite E. apply skipn_app_exact. Qed.
Lemma word32_app : forall a b, size_of a = 4 -> word32 (a ++ b) = word32 a.
Proof. intros a b H. unfold size_of in H. unfold word32. rewrite !app_nth1 by lia. reflexivity. Qed.
Lemma fat_split : forall A f B np dp t, fat_table (A ++ f :: B) np dp = Some t ->
  exists a r b, t = a ++ r ++ b /\ size_of a = 16 * size_of A /\ size_of r = 16 /\
    (forall tail, rec_name (r ++ tail) = np + sum (map name_room A)) /\
    (forall tail, rec_data (r ++ tail) = dp + sum (map data_room A)) /\
    (forall tail, rec_len (r ++ tail) = size_of (src_data f)) /\ (forall tail, rec_time (r ++ tail) = src_time f).
Proof.
  induction A as [|g A IH]; intros f B np dp t H; cbn [app fat_table] in H; opt H; opt H; opt H; opt H; opt H; inv H.
  - exists [], (l ++ l0 ++ l1 ++ l2), l3.
    apply pack_I_facts in E. apply pack_I_facts in E0. apply pack_I_facts in E1. apply pack_I_facts in E2.
    rewrite !size_app. split; [rewrite <- !app_assoc; reflexivity|]. split; [reflexivity|]. split; [lia|]. cbn [map].
    change (sum []) with 0. unfold rec_name, rec_data, rec_len, rec_time.
    split; [intros; rewrite <- !app_assoc, word32_app by lia; lia|]. 
    split; [intros; rewrite <- !app_assoc, (skipn_size l), word32_app by lia; lia|]. 
    split; intros; rewrite <- !app_assoc.
    + rewrite (app_assoc l), (skipn_size (l ++ l0)), word32_app by (rewrite ?size_app; lia). lia.
    + replace (l ++ l0 ++ l1 ++ l2 ++ tail) with ((l ++ l0 ++ l1) ++ l2 ++ tail) by (rewrite <- !app_assoc; reflexivity).
      rewrite (skipn_size (l ++ l0 ++ l1)), word32_app by (rewrite ?size_app; lia). lia.
  - destruct (IH _ _ _ _ _ E3) as (a & r & b & -> & S & R & P1 & P2 & P3 & P4). exists (l ++ l0 ++ l1 ++ l2 ++ a), r, b.
    apply pack_I_facts in E. apply pack_I_facts in E0. apply pack_I_facts in E1. apply pack_I_facts in E2.
    split; [rewrite <- !app_assoc; reflexivity|]. rewrite !size_app, size_cons. split; [lia|]. split; [auto|]. cbn [map]. rewrite !sum_cons.
    unfold name_room at 1, data_room at 1. rewrite <- !py_align by (pose proof (size_nonneg _ (src_name g)); pose proof (size_nonneg _ (src_data g)); lia).
    split; [intros; rewrite P1; lia|]. split; [intros; rewrite P2; lia|]. split; auto.
Qed.
Lemma fat_size : forall files np dp t, fat_table files np dp = Some t -> size_of t = 16 * size_of files.
Proof.
  induction files as [|f files IH]; intros np dp t H; cbn [fat_table] in H; [inv H; reflexivity|].
  opt H; opt H; opt H; opt H; opt H; inv H. rewrite !size_app, size_cons, (IH _ _ _ E3).
  apply pack_I_facts in E. apply pack_I_facts in E0. apply pack_I_facts in E1. apply pack_I_facts in E2. lia.
Qed.
Lemma fat_ok : forall files np dp, 0 <= np -> 0 <= dp -> np + sum (map name_room files) <= 4294967295 -> dp + sum (map data_room files) <= 4294967295 ->
  Forall (fun f => 0 <= src_time f < 4294967296) files -> exists t, fat_table files np dp = Some t.
Proof.
  induction files as [|f files IH]; intros np dp N D SN SD F; cbn [fat_table]; eauto. inv F. cbn [map] in SN, SD. rewrite sum_cons in SN, SD.
  pose proof (sum_names_nonneg files). pose proof (sum_datas_nonneg files). pose proof (name_room_facts f). pose proof (data_room_facts f).
  pose proof (size_nonneg _ (src_name f)). pose proof (size_nonneg _ (src_data f)).
  destruct (pack_I_ok np) as [? ->]; [lia|]. destruct (pack_I_ok dp) as [? ->]; [lia|].
  destruct (pack_I_ok (size_of (src_data f))) as [? ->]; [lia|]. destruct (pack_I_ok (src_time f)) as [? ->]; [lia|].
  rewrite !py_align by lia. fold (name_room f). fold (data_room f).
  destruct (IH (np + name_room f) (dp + data_room f)) as [t ->]; auto; try lia. eauto.
Qed.
Lemma name_table_app : forall A B, name_table (A ++ B) = name_table A ++ name_table B.
Proof. intros. apply flat_map_app. Qed.
Lemma data_table_app : forall A B, data_table (A ++ B) = data_table A ++ data_table B.
Proof. intros. apply flat_map_app. Qed.
Lemma name_size : forall files, size_of (name_table files) = sum (map name_room files).
Proof.
  induction files as [|f files IH]; [reflexivity|]. cbn [map]. rewrite sum_cons, <- IH. unfold name_table at 1. cbn [flat_map].
  fold (name_table files). pose proof (name_room_facts f). unfold name_room in *. pose proof (size_nonneg _ (src_name f)).
  rewrite py_align by lia. rewrite !size_app, size_zeros by lia. lia.
Qed.
Lemma data_size : forall files, size_of (data_table files) = sum (map data_room files).
Proof.
  induction files as [|f files IH]; [reflexivity|]. cbn [map]. rewrite sum_cons, <- IH. unfold data_table at 1. cbn [flat_map].
  fold (data_table files). pose proof (data_room_facts f). unfold data_room in *. pose proof (size_nonneg _ (src_data f)).
  rewrite py_align by lia. rewrite !size_app, size_zeros by lia. lia.
Qed.

(** The layout of what is written. *)
Definition pad2 (files : list source) : list Z := if Z.odd (size_of files) then [0; 0] else [].
Lemma pad2_size : forall files, 2 * size_of files + size_of (pad2 files) = round4 (2 * size_of files).
Proof.
  intros. unfold pad2, round4. set (n := size_of files). destruct (Z.odd n) eqn:O.
  - apply Z.odd_spec in O. destruct O as [k ->]. replace (2 * (2 * k + 1) + 3) with ((k + 1) * 4 + 1) by lia. rewrite Z.div_add_l by lia.
    change (1 / 4) with 0. change (size_of [0; 0]) with 2. lia.
  - rewrite <- Z.negb_even in O. apply negb_false_iff in O. apply Z.even_spec in O. destruct O as [k ->].
    replace (2 * (2 * k) + 3) with (k * 4 + 3) by lia. rewrite Z.div_add_l by lia. change (3 / 4) with 0. change (size_of []) with 0. lia.
Qed.
Lemma written_inv : forall files w, written files = Some w -> exists n hashes fat,
  w = (str "ERFS" ++ [3; 2] ++ n) ++ hashes ++ pad2 files ++ fat ++ name_table files ++ data_table files /\
  pack_H (size_of files) = Some n /\ hash_table files = Some hashes /\
  fat_table files (names_start files) (data_at files []) = Some fat.
Proof.
  intros files w H. unfold written in H. opt H. opt H. cbv zeta in H. opt H. inv H. exists l, l0, l1. split; [rewrite <- !app_assoc; reflexivity|].
  split; auto. split; auto. rewrite <- E1. pose proof (size_nonneg _ files).
  rewrite (fold_ext _ (fun t f => t + name_room f)).
  2: { intros. unfold name_room. rewrite py_align; [reflexivity|]. pose proof (size_nonneg _ (src_name f)). lia. }
  rewrite fold_sum. rewrite py_align by lia. unfold data_at, names_start. f_equal. cbn. lia.
Qed.
Lemma written_size : forall files w, written files = Some w -> size_of w = image_end files.
Proof.
  intros files w H. destruct (written_inv _ _ H) as (n & h & fat & -> & N & HH & F). rewrite !size_app.
  rewrite (hash_size _ _ HH), (fat_size _ _ _ _ F), name_size, data_size. apply pack_H_facts in N. unfold image_end, data_at, names_start.
  change (size_of (str "ERFS")) with 4. change (size_of [3; 2]) with 2. pose proof (pad2_size files). lia.
Qed.
Lemma written_ok : forall files, size_of files < 65536 -> image_end files < 4294967296 ->
  Forall (fun f => 0 <= src_time f < 4294967296) files -> exists w, written files = Some w.
Proof.
  intros files C S F. unfold written. pose proof (size_nonneg _ files). destruct (pack_H_ok (size_of files)) as [? ->]; [lia|].
  destruct (hash_ok files) as [? ->]. cbv zeta.
  rewrite (fold_ext _ (fun t f => t + name_room f)).
  2: { intros. unfold name_room. rewrite py_align; [reflexivity|]. pose proof (size_nonneg _ (src_name f)). lia. }
  rewrite fold_sum. rewrite py_align by lia. unfold image_end, data_at, names_start in S.
  pose proof (sum_names_nonneg files). pose proof (sum_datas_nonneg files). pose proof (round4_facts (2 * size_of files) ltac:(lia)).
  edestruct fat_ok as [t ->]; [| | | |exact F|eauto]; lia.
Qed.

Lemma c43 : forall files size,
  match create files size with
  | TooSmall missing => image_end files > size /\ missing = image_end files - size
  | Packed image => image_end files <= size /\ size_of image = size /\
      exists w, written files = Some w /\ size_of w = image_end files /\ image = w ++ zeros (size - image_end files)
  | PackError => image_end files <= size /\
      (size_of files >= 65536 \/ size > 4294967295 \/ ~ Forall (fun f => 0 <= src_time f < 4294967296) files)
  end.
Proof.
  intros. unfold create. rewrite total_is_end. destruct (Z.ltb_spec size (image_end files)); [lia|].
  destruct (written files) as [w|] eqn:W.
  - pose proof (written_size _ _ W) as S. pose proof (size_nonneg _ w). rewrite S. split; [lia|].
    rewrite firstn_all2 by (unfold size_of in S; lia). rewrite size_app, size_zeros by lia. split; [lia|]. eauto.
  - split; [lia|]. destruct (Z_lt_dec (size_of files) 65536); [|lia]. destruct (Z_le_dec size 4294967295); [|lia]. right; right. intros F.
    destruct (written_ok files) as [w E]; auto; [lia|]. congruence.
Qed.
