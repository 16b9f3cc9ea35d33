(** Proofs about the file system: mounting, searching, reading. *)
From Coq Require Import ZArith List Bool Lia ZifyBool.
From Verif Require Import Base BaseFacts Erfs ErfsSpec ErfsProofs.
Import ListNotations.
Open Scope Z_scope.

Lemma u32_small : forall x, 0 <= x < 4294967296 -> u32 x = x.
Proof. intros. unfold u32. apply Z.mod_small. auto. Qed.
Lemma flash_size : forall fl a n, 0 <= n -> size_of (flash_bytes fl a n) = n.
Proof. intros. unfold flash_bytes, size_of. rewrite map_length, seq_length. lia. Qed.
Lemma flash_nth : forall fl a n i, 0 <= i < n -> nth (Z.to_nat i) (flash_bytes fl a n) 0 = fl (a + i).
Proof.
  intros fl a n i H. unfold flash_bytes. rewrite (nth_indep _ 0 (fl (a + Z.of_nat 0))) by (rewrite map_length, seq_length; lia).
  rewrite (map_nth (fun k => fl (a + Z.of_nat k))). rewrite seq_nth by lia. f_equal. lia.
Qed.
Lemma flash_app : forall fl a n m, 0 <= n -> 0 <= m -> flash_bytes fl a (n + m) = flash_bytes fl a n ++ flash_bytes fl (a + n) m.
Proof.
  intros fl a n m N M. unfold flash_bytes. rewrite Z2Nat.inj_add by lia. rewrite seq_app, map_app. f_equal.
  rewrite <- (map_map Z.of_nat (fun i => fl (a + i))). rewrite <- (map_map Z.of_nat (fun i => fl (a + n + i))).
  assert (E : forall k b, map Z.of_nat (seq (b + Z.to_nat n) k) = map (fun i => n + i) (map Z.of_nat (seq b k))).
  { induction k as [|k IH]; intros b; [reflexivity|]. cbn [seq map]. f_equal; [lia|]. rewrite <- (IH (S b)). reflexivity. }
  rewrite Nat.add_0_l. pose proof (E (Z.to_nat m) 0%nat) as K. cbn [Nat.add] in K. rewrite K. rewrite map_map. apply map_ext. intros. f_equal. lia.
Qed.
Lemma flash_part : forall s image X P Y, installed s image -> image = X ++ P ++ Y ->
  flash_bytes (fs_flash s) (fs_start s + size_of X) (size_of P) = P.
Proof.
  intros s image X P Y (_ & _ & _ & _ & H) ->.
  assert (LL : length (flash_bytes (fs_flash s) (fs_start s + size_of X) (size_of P)) = length P).
  { unfold flash_bytes. rewrite map_length, seq_length. unfold size_of. lia. }
  apply (nth_ext _ _ 0 0); [exact LL|]. intros k K. rewrite LL in K.
    rewrite <- (Nat2Z.id k) at 1. rewrite flash_nth by (unfold size_of; lia). rewrite <- Z.add_assoc. rewrite H.
    + unfold size_of. rewrite Z2Nat.inj_add by lia. rewrite !Nat2Z.id. rewrite app_nth2_plus. apply app_nth1. lia.
    + rewrite !size_app. pose proof (size_nonneg _ X). pose proof (size_nonneg _ Y). unfold size_of in *. lia.
Qed.

(** What the flash memory contains, in terms of the files. *)
Record volume (s : erfs) (files : list source) : Prop := {
  v_start : 0 <= fs_start s; v_end : fs_start s + fs_size s < 2147483648; v_files : fs_files s = size_of files;
  v_count : size_of files < 65536; v_room : image_end files <= fs_size s;
  v_hash : forall A f B, files = A ++ f :: B ->
    fs_flash s (fs_start s + (8 + 2 * size_of A)) + 256 * fs_flash s (fs_start s + (8 + 2 * size_of A) + 1) = name_hash (src_name f);
  v_rec : forall A f B, files = A ++ f :: B -> exists r,
    flash_bytes (fs_flash s) (fs_start s + (8 + round4 (2 * size_of files) + 16 * size_of A)) 16 = r /\
    (forall tail, rec_name (r ++ tail) = name_at files A) /\ (forall tail, rec_data (r ++ tail) = data_at files A) /\
    (forall tail, rec_len (r ++ tail) = size_of (src_data f)) /\ (forall tail, rec_time (r ++ tail) = src_time f);
  v_name : forall A f B, files = A ++ f :: B ->
    flash_bytes (fs_flash s) (fs_start s + name_at files A) (size_of (src_name f) + 1) = src_name f ++ [0];
  v_data : forall A f B, files = A ++ f :: B ->
    flash_bytes (fs_flash s) (fs_start s + data_at files A) (size_of (src_data f)) = src_data f }.

Definition mounted (s : erfs) (files : list source) : erfs := mk_erfs (fs_start s) (fs_size s) (size_of files) (fs_flash s).
Lemma size_nil : forall A, size_of (@nil A) = 0. Proof. reflexivity. Qed.
Lemma zeros_cons : forall n, 0 < n -> exists t, zeros n = 0 :: t.
Proof. intros n H. unfold zeros. destruct (Z.to_nat n) eqn:E; [lia|]. cbn. eauto. Qed.
Lemma mount : forall files size image s, create files size = Packed image -> installed s image ->
  erfs_begin s = (mounted s files, true, [(fs_start s, 8)]) /\ volume (mounted s files) files.
Proof.
  intros files size image s C I. pose proof (c43 files size) as K. rewrite C in K. destruct K as (L & S & w & W & SW & E).
  destruct (written_inv _ _ W) as (n & h & fat & D & N & HH & F). pose proof (pack_H_facts _ _ N) as (N1 & N2 & N3 & N4).
  assert (E0 : image = (str "ERFS" ++ [3; 2] ++ n) ++ (h ++ pad2 files ++ fat ++ name_table files ++ data_table files) ++ zeros (size - image_end files)).
  { rewrite E, D. rewrite <- !app_assoc. reflexivity. }
  assert (IE : 8 <= image_end files).
  { unfold image_end, data_at, names_start. pose proof (sum_names_nonneg files). pose proof (sum_datas_nonneg files).
    pose proof (size_nonneg _ files). pose proof (round4_facts (2 * size_of files) ltac:(lia)). lia. }
  destruct I as (I1 & I2 & I3 & I4 & I5). assert (I : installed s image) by (repeat split; auto).
  assert (S8 : size_of (str "ERFS" ++ [3; 2] ++ n) = 8) by (rewrite !size_app, N2; reflexivity).
  split.
  - unfold erfs_begin, hal_read. rewrite u32_small by lia. replace (0 + 8 >? fs_size s) with false by lia.
    rewrite Z.add_0_r, u32_small by lia.
    pose proof (flash_part s image [] _ _ I E0) as B. rewrite size_nil, Z.add_0_r, S8 in B. rewrite B.
    destruct n as [|n0 [|n1 [|]]]; try (unfold size_of in N2; cbn [length] in N2; lia).
    change ((word32 (str "ERFS" ++ [3; 2] ++ [n0; n1]) =? 1397117509) && (nth 4 (str "ERFS" ++ [3; 2] ++ [n0; n1]) 0 =? 3) &&
      (nth 5 (str "ERFS" ++ [3; 2] ++ [n0; n1]) 0 =? 2)) with true. cbv iota.
    change (word16 (skipn 6 (str "ERFS" ++ [3; 2] ++ [n0; n1]))) with (word16 [n0; n1]). rewrite N3. reflexivity.
  - assert (Z0 : size_of (zeros (size - image_end files)) = size - image_end files) by (apply size_zeros; lia).
    assert (P2 := pad2_size files).
    constructor; cbn [mounted fs_start fs_size fs_files fs_flash]; auto; try lia.
    + intros A f B FE. rewrite FE in HH. destruct (hash_split _ _ _ _ HH) as (a & hh & b & -> & SA & PH).
      pose proof (pack_H_facts _ _ PH) as (H1 & H2 & H3 & H4). rewrite same_hash in H3. rewrite <- H3.
      assert (E1 : image = ((str "ERFS" ++ [3; 2] ++ n) ++ a) ++ hh ++ (b ++ pad2 files ++ fat ++ name_table files ++ data_table files ++ zeros (size - image_end files))).
      { rewrite E0, <- !app_assoc. reflexivity. }
      pose proof (flash_part s image _ _ _ I E1) as X. rewrite size_app, S8, SA, H2 in X. rewrite <- X.
      unfold word16. pose proof (flash_nth (fs_flash s) (fs_start s + (8 + 2 * size_of A)) 2 0 ltac:(lia)) as X0.
      pose proof (flash_nth (fs_flash s) (fs_start s + (8 + 2 * size_of A)) 2 1 ltac:(lia)) as X1.
      change (Z.to_nat 0) with 0%nat in X0. change (Z.to_nat 1) with 1%nat in X1. rewrite X0, X1, Z.add_0_r. reflexivity.
    + intros A f B FE. rewrite FE in F at 1. destruct (fat_split _ _ _ _ _ _ F) as (a & r & b & -> & SA & SR & R1 & R2 & R3 & R4).
      assert (E1 : image = ((str "ERFS" ++ [3; 2] ++ n) ++ h ++ pad2 files ++ a) ++ r ++ (b ++ name_table files ++ data_table files ++ zeros (size - image_end files))).
      { rewrite E0, <- !app_assoc. reflexivity. }
      pose proof (flash_part s image _ _ _ I E1) as X. rewrite !size_app, N2, SA, SR, (hash_size _ _ HH) in X.
      change (size_of (str "ERFS")) with 4 in X. change (size_of [3; 2]) with 2 in X.
      replace (4 + (2 + 2) + (2 * size_of files + (size_of (pad2 files) + 16 * size_of A))) with (8 + round4 (2 * size_of files) + 16 * size_of A) in X by lia.
      exists r. split; [exact X|]. split; [exact R1|]. split; [|auto]. intros. rewrite R2. unfold data_at. cbn [map]. change (sum []) with 0. lia.
    + intros A f B FE.
      assert (NT : name_table files = name_table A ++ src_name f ++ zeros (py_align32 (size_of (src_name f) + 1) - size_of (src_name f)) ++ name_table B).
      { rewrite FE, name_table_app. unfold name_table at 2. cbn [flat_map]. rewrite <- app_assoc. reflexivity. }
      pose proof (name_room_facts f) as NR. unfold name_room in NR. pose proof (size_nonneg _ (src_name f)).
      destruct (zeros_cons (py_align32 (size_of (src_name f) + 1) - size_of (src_name f))) as [z ZE]; [rewrite py_align by lia; lia|].
      rewrite ZE in NT.
      assert (E1 : image = ((str "ERFS" ++ [3; 2] ++ n) ++ h ++ pad2 files ++ fat ++ name_table A) ++ (src_name f ++ [0]) ++ (z ++ name_table B ++ data_table files ++ zeros (size - image_end files))).
      { rewrite E0, NT. rewrite <- !app_assoc. reflexivity. }
      pose proof (flash_part s image _ _ _ I E1) as X. rewrite !size_app, N2, (hash_size _ _ HH), (fat_size _ _ _ _ F), name_size in X.
      change (size_of (str "ERFS")) with 4 in X. change (size_of [3; 2]) with 2 in X. change (size_of [0]) with 1 in X.
      unfold name_at, names_start. 
      replace (8 + round4 (2 * size_of files) + 16 * size_of files + sum (map name_room A)) with
        (4 + (2 + 2) + (2 * size_of files + (size_of (pad2 files) + (16 * size_of files + sum (map name_room A))))) by lia. exact X.
    + intros A f B FE.
      assert (DT : data_table files = data_table A ++ src_data f ++ zeros (py_align32 (size_of (src_data f)) - size_of (src_data f)) ++ data_table B).
      { rewrite FE, data_table_app. unfold data_table at 2. cbn [flat_map]. rewrite <- app_assoc. reflexivity. }
      assert (E1 : image = ((str "ERFS" ++ [3; 2] ++ n) ++ h ++ pad2 files ++ fat ++ name_table files ++ data_table A) ++ src_data f ++ (zeros (py_align32 (size_of (src_data f)) - size_of (src_data f)) ++ data_table B ++ zeros (size - image_end files))).
      { rewrite E0, DT. rewrite <- !app_assoc. reflexivity. }
      pose proof (flash_part s image _ _ _ I E1) as X. rewrite !size_app, N2, (hash_size _ _ HH), (fat_size _ _ _ _ F), name_size, data_size in X.
      change (size_of (str "ERFS")) with 4 in X. change (size_of [3; 2]) with 2 in X.
      unfold data_at, names_start.
      replace (8 + round4 (2 * size_of files) + 16 * size_of files + sum (map name_room files) + sum (map data_room A)) with
        (4 + (2 + 2) + (2 * size_of files + (size_of (pad2 files) + (16 * size_of files + (sum (map name_room files) + sum (map data_room A)))))) by lia. exact X.
Qed.

(** ** Reading the flash memory *)
Lemma inside_app : forall s a b, inside s a -> inside s b -> inside s (a ++ b).
Proof. intros. apply Forall_app. auto. Qed.
Lemma hal_ok : forall s addr n, 0 <= fs_start s -> fs_start s + fs_size s < 2147483648 -> 0 <= addr -> 0 <= n -> addr + n <= fs_size s ->
  hal_read s addr n = (Some (flash_bytes (fs_flash s) (fs_start s + addr) n), [(fs_start s + addr, n)]) /\ inside s [(fs_start s + addr, n)].
Proof.
  intros s addr n A B C D E. unfold hal_read. rewrite !u32_small by lia. replace (addr + n >? fs_size s) with false by lia. split; auto.
  constructor; [cbn; lia|constructor].
Qed.
Lemma hal_out : forall s addr n, 0 <= addr -> 0 <= n -> fs_size s < addr + n < 4294967296 -> hal_read s addr n = (None, []).
Proof. intros s addr n A C E. unfold hal_read. rewrite u32_small by lia. replace (addr + n >? fs_size s) with true by lia. auto. Qed.
Lemma inside_nil : forall s, inside s []. Proof. constructor. Qed.

Lemma strncmp_cstr : forall nm path k rest rest', Forall (fun c => c <> 0) nm -> Forall (fun c => c <> 0) path -> (length nm < k)%nat ->
  strncmp_eq k (nm ++ 0 :: rest) (path ++ 0 :: rest') = Some (beq nm path).
Proof.
  induction nm as [|x nm IH]; intros path k rest rest' N P K; (destruct k as [|k]; [cbn in K; lia|]); destruct path as [|y path]; cbn [app strncmp_eq beq].
  - reflexivity.
  - inv P. replace (0 =? y) with false by lia. reflexivity.
  - inv N. replace (x =? 0) with false by lia. reflexivity.
  - inv N. inv P. destruct (Z.eqb_spec x y) as [->|Q]; cbn [andb]; auto. replace (y =? 0) with false by lia. apply IH; auto. cbn [length] in K. lia.
Qed.

Section Search.
Variables (s : erfs) (files : list source) (path : list Z).
Hypothesis V : volume s files.
Hypothesis REG : Forall regular files.
Hypothesis SHORT : Forall (fun f => size_of (src_name f) <= 63) files.
Hypothesis PATH : Forall (fun c => c <> 0) path.

Definition block_ok (b : Z) (cache : list Z) : Prop := forall A f B, files = A ++ f :: B -> size_of A / 8 = b ->
  word16 (skipn (Z.to_nat (2 * (size_of A mod 8))) cache) = name_hash (src_name f).
Definition stale (name : list Z) : Prop := exists nm rest, name = nm ++ 0 :: rest /\ Forall (fun c => c <> 0) nm /\ length name = 64%nat /\
  nth 63 name 0 = 0 /\ nm <> path.
Definition opened (A : list source) (f : source) (e : efile) : Prop :=
  rec_data (ef_rec e) = data_at files A /\ ef_size e = size_of (src_data f) /\ ef_time e = src_time f /\
  ef_full_name e = Some (src_name f) /\ ef_pos e = 0.

Lemma fat_is : fat_addr s = 8 + round4 (2 * size_of files).
Proof.
  unfold fat_addr. rewrite (v_files _ _ V). pose proof (v_count _ _ V). pose proof (size_nonneg _ files).
  rewrite fw_align by lia. pose proof (round4_facts (2 * size_of files) ltac:(lia)). apply u32_small. lia.
Qed.
Lemma bounds : forall A f B, files = A ++ f :: B -> 0 <= size_of A /\ size_of A + 1 <= size_of files /\
  8 + round4 (2 * size_of files) + 16 * size_of files <= name_at files A /\ name_at files A + name_room f <= data_at files A /\
  data_at files A + data_room f <= fs_size s.
Proof.
  intros A f B E. pose proof (size_nonneg _ A). pose proof (size_nonneg _ B). pose proof (v_room _ _ V) as R. unfold image_end in R.
  assert (S : size_of files = size_of A + 1 + size_of B) by (rewrite E, size_app, size_cons; lia).
  assert (SN : sum (map name_room files) = sum (map name_room A) + name_room f + sum (map name_room B)) by (rewrite E, map_app, sum_app; cbn [map]; rewrite sum_cons; lia).
  assert (SD : sum (map data_room files) = sum (map data_room A) + data_room f + sum (map data_room B)) by (rewrite E, map_app, sum_app; cbn [map]; rewrite sum_cons; lia).
  pose proof (sum_names_nonneg A). pose proof (sum_names_nonneg B). pose proof (sum_datas_nonneg A). pose proof (sum_datas_nonneg B).
  unfold name_at, data_at, names_start in *. lia.
Qed.

(** The hashes read at the beginning of a block. *)
Lemma read_block : forall A f B cache, files = A ++ f :: B -> size_of A mod 8 = 0 ->
  exists c l, read_into s (u32 (8 + size_of A * 2)) 16 cache = (c, l) /\ inside s l /\ block_ok (size_of A / 8) c.
Proof.
  intros A f B cache E M. destruct (bounds A f B E) as (B1 & B2 & B3 & B4 & B5). pose proof (v_count _ _ V).
  pose proof (name_room_facts f). pose proof (size_nonneg _ (src_name f)). pose proof (data_room_facts f). pose proof (size_nonneg _ (src_data f)).
  pose proof (round4_facts (2 * size_of files) ltac:(lia)).
  destruct (hal_ok s (8 + size_of A * 2) 16 (v_start _ _ V) (v_end _ _ V) ltac:(lia) ltac:(lia) ltac:(lia)) as [HR HI].
  unfold read_into. rewrite u32_small by lia. rewrite HR. do 2 eexists. split; [reflexivity|]. split; [exact HI|].
  intros A' f' B' E' Q. pose proof (size_nonneg _ A'). pose proof (Z.div_mod (size_of A') 8 ltac:(lia)) as D'. pose proof (Z.mod_pos_bound (size_of A') 8 ltac:(lia)) as M'.
  pose proof (Z.div_mod (size_of A) 8 ltac:(lia)) as D.
  rewrite <- (v_hash _ _ V A' f' B' E'). unfold word16. set (r := size_of A' mod 8) in *.
  assert (N : forall t, 0 <= t < 2 -> nth (Z.to_nat t) (skipn (Z.to_nat (2 * r)) (flash_bytes (fs_flash s) (fs_start s + (8 + size_of A * 2)) 16 ++
      skipn (length (flash_bytes (fs_flash s) (fs_start s + (8 + size_of A * 2)) 16)) cache)) 0 = fs_flash s (fs_start s + (8 + 2 * size_of A') + t)).
  { intros t T. assert (NS : forall k (l : list Z) i, nth i (skipn k l) 0 = nth (k + i) l 0).
    { induction k as [|k IHk]; intros [|x l] i; cbn [skipn Nat.add nth]; auto. destruct i; reflexivity. }
    rewrite NS. rewrite <- Z2Nat.inj_add by lia. rewrite app_nth1.
    - rewrite flash_nth by lia. f_equal. lia.
    - pose proof (flash_size (fs_flash s) (fs_start s + (8 + size_of A * 2)) 16 ltac:(lia)) as FS. unfold size_of in FS at 1. lia. }
  pose proof (N 0 ltac:(lia)) as N0. pose proof (N 1 ltac:(lia)) as N1. change (Z.to_nat 0) with 0%nat in N0. change (Z.to_nat 1) with 1%nat in N1.
  rewrite N0, N1. rewrite Z.add_0_r. reflexivity.
Qed.

Lemma last_byte : forall n (name : list Z), length name = S n -> nth n name 0 = 0 -> skipn n name = [0].
Proof.
  induction n as [|n IH]; intros [|x name] L Z; cbn [length] in L; try lia; cbn [skipn nth] in *.
  - destruct name; [subst; reflexivity|cbn in L; lia].
  - apply IH; auto.
Qed.
(** The name read by the search. *)
Lemma read_name : forall A f B name, files = A ++ f :: B -> length name = 64%nat -> nth 63 name 0 = 0 -> name_at files A + 63 <= fs_size s ->
  exists rest, read_into s (name_at files A) 63 name = (src_name f ++ 0 :: rest, [(fs_start s + name_at files A, 63)]) /\
    inside s [(fs_start s + name_at files A, 63)] /\ length (src_name f ++ 0 :: rest) = 64%nat /\ nth 63 (src_name f ++ 0 :: rest) 0 = 0.
Proof.
  intros A f B name E LN ZN R. destruct (bounds A f B E) as (B1 & B2 & B3 & B4 & B5).
  pose proof (round4_facts (2 * size_of files) ltac:(lia)).
  destruct (hal_ok s (name_at files A) 63 (v_start _ _ V) (v_end _ _ V) ltac:(lia) ltac:(lia) ltac:(lia)) as [HR HI].
  unfold read_into. rewrite HR. pose proof (v_name _ _ V A f B E) as VN.
  assert (LB : length (flash_bytes (fs_flash s) (fs_start s + name_at files A) 63) = 63%nat) by (unfold flash_bytes; rewrite map_length, seq_length; reflexivity).
  rewrite LB. assert (SK : skipn 63 name = [0]).
  { apply last_byte; auto. }
  rewrite SK. assert (SF : size_of (src_name f) <= 63) by (rewrite Forall_forall in SHORT; apply SHORT; rewrite E; apply in_app_iff; right; left; auto).
  pose proof (size_nonneg _ (src_name f)).
  destruct (Z.eq_dec (size_of (src_name f)) 63) as [L|L].
  - exists []. assert (FB : flash_bytes (fs_flash s) (fs_start s + name_at files A) 63 = src_name f).
    { rewrite L in VN. rewrite flash_app in VN by lia.
      assert (X : length (flash_bytes (fs_flash s) (fs_start s + name_at files A) 63) = length (src_name f)) by (unfold size_of in L; lia).
      apply (f_equal (firstn 63)) in VN. rewrite firstn_app, LB, Nat.sub_diag, firstn_O, app_nil_r in VN.
      rewrite firstn_app in VN. rewrite <- X, LB, Nat.sub_diag, firstn_O, app_nil_r in VN. rewrite !firstn_all2 in VN by lia. exact VN. }
    rewrite FB. repeat split; auto; try (rewrite app_length; cbn [length]; unfold size_of in L; lia).
    rewrite app_nth2 by (unfold size_of in L; lia). replace (63 - length (src_name f))%nat with 0%nat by (unfold size_of in L; lia). reflexivity.
  - exists (flash_bytes (fs_flash s) (fs_start s + name_at files A + (size_of (src_name f) + 1)) (63 - (size_of (src_name f) + 1)) ++ [0]).
    replace (flash_bytes (fs_flash s) (fs_start s + name_at files A) 63) with
      (flash_bytes (fs_flash s) (fs_start s + name_at files A) ((size_of (src_name f) + 1) + (63 - (size_of (src_name f) + 1)))) by (f_equal; lia).
    rewrite flash_app by lia. rewrite VN. rewrite <- !app_assoc. cbn [app]. split; [reflexivity|]. split; [exact HI|].
    assert (LF : length (src_name f ++ 0 :: flash_bytes (fs_flash s) (fs_start s + name_at files A + (size_of (src_name f) + 1)) (63 - (size_of (src_name f) + 1))) = 63%nat).
    { rewrite app_length. cbn [length]. unfold flash_bytes. rewrite map_length, seq_length. unfold size_of in *. lia. }
    replace (src_name f ++ 0 :: flash_bytes (fs_flash s) (fs_start s + name_at files A + (size_of (src_name f) + 1)) (63 - (size_of (src_name f) + 1)) ++ [0]) with
      ((src_name f ++ 0 :: flash_bytes (fs_flash s) (fs_start s + name_at files A + (size_of (src_name f) + 1)) (63 - (size_of (src_name f) + 1))) ++ [0]) by (rewrite <- app_assoc; reflexivity).
    split; [rewrite app_length, LF; reflexivity|]. rewrite app_nth2 by lia. rewrite LF. reflexivity.
Qed.

Lemma search_files : forall B A cache rec name, files = A ++ B -> (size_of A mod 8 <> 0 -> block_ok (size_of A / 8) cache) -> stale name ->
  exists r l, search s path (length B) (size_of A) cache rec name = Some (r, l) /\ inside s l /\
    match r with
    | Some e => exists A1 f B1, files = A1 ++ f :: B1 /\ src_name f = path /\ name_at files A1 + 63 <= fs_size s /\ opened A1 f e
    | None => forall A1 f B1, files = A1 ++ f :: B1 -> size_of A <= size_of A1 -> src_name f = path -> name_at files A1 + 63 > fs_size s
    end.
Proof.
  induction B as [|f B IH]; intros A cache rec name E C ST.
  - cbn [length search]. do 2 eexists. split; [reflexivity|]. split; [apply inside_nil|]. intros A1 f B1 E1 L.
    rewrite E1 in E. apply (f_equal size_of) in E. rewrite !size_app, size_cons, size_nil in E. pose proof (size_nonneg _ B1). lia.
  - destruct (bounds A f B E) as (B1 & B2 & B3 & B4 & B5). pose proof (v_count _ _ V) as CNT.
    pose proof (name_room_facts f). pose proof (size_nonneg _ (src_name f)). pose proof (data_room_facts f). pose proof (size_nonneg _ (src_data f)).
    pose proof (round4_facts (2 * size_of files) ltac:(lia)). pose proof (v_end _ _ V). pose proof (v_start _ _ V).
    assert (CB : exists c l1, (if size_of A mod 8 =? 0 then read_into s (u32 (8 + size_of A * 2)) 16 cache else (cache, [])) = (c, l1) /\
      inside s l1 /\ block_ok (size_of A / 8) c).
    { destruct (Z.eqb_spec (size_of A mod 8) 0) as [M|M]; [exact (read_block A f B cache E M)|]. exists cache, []. split; auto. split; [apply inside_nil|auto]. }
    destruct CB as (c & l1 & EC & I1 & BO).
    assert (NEXT : size_of (A ++ [f]) mod 8 <> 0 -> block_ok (size_of (A ++ [f]) / 8) c).
    { intros M. rewrite size_app in *. change (size_of [f]) with 1 in *. replace ((size_of A + 1) / 8) with (size_of A / 8); auto.
      pose proof (Z.div_mod (size_of A) 8 ltac:(lia)). pose proof (Z.mod_pos_bound (size_of A) 8 ltac:(lia)).
      pose proof (Z.div_mod (size_of A + 1) 8 ltac:(lia)). pose proof (Z.mod_pos_bound (size_of A + 1) 8 ltac:(lia)). lia. }
    assert (EA : files = (A ++ [f]) ++ B) by (rewrite <- app_assoc; exact E).
    assert (LAST : forall A1 g B1, files = A1 ++ g :: B1 -> size_of A <= size_of A1 -> size_of (A ++ [f]) <= size_of A1 \/ (A1 = A /\ g = f)).
    { intros A1 g B1' E1 L. rewrite size_app. change (size_of [f]) with 1. destruct (Z.eq_dec (size_of A1) (size_of A)) as [Q|Q]; [right|left; lia].
      rewrite E in E1. unfold size_of in Q. assert (Q' : length A1 = length A) by lia. clear - E1 Q'.
      assert (HA : A1 = A). { apply (f_equal (firstn (length A))) in E1. rewrite firstn_app, Nat.sub_diag, firstn_O, app_nil_r, firstn_all in E1.
        rewrite <- Q' in E1. rewrite firstn_app, Nat.sub_diag, firstn_O, app_nil_r, firstn_all in E1. auto. }
      subst. apply app_inv_head in E1. inv E1. auto. }
    cbn [length search]. rewrite EC. rewrite (BO A f B E eq_refl).
    destruct (Z.eqb_spec (name_hash path) (name_hash (src_name f))) as [HQ|HQ].
    + destruct (v_rec _ _ V A f B E) as (r & RF & R1 & R2 & R3 & R4).
      rewrite fat_is. rewrite (u32_small (8 + round4 (2 * size_of files) + 16 * size_of A)) by lia.
      unfold read_into at 1.
      destruct (hal_ok s (8 + round4 (2 * size_of files) + 16 * size_of A) 16 (v_start _ _ V) (v_end _ _ V) ltac:(lia) ltac:(lia) ltac:(lia)) as [HR HI].
      rewrite HR, RF. rewrite R1.
      assert (REGF : regular f) by (rewrite Forall_forall in REG; apply REG; rewrite E; apply in_app_iff; right; left; auto).
      assert (NZ : Forall (fun c => c <> 0) (src_name f)).
      { destruct REGF as (_ & F & _). eapply Forall_impl; [|exact F]. intros x X. cbn in X. lia. }
      assert (SF : size_of (src_name f) <= 63) by (rewrite Forall_forall in SHORT; apply SHORT; rewrite E; apply in_app_iff; right; left; auto).
      destruct (Z_le_gt_dec (name_at files A + 63) (fs_size s)) as [OK|NO].
      * destruct (read_name A f B name E) as (rest & RN & IN & LN & ZN); [destruct ST as (nm & rst & ST); tauto|destruct ST as (nm & rst & ST); tauto|exact OK|]. rewrite RN. rewrite strncmp_cstr by (auto; unfold size_of in SF; lia).
        destruct (beq (src_name f) path) eqn:BQ.
        -- apply beq_eq in BQ. do 2 eexists. split; [reflexivity|]. split; [apply inside_app; auto; apply inside_app; auto|].
           exists A, f, B. split; [exact E|]. split; [exact BQ|]. split; [exact OK|]. unfold opened, ef_size, ef_time, ef_full_name; cbn [ef_rec ef_name ef_pos].
           rewrite R2, R3, R4. rewrite cstr_from_app by auto. auto.
        -- apply beq_neq in BQ.
           edestruct (IH (A ++ [f]) c) as (r' & l & ES & IL & RES); [exact EA|exact NEXT| |].
           { exists (src_name f), rest. split; [reflexivity|]. split; [exact NZ|]. split; [exact LN|]. split; [exact ZN|exact BQ]. }
           rewrite size_app in ES. change (size_of [f]) with 1 in ES. rewrite ES. do 2 eexists. split; [reflexivity|].
           split; [apply inside_app; auto; apply inside_app; auto; apply inside_app; auto|]. destruct r'; [exact RES|].
           intros A1 g B1' E1 L Q. destruct (LAST _ _ _ E1 L) as [L'|[-> ->]]; [eapply RES; eauto|]. contradiction.
      * unfold read_into. rewrite hal_out by lia. destruct ST as (nm & rst & EN & NN & LN & ZN & NP). rewrite EN. rewrite strncmp_cstr; auto.
        2: { rewrite EN in LN, ZN. rewrite app_length in LN. cbn [length] in LN. lia. }
        replace (beq nm path) with false by (symmetry; apply beq_neq; auto). rewrite <- EN.
        edestruct (IH (A ++ [f]) c) as (r' & l & ES & IL & RES); [exact EA|exact NEXT| |].
        { exists nm, rst. split; [exact EN|]. split; [exact NN|]. split; [exact LN|]. split; [exact ZN|exact NP]. }
        rewrite size_app in ES. change (size_of [f]) with 1 in ES. rewrite ES. do 2 eexists. split; [reflexivity|].
        split; [apply inside_app; auto; apply inside_app; auto|]. destruct r'; [exact RES|].
        intros A1 g B1' E1 L Q. destruct (LAST _ _ _ E1 L) as [L'|[-> ->]]; [eapply RES; eauto|]. exact NO.
    + edestruct (IH (A ++ [f]) c) as (r' & l & ES & IL & RES); [exact EA|exact NEXT|exact ST|].
      rewrite size_app in ES. change (size_of [f]) with 1 in ES. rewrite ES. do 2 eexists. split; [reflexivity|].
      split; [apply inside_app; auto|]. destruct r'; [exact RES|].
      intros A1 g B1' E1 L Q. destruct (LAST _ _ _ E1 L) as [L'|[-> ->]]; [eapply RES; eauto|]. exfalso. apply HQ. rewrite Q. reflexivity.
Qed.
End Search.
