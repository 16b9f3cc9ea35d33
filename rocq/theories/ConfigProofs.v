(** Proofs about the configuration: memory layout, save, restart, forms, histories. *)
From Coq Require Import ZArith List Bool Lia ZifyBool ZifyNat.
From Verif Require Import Base BaseFacts Config ConfigSpec CrcProofs.
Import ListNotations.
Open Scope Z_scope.

(** ** Members *)
Lemma feq_dec : forall f g : fld, {f = g} + {f <> g}.
Proof. decide equality. Defined.

Definition field_at (i : nat) : fld := nth i fields Crc.
Lemma field_at_idx : forall f, field_at (fidx f) = f.
Proof. destruct f; reflexivity. Qed.
Lemma fidx_inj : forall f g, fidx f = fidx g -> f = g.
Proof. intros f g H. rewrite <- (field_at_idx f), <- (field_at_idx g), H. auto. Qed.
Lemma fidx_lt : forall f, (fidx f < 35)%nat.
Proof. destruct f; cbn [fidx]; lia. Qed.
Lemma fields_idx : map fidx fields = seq 0 35.
Proof. reflexivity. Qed.
Lemma sizes_idx : forall f, nth (fidx f) sizes 0%nat = fsize f.
Proof. destruct f; reflexivity. Qed.
Lemma fields_all : forall f, In f fields.
Proof. destruct f; cbn [fields In]; auto 40. Qed.

Lemma nth_put_same : forall c i v, (i < length c)%nat -> nth i (put_nth i v c) [] = v.
Proof. induction c; intros; cbn [length] in *; [lia|]. destruct i; cbn [put_nth nth]; auto. apply IHc. lia. Qed.
Lemma nth_put_other : forall c i j v, i <> j -> nth j (put_nth i v c) [] = nth j c [].
Proof.
  induction c as [|a c IHc]; intros i j v H; [destruct i; reflexivity|].
  destruct i as [|i], j as [|j]; [congruence|reflexivity|reflexivity|].
  cbn [put_nth nth]. apply IHc. lia.
Qed.
Lemma put_nth_length : forall c i v, length (put_nth i v c) = length c.
Proof. induction c; intros i v; [destruct i; reflexivity|]. destruct i; cbn [put_nth length]; auto. Qed.

Lemma get_set_same : forall f v c, length c = 35%nat -> get f (set f v c) = v.
Proof. intros. unfold get, set. apply nth_put_same. pose proof (fidx_lt f). lia. Qed.
Lemma get_set_other : forall f g v c, f <> g -> get g (set f v c) = get g c.
Proof. intros. unfold get, set. apply nth_put_other. intro E. apply fidx_inj in E. auto. Qed.
Lemma set_length : forall f v c, length (set f v c) = length c.
Proof. intros. apply put_nth_length. Qed.

Lemma wf_length : forall c, wf c -> length c = 35%nat.
Proof. intros c [H _]. apply (f_equal (@length nat)) in H. rewrite map_length in H. exact H. Qed.

Lemma get_len : forall f c, wf c -> length (get f c) = fsize f.
Proof.
  intros f c H. pose proof (wf_length c H) as HL. destruct H as [H _].
  rewrite <- sizes_idx, <- H. change 0%nat with (@length Z []). rewrite map_nth. reflexivity.
Qed.
Lemma get_bytes : forall f c, wf c -> bytes (get f c).
Proof.
  intros f c H. pose proof (wf_length c H) as HL. destruct H as [_ H]. unfold get.
  rewrite Forall_forall in H. apply H. apply nth_In. pose proof (fidx_lt f). lia.
Qed.

Lemma map_nth_seq : forall (c : cfg) k, map (fun i => nth i (repeat [] k ++ c) []) (seq k (length c)) = c.
Proof.
  induction c as [|h c IH]; intros k; cbn [length seq map]; auto. f_equal.
  - rewrite app_nth2; rewrite repeat_length; auto. rewrite Nat.sub_diag. reflexivity.
  - specialize (IH (S k)).
    rewrite <- IH at 2. apply map_ext_in. intros i Hi. apply in_seq in Hi.
    rewrite !app_nth2; rewrite !repeat_length; try lia.
    replace (i - k)%nat with (S (i - S k)) by lia. reflexivity.
Qed.
Lemma cfg_fields : forall c, length c = 35%nat -> map (fun f => get f c) fields = c.
Proof.
  intros c H. transitivity (map (fun i => nth i c []) (map fidx fields)).
  - rewrite map_map. reflexivity.
  - rewrite fields_idx, <- H. apply (map_nth_seq c 0).
Qed.
Lemma cfg_ext : forall c c', length c = 35%nat -> length c' = 35%nat ->
  (forall f, get f c = get f c') -> c = c'.
Proof.
  intros c c' H H' E. rewrite <- (cfg_fields c H), <- (cfg_fields c' H'). apply map_ext. auto.
Qed.

Lemma mk_wf : forall c, length c = 35%nat -> (forall f, length (get f c) = fsize f /\ bytes (get f c)) -> wf c.
Proof.
  intros c HL H. rewrite <- (cfg_fields c HL). split.
  - rewrite map_map. unfold sizes. apply map_ext. intros f. apply H.
  - apply Forall_forall. intros x Hx. apply in_map_iff in Hx. destruct Hx as (f & <- & _). apply H.
Qed.

Lemma set_wf : forall f v c, wf c -> length v = fsize f -> bytes v -> wf (set f v c).
Proof.
  intros f v c H Hv Hb. pose proof (wf_length c H). apply mk_wf; [rewrite set_length; auto|].
  intros g. destruct (feq_dec f g) as [->|Hn].
  - rewrite get_set_same by auto. auto.
  - rewrite get_set_other by auto. split; [apply get_len|apply get_bytes]; auto.
Qed.

(** ** Images *)
Lemma sizes_sum : list_sum sizes = CFG_SIZE.
Proof. vm_compute. reflexivity. Qed.

Lemma concat_length : forall c : cfg, length (concat c) = list_sum (map (@length Z) c).
Proof. induction c; cbn [concat map list_sum fold_right]; auto. rewrite app_length. f_equal. apply IHc. Qed.

Lemma image_length : forall c, wf c -> length (image c) = CFG_SIZE.
Proof. intros c [H _]. unfold image. rewrite concat_length, H. apply sizes_sum. Qed.
Lemma image_bytes : forall c, wf c -> bytes (image c).
Proof.
  intros c [_ H]. unfold image. induction H; cbn [concat]; [constructor|]. apply Forall_app. auto.
Qed.

Lemma split_concat : forall (c : cfg) ns, map (@length Z) c = ns -> split_sizes ns (concat c) = c.
Proof.
  induction c; intros ns H; cbn [map] in H; subst ns; cbn [split_sizes concat]; auto.
  rewrite firstn_app_exact, skipn_app_exact. f_equal. auto.
Qed.
Lemma of_image_image : forall c, wf c -> of_image (image c) = c.
Proof. intros c [H _]. apply split_concat. auto. Qed.

Lemma concat_split : forall ns b, list_sum ns = length b ->
  concat (split_sizes ns b) = b /\ map (@length Z) (split_sizes ns b) = ns.
Proof.
  induction ns as [|n ns IH]; intros b H.
  - destruct b; [auto|discriminate].
  - change (list_sum (n :: ns)) with (n + list_sum ns)%nat in H.
    cbn [split_sizes concat map]. destruct (IH (skipn n b)) as [E1 E2].
    { rewrite skipn_length. lia. }
    rewrite E1, E2, firstn_skipn, firstn_length, Nat.min_l by lia. auto.
Qed.
Lemma split_bytes : forall ns b, bytes b -> Forall bytes (split_sizes ns b).
Proof.
  induction ns; intros; cbn [split_sizes]; constructor.
  - apply Forall_forall. intros x Hx. rewrite <- (firstn_skipn a b) in H. apply Forall_app in H. destruct H as [H _].
    rewrite Forall_forall in H. auto.
  - apply IHns. rewrite <- (firstn_skipn a b) in H. apply Forall_app in H. apply H.
Qed.
Lemma image_of_image : forall b, flash_ok b -> image (of_image b) = b.
Proof. intros b [H _]. apply concat_split. rewrite sizes_sum, H. auto. Qed.
Lemma of_image_wf : forall b, flash_ok b -> wf (of_image b).
Proof.
  intros b [H Hb]. split; [|apply split_bytes; auto]. apply concat_split. rewrite sizes_sum, H. auto.
Qed.
Lemma image_flash_ok : forall c, wf c -> flash_ok (image c).
Proof. intros. split; [apply image_length|apply image_bytes]; auto. Qed.

(** ** Terminating the strings *)
Definition sec (f : fld) (b : list Z) : list Z := firstn (fsize f - 1) b ++ [0].
Definition secured (c : cfg) : cfg := map (fun f => if is_text f then sec f (get f c) else get f c) fields.

Lemma get_map : forall (h : fld -> list Z) f, get f (map h fields) = h f.
Proof. intros. unfold get. destruct f; reflexivity. Qed.
Lemma get_secured : forall c f, get f (secured c) = if is_text f then sec f (get f c) else get f c.
Proof. intros. unfold secured. rewrite get_map. auto. Qed.
Lemma sec_length : forall f b, length b = fsize f -> (0 < fsize f)%nat -> length (sec f b) = fsize f.
Proof. intros. unfold sec. rewrite app_length, firstn_length. cbn [length]. lia. Qed.
Lemma fsize_pos : forall f, (0 < fsize f)%nat.
Proof. destruct f; cbn [fsize]; lia. Qed.
Lemma firstn_bytes : forall n b, bytes b -> bytes (firstn n b).
Proof. intros. rewrite <- (firstn_skipn n b) in H. apply Forall_app in H. apply H. Qed.
Lemma skipn_bytes : forall n b, bytes b -> bytes (skipn n b).
Proof. intros. rewrite <- (firstn_skipn n b) in H. apply Forall_app in H. apply H. Qed.
Lemma sec_bytes : forall f b, bytes b -> bytes (sec f b).
Proof.
  intros. unfold sec. apply Forall_app. split; [apply firstn_bytes; auto|].
  constructor; [unfold is_byte; lia|constructor].
Qed.
Lemma secured_wf : forall c, wf c -> wf (secured c).
Proof.
  intros c H. apply mk_wf; [reflexivity|]. intros f. rewrite get_secured.
  destruct (is_text f); split.
  - apply sec_length; [apply get_len; auto|apply fsize_pos].
  - apply sec_bytes, get_bytes; auto.
  - apply get_len; auto.
  - apply get_bytes; auto.
Qed.
Lemma secured_terminated : forall c, terminated (secured c).
Proof. intros c f H. rewrite get_secured, H. unfold sec. apply in_app_iff. right. left. auto. Qed.

Lemma zero_at_sec : forall c f i, wf c -> S i = fsize f -> zero_at f i c = Some (set f (sec f (get f c)) c).
Proof.
  intros. unfold zero_at. rewrite upd_lt by (rewrite get_len; auto; lia).
  cbn iota beta. unfold sec. replace (fsize f - 1)%nat with i by lia.
  rewrite (skipn_all2 (n := S i)) by (rewrite get_len; auto; lia). reflexivity.
Qed.
Lemma sec_idem : forall f b, length b = fsize f -> sec f (sec f b) = sec f b.
Proof.
  intros. unfold sec at 1. unfold sec. f_equal.
  replace (fsize f - 1)%nat with (length (firstn (fsize f - 1) b)) at 1
    by (rewrite firstn_length; lia).
  apply firstn_app_exact.
Qed.

Lemma zero_all_spec : forall l c, wf c -> Forall (fun p => S (snd p) = fsize (fst p)) l ->
  exists c', zero_all l c = Some c' /\ wf c' /\
    forall f, get f c' = if existsb (fun p => if feq_dec (fst p) f then true else false) l
                         then sec f (get f c) else get f c.
Proof.
  induction l as [|[g i] l IH]; intros c Hc Hl.
  - exists c. cbn. auto.
  - inv Hl. cbn [fst snd] in H1. cbn [zero_all]. rewrite zero_at_sec by auto.
    assert (Hw : wf (set g (sec g (get g c)) c)).
    { apply set_wf; auto; [apply sec_length; [apply get_len; auto|apply fsize_pos]|apply sec_bytes, get_bytes; auto]. }
    destruct (IH _ Hw H2) as (c' & E & Hw' & Hg). exists c'. split; auto. split; auto.
    intros f. rewrite Hg. cbn [existsb fst]. destruct (feq_dec g f) as [->|Hn]; cbn [orb].
    + rewrite get_set_same by (apply wf_length; auto).
      destruct (existsb _ l); auto. apply sec_idem, get_len; auto.
    + rewrite get_set_other by auto. auto.
Qed.

Lemma securize_spec : forall c, wf c -> securize c = Some (secured c).
Proof.
  intros c H. destruct (zero_all_spec string_fields c H) as (c' & E & Hw & Hg).
  { repeat constructor. }
  unfold securize. rewrite E. f_equal. apply cfg_ext; [apply wf_length; auto|reflexivity|].
  intros f. rewrite Hg, get_secured. destruct f; reflexivity.
Qed.

Lemma secured_idem : forall c, wf c -> secured (secured c) = secured c.
Proof.
  intros. apply cfg_ext; [reflexivity|reflexivity|]. intros f. rewrite !get_secured.
  destruct (is_text f); auto. apply sec_idem, get_len; auto.
Qed.

(** ** Settings of secured objects *)
Lemma cstr_no_nul : forall b, ~ In 0 b -> cstr b = b.
Proof.
  induction b; intros; cbn [cstr]; auto. cbn [In] in H.
  destruct (Z.eqb_spec a 0); [exfalso; auto|]. f_equal. auto.
Qed.
Lemma cstr_app_nul : forall b t, cstr (b ++ 0 :: t) = cstr b.
Proof. induction b; intros; cbn [app cstr]; auto. destruct (a =? 0); auto. f_equal. auto. Qed.
Lemma cstr_firstn : forall b n, cstr (firstn n b) = firstn n (cstr b).
Proof.
  induction b; intros; destruct n; cbn [firstn cstr]; auto.
  destruct (a =? 0); auto. cbn [firstn]. f_equal. auto.
Qed.
Lemma cstr_length : forall b, (length (cstr b) <= length b)%nat.
Proof. induction b; cbn [cstr length]; [lia|]. destruct (a =? 0); cbn [length]; lia. Qed.
Lemma cstr_length_nul : forall b, In 0 b -> (length (cstr b) < length b)%nat.
Proof.
  induction b; intros H; [destruct H|]. cbn [cstr length]. destruct (Z.eqb_spec a 0); cbn [length]; [lia|].
  destruct H; [congruence|]. apply IHb in H. lia.
Qed.
Lemma cstr_sec : forall f b, cstr (sec f b) = firstn (fsize f - 1) (cstr b).
Proof. intros. unfold sec. rewrite cstr_app_nul. apply cstr_firstn. Qed.
Lemma cstr_sec_terminated : forall f b, length b = fsize f -> In 0 b -> cstr (sec f b) = cstr b.
Proof. intros. rewrite cstr_sec. apply firstn_all2. apply cstr_length_nul in H0. lia. Qed.

Lemma text_secured : forall c f, wf c -> is_text f = true -> text f (secured c) = firstn (fsize f - 1) (text f c).
Proof. intros. unfold text. rewrite get_secured, H0. apply cstr_sec. Qed.
Lemma text_secured_terminated : forall c f, wf c -> terminated c -> is_text f = true ->
  text f (secured c) = text f c.
Proof.
  intros. unfold text. rewrite get_secured, H1. apply cstr_sec_terminated; auto. apply get_len; auto.
Qed.
Lemma num_secured : forall c f, is_text f = false -> num f (secured c) = num f c.
Proof. intros. unfold num. rewrite get_secured, H. auto. Qed.

Lemma view_secured : forall c, wf c -> terminated c -> view (secured c) = view c.
Proof.
  intros. unfold view, bit. rewrite !text_secured_terminated by auto. rewrite !num_secured by auto. reflexivity.
Qed.
Lemma unused_secured : forall c, unused (secured c) = unused c.
Proof. intros. unfold unused. rewrite num_secured by auto. rewrite !get_secured. reflexivity. Qed.

(** Settings do not depend on the CRC. *)
Lemma view_set_crc : forall v c, view (set Crc v c) = view c.
Proof. intros. unfold view, text, bit, num. rewrite !get_set_other by discriminate. reflexivity. Qed.
Lemma unused_set_crc : forall v c, unused (set Crc v c) = unused c.
Proof. intros. unfold unused, num. rewrite !get_set_other by discriminate. reflexivity. Qed.
Lemma terminated_set_crc : forall v c, terminated c -> terminated (set Crc v c).
Proof. intros v c H f Hf. rewrite get_set_other; auto. intro E. subst f. discriminate. Qed.

(** ** The EEPROM *)
Definition EE (e : eeprom) : Prop :=
  flash_ok (e_buf e) /\ flash_ok (e_flash e) /\ (e_dirty e = false -> e_buf e = e_flash e).

Lemma ee_begin_ok : forall b, flash_ok b -> EE (ee_begin b).
Proof. intros. unfold EE, ee_begin. cbn [e_buf e_flash e_dirty]. auto. Qed.

Lemma skipn_cons : forall (b : list Z) i x, rd b i = Some x -> skipn i b = x :: skipn (S i) b.
Proof.
  unfold rd. induction b; intros; destruct i; cbn [nth_error skipn] in *; try discriminate; auto.
  inv H. auto.
Qed.

Lemma read_loop_spec : forall n i e crc, (i + n = length (e_buf e))%nat ->
  read_loop n i e crc = Some (skipn i (e_buf e), crc_from crc (skipn i (e_buf e))).
Proof.
  induction n; intros; cbn [read_loop].
  - rewrite skipn_all2 by lia. reflexivity.
  - destruct (rd_lt (e_buf e) i ltac:(lia)) as [b Hb]. rewrite Hb.
    rewrite IHn by lia. rewrite (skipn_cons _ _ _ Hb). reflexivity.
Qed.

Lemma config_read_spec : forall k s, flash_ok (e_buf (c_ee s)) ->
  config_read k s =
  Some (mk_cs (if crc_of (e_buf (c_ee s)) =? 0 then secured (of_image (e_buf (c_ee s)))
               else if k then zeroed else secured (of_image (e_buf (c_ee s)))) (c_ee s),
        crc_of (e_buf (c_ee s)) =? 0).
Proof.
  intros k s H. unfold config_read. rewrite read_loop_spec by (destruct H; lia).
  cbn [skipn]. rewrite securize_spec by (apply of_image_wf; auto). rewrite <- crc_of_from.
  destruct (crc_of (e_buf (c_ee s)) =? 0); reflexivity.
Qed.

(** Writing an image byte by byte. *)
Lemma upd_firstn_skipn : forall (m : list Z) i v, (i < length m)%nat ->
  firstn (S i) (firstn i m ++ v :: skipn (S i) m) = firstn i m ++ [v] /\
  skipn (S i) (firstn i m ++ v :: skipn (S i) m) = skipn (S i) m.
Proof.
  intros. assert (L : length (firstn i m) = i) by (rewrite firstn_length; lia). split.
  - rewrite <- L at 1. replace (S (length (firstn i m))) with (length (firstn i m ++ [v])) by (rewrite app_length; cbn; lia).
    replace (firstn i m ++ v :: skipn (S i) m) with ((firstn i m ++ [v]) ++ skipn (S i) m)
      by (rewrite <- app_assoc; reflexivity).
    apply firstn_app_exact.
  - rewrite <- L at 1. replace (S (length (firstn i m))) with (length (firstn i m ++ [v])) by (rewrite app_length; cbn; lia).
    replace (firstn i m ++ v :: skipn (S i) m) with ((firstn i m ++ [v]) ++ skipn (S i) m)
      by (rewrite <- app_assoc; reflexivity).
    apply skipn_app_exact.
Qed.

Lemma write_loop_spec : forall bs i e, (i + length bs = length (e_buf e))%nat ->
  exists e', write_loop i bs e = Some e' /\ e_buf e' = firstn i (e_buf e) ++ bs /\ e_flash e' = e_flash e /\
    (e_dirty e' = false -> e_dirty e = false /\ skipn i (e_buf e) = bs).
Proof.
  induction bs as [|b bs IH]; intros i e H; cbn [write_loop length] in *.
  - exists e. rewrite firstn_all2, skipn_all2, app_nil_r by lia. auto.
  - destruct (rd_lt (e_buf e) i ltac:(lia)) as [o Ho]. unfold ee_write. rewrite Ho.
    destruct (Z.eqb_spec o b) as [->|Hn].
    + destruct (IH (S i) e ltac:(lia)) as (e' & E & Eb & Ef & Ed). exists e'. split; auto. split.
      * rewrite Eb. rewrite <- (firstn_skipn i (e_buf e)) at 1. rewrite firstn_app, firstn_length, Nat.min_l by lia.
        rewrite firstn_firstn, Nat.min_r by lia. rewrite (skipn_cons _ _ _ Ho).
        replace (S i - i)%nat with 1%nat by lia. cbn [firstn]. rewrite <- app_assoc. reflexivity.
      * split; auto. intros D. destruct (Ed D). split; auto. rewrite (skipn_cons _ _ _ Ho). f_equal. auto.
    + rewrite upd_lt by lia. cbn iota beta.
      destruct (upd_firstn_skipn (e_buf e) i b ltac:(lia)) as [E1 E2].
      destruct (IH (S i) (mk_ee (firstn i (e_buf e) ++ b :: skipn (S i) (e_buf e)) true (e_flash e)))
        as (e' & E & Eb & Ef & Ed).
      { cbn [e_buf]. rewrite app_length, firstn_length. cbn [length]. rewrite skipn_length. lia. }
      exists e'. split; auto. cbn [e_buf e_flash e_dirty] in *. split.
      * rewrite Eb, E1, <- app_assoc. reflexivity.
      * split; auto. intros D. destruct (Ed D). discriminate.
Qed.

(** ** Saving *)
Definition sealed (c : cfg) : cfg := set Crc (le16 (crc_of (firstn (CFG_SIZE - 2) (image c)))) c.

Lemma sealed_wf : forall c, wf c -> wf (sealed c).
Proof. intros. apply set_wf; auto. apply le16_bytes. Qed.

Lemma image_split_crc : forall c, wf c -> image c = concat (firstn 34 c) ++ get Crc c.
Proof.
  intros c H. pose proof (wf_length c H) as HL. unfold image.
  rewrite <- (firstn_skipn 34 c) at 1. rewrite concat_app. f_equal.
  unfold get. change (fidx Crc) with 34%nat.
  do 35 (destruct c as [|? c]; [discriminate HL|]). destruct c; [|discriminate HL].
  cbn [skipn nth concat]. apply app_nil_r.
Qed.
Lemma front_length : forall c, wf c -> length (concat (firstn 34 c)) = (CFG_SIZE - 2)%nat.
Proof.
  intros c H. pose proof (image_length c H) as HL. rewrite image_split_crc, app_length, get_len in HL by auto.
  change (fsize Crc) with 2%nat in HL. lia.
Qed.
Lemma firstn_front : forall c, wf c -> firstn (CFG_SIZE - 2) (image c) = concat (firstn 34 c).
Proof. intros. rewrite image_split_crc, <- (front_length c) by auto. apply firstn_app_exact. Qed.
Lemma firstn_set_crc : forall v c, length c = 35%nat -> firstn 34 (set Crc v c) = firstn 34 c.
Proof.
  intros v c HL. unfold set. change (fidx Crc) with 34%nat.
  do 35 (destruct c as [|? c]; [discriminate HL|]). destruct c; [|discriminate HL]. reflexivity.
Qed.
Lemma image_sealed : forall c, wf c ->
  image (sealed c) = firstn (CFG_SIZE - 2) (image c) ++ le16 (crc_of (firstn (CFG_SIZE - 2) (image c))).
Proof.
  intros. rewrite image_split_crc by (apply sealed_wf; auto). unfold sealed at 2.
  rewrite get_set_same by (apply wf_length; auto). f_equal.
  rewrite firstn_front by auto. f_equal. apply firstn_set_crc, wf_length; auto.
Qed.
Lemma crc_sealed : forall c, wf c -> crc_of (image (sealed c)) = 0.
Proof.
  intros. rewrite image_sealed by auto. apply crc_residue. apply firstn_bytes, image_bytes; auto.
Qed.

(** What the flash holds after a commit, given what it held before. *)
Definition flash_after (o : outcome) (dirty : bool) (img flash : list Z) : list Z :=
  if dirty then match o with Stored => img | NotErased => flash | Torn n => torn n img end else flash.

Lemma torn_ok : forall n b, flash_ok b -> flash_ok (torn n b).
Proof.
  intros n b [L B]. unfold torn. split.
  - rewrite app_length, firstn_length, repeat_length. lia.
  - apply Forall_app. split; [apply firstn_bytes; auto|]. apply Forall_forall. intros x Hx.
    apply repeat_spec in Hx. subst. unfold is_byte. lia.
Qed.

Lemma config_save_spec : forall o s, wf (c_cfg s) -> EE (c_ee s) ->
  exists s', config_save o s = Some (s', true) /\
    c_cfg s' = secured (sealed (c_cfg s)) /\ EE (c_ee s') /\
    e_buf (c_ee s') = image (sealed (c_cfg s)) /\
    (e_flash (c_ee s') = e_flash (c_ee s) \/ e_flash (c_ee s') = image (sealed (c_cfg s)) \/
     exists n, o = Torn n /\ e_flash (c_ee s') = torn n (image (sealed (c_cfg s)))) /\
    (o = Stored -> e_flash (c_ee s') = image (sealed (c_cfg s))) /\
    (o = NotErased -> e_flash (c_ee s') = e_flash (c_ee s)).
Proof.
  intros o s Hc (Hb & Hf & Hd). unfold config_save. fold (sealed (c_cfg s)).
  assert (Hs := sealed_wf _ Hc). assert (HO := image_flash_ok _ Hs).
  destruct (write_loop_spec (image (sealed (c_cfg s))) 0 (c_ee s)) as (e' & E & Eb & Ef & Ed).
  { rewrite image_length by auto. destruct Hb. lia. }
  rewrite E. cbn [firstn app skipn] in *.
  assert (Hread : forall e'', e_buf e'' = image (sealed (c_cfg s)) ->
    config_read false (mk_cs (sealed (c_cfg s)) e'') = Some (mk_cs (secured (sealed (c_cfg s))) e'', true)).
  { intros e'' Ee. rewrite config_read_spec; cbn [c_ee]; rewrite Ee; auto.
    rewrite crc_sealed by auto. cbn [Z.eqb]. rewrite of_image_image by auto. reflexivity. }
  unfold ee_commit. destruct (e_dirty e') eqn:D.
  - destruct o; cbn [fst snd]; rewrite Hread by auto; eexists; (split; [reflexivity|]); cbn [c_cfg c_ee e_buf e_flash e_dirty];
      unfold EE; cbn [e_buf e_flash e_dirty]; rewrite ?Eb, ?Ef, ?D.
    + repeat split; auto; try apply HO; try discriminate.
    + repeat split; auto; try apply HO; try apply Hf; try discriminate.
    + repeat split; auto; try apply HO; try (apply torn_ok; auto); try discriminate.
      right. right. eauto.
  - destruct (Ed eq_refl) as [D0 Eq]. rewrite Hread by auto. eexists. split; [reflexivity|].
    cbn [c_cfg c_ee]. unfold EE. rewrite Eb, Ef. assert (e_flash (c_ee s) = image (sealed (c_cfg s))).
    { rewrite <- Hd by auto. auto. }
    repeat split; auto; try apply HO; try apply Hf.
Qed.

(** Overwriting the whole EEPROM with an image, then committing. *)
Lemma overwrite_spec : forall o b e, flash_ok b -> EE e ->
  exists e1, write_loop 0 b e = Some e1 /\ EE (fst (ee_commit o e1)) /\ (e_flash (fst (ee_commit o e1)) = b \/
     (o = NotErased /\ e_flash (fst (ee_commit o e1)) = e_flash e) \/
     exists n, o = Torn n /\ e_flash (fst (ee_commit o e1)) = torn n b).
Proof.
  intros o b e HO (Hb & Hf & Hd). destruct (write_loop_spec b 0 e) as (e' & E & Eb & Ef & Ed).
  { destruct HO, Hb. lia. }
  cbn [firstn app skipn] in *. exists e'. split; auto. unfold ee_commit. destruct (e_dirty e') eqn:D.
  - destruct o; unfold EE; cbn [fst e_buf e_flash e_dirty]; rewrite ?Eb, ?Ef, ?D.
    + split; [split; [auto|split; auto]|left; reflexivity].
    + split; [split; [auto|split; [auto|discriminate]]|right; left; auto].
    + split; [split; [auto|split; [apply torn_ok; auto|discriminate]]|right; right; eauto].
  - destruct (Ed eq_refl) as [D0 Eq]. cbn [fst]. unfold EE. rewrite Eb, Ef.
    assert (B : e_flash e = b) by (rewrite <- Hd by auto; auto). rewrite B.
    split; [split; [auto|split; auto]|left; reflexivity].
Qed.

(** ** Factory settings *)
Lemma hex_aux_length : forall f n acc, (length (hex_aux f n acc) <= f + length acc)%nat.
Proof.
  induction f; intros; cbn [hex_aux]; [lia|]. destruct (n <? 16); cbn [length]; [lia|].
  specialize (IHf (n / 16) (hex_digit (n mod 16) :: acc)). cbn [length] in *. lia.
Qed.
Lemma hex_digit_ok : forall n, is_byte (hex_digit (n mod 16)) /\ hex_digit (n mod 16) <> 0.
Proof.
  intros. unfold hex_digit, is_byte. assert (0 <= n mod 16 < 16) by (apply Z.mod_pos_bound; lia).
  destruct (n mod 16 <? 10) eqn:E; lia.
Qed.
Definition clean_char (c : Z) : Prop := is_byte c /\ c <> 0.
Lemma hex_aux_clean : forall f n acc, Forall clean_char acc -> Forall clean_char (hex_aux f n acc).
Proof.
  induction f; intros; cbn [hex_aux]; auto.
  assert (Forall clean_char (hex_digit (n mod 16) :: acc)) by (constructor; auto; apply hex_digit_ok).
  destruct (n <? 16); auto.
Qed.
Lemma hex6_length : forall n, (6 <= length (hex6 n) <= 8)%nat.
Proof.
  intros. unfold hex6, pad0, hex. pose proof (hex_aux_length 8 n []). rewrite app_length, repeat_length.
  cbn [length] in *. lia.
Qed.
Lemma hex6_clean : forall n, Forall clean_char (hex6 n).
Proof.
  intros. unfold hex6, pad0. apply Forall_app. split.
  - apply Forall_forall. intros x Hx. apply repeat_spec in Hx. subst. unfold clean_char, is_byte. lia.
  - apply hex_aux_clean. constructor.
Qed.
Lemma cstr_clean : forall s t, Forall clean_char s -> cstr (s ++ 0 :: t) = s.
Proof.
  intros. rewrite cstr_app_nul. apply cstr_no_nul. intro Hin. rewrite Forall_forall in H.
  apply H in Hin. destruct Hin. auto.
Qed.

Lemma strcpy_zero : forall f s c, wf c -> (length s < fsize f)%nat -> get f c = repeat 0 (fsize f) ->
  strcpy f s c = Some (set f (s ++ repeat 0 (fsize f - length s)) c).
Proof.
  intros. unfold strcpy. rewrite get_len by auto. rewrite app_length. cbn [length].
  replace (Nat.leb (length s + 1) (fsize f)) with true by lia. do 2 f_equal.
  rewrite H1. rewrite <- app_assoc. f_equal.
  replace (fsize f) with ((length s + 1) + (fsize f - length s - 1))%nat at 1 by lia.
  rewrite repeat_app. replace (length s + 1)%nat with (length (repeat 0 (length s + 1))) at 1 by apply repeat_length.
  rewrite skipn_app_exact. change ([0] ++ repeat 0 (fsize f - length s - 1)) with (repeat 0 (S (fsize f - length s - 1))).
  f_equal. lia.
Qed.
Lemma padded_ok : forall f s, (length s < fsize f)%nat -> Forall clean_char s ->
  length (s ++ repeat 0 (fsize f - length s)) = fsize f /\ bytes (s ++ repeat 0 (fsize f - length s)).
Proof.
  intros. split.
  - rewrite app_length, repeat_length. lia.
  - apply Forall_app. split.
    + eapply Forall_impl; [|apply H0]. intros a [Ha _]. auto.
    + apply Forall_forall. intros x Hx. apply repeat_spec in Hx. subst. unfold is_byte. lia.
Qed.
Lemma padded_text : forall f s, (length s < fsize f)%nat -> Forall clean_char s ->
  cstr (s ++ repeat 0 (fsize f - length s)) = s.
Proof.
  intros. replace (fsize f - length s)%nat with (S (fsize f - length s - 1)) by lia.
  cbn [repeat]. apply cstr_clean. auto.
Qed.

Lemma zeroed_get : forall f, get f zeroed = repeat 0 (fsize f).
Proof. intros. unfold zeroed, sizes. rewrite map_map. apply get_map. Qed.
Lemma zeroed_wf : wf zeroed.
Proof.
  apply mk_wf; [reflexivity|]. intros f. rewrite zeroed_get. rewrite repeat_length. split; auto.
  apply Forall_forall. intros x Hx. apply repeat_spec in Hx. subst. unfold is_byte. lia.
Qed.

(** A literal consists of non-zero bytes. *)
Fixpoint cleanb (s : list Z) : bool :=
  match s with [] => true | c :: t => (0 <? c) && (c <? 256) && cleanb t end.
Lemma cleanb_spec : forall s, cleanb s = true -> Forall clean_char s.
Proof.
  induction s; intros; constructor.
  - cbn [cleanb] in H. unfold clean_char, is_byte. lia.
  - apply IHs. cbn [cleanb] in H. apply andb_true_iff in H. apply H.
Qed.

(** Object holding padded texts and numbers: used for the factory object. *)
Definition padded (f : fld) (s : list Z) : list Z := s ++ repeat 0 (fsize f - length s).

Definition factory_field (chip : Z) (f : fld) : list Z :=
  match f with
  | Host => padded Host (str "WifInfo-" ++ hex6 chip)
  | OtaAuth => padded OtaAuth (str "OTA_WifInfo")
  | OtaPort => le16 8266
  | SseFreq => le16 10
  | EHost => padded EHost (str "emoncms.org")
  | EPort => le16 80
  | EUrl => padded EUrl (str "/input/post.json")
  | JPort => le16 80
  | JUrl => padded JUrl default_jdom_url
  | HPort => le16 80
  | HUrl => padded HUrl default_http_url
  | f => repeat 0 (fsize f)
  end.

Lemma host_text_ok : forall chip, (length (str "WifInfo-" ++ hex6 chip) < fsize Host)%nat /\
  Forall clean_char (str "WifInfo-" ++ hex6 chip).
Proof.
  intros. split.
  - rewrite app_length. pose proof (hex6_length chip). cbn [fsize]. change (length (str "WifInfo-")) with 8%nat. lia.
  - apply Forall_app. split; [apply cleanb_spec; reflexivity|apply hex6_clean].
Qed.

Ltac wfstep :=
  match goal with
  | |- wf (set _ _ _) => apply set_wf
  | |- wf zeroed => apply zeroed_wf
  | |- length (le16 _) = _ => reflexivity
  | |- bytes (le16 _) => apply le16_bytes
  | |- length (?s ++ repeat 0 (fsize ?f - length ?s)) = _ =>
      apply padded_ok; [cbn [fsize]; vm_compute; lia|apply cleanb_spec; reflexivity]
  | |- bytes (?s ++ repeat 0 (fsize ?f - length ?s)) =>
      apply padded_ok; [cbn [fsize]; vm_compute; lia|apply cleanb_spec; reflexivity]
  end.

Lemma config_defaults_spec : forall chip, exists c,
  config_defaults chip = Some c /\ wf c /\ (forall f, get f c = factory_field chip f).
Proof.
  intros chip. destruct (host_text_ok chip) as [HL HC]. unfold config_defaults.
  assert (W : forall c, wf c -> length c = 35%nat) by apply wf_length.
  pose proof (padded_ok Host _ HL HC) as [HPl HPb].
  set (hs := str "WifInfo-" ++ hex6 chip) in *.
  rewrite strcpy_zero; [|apply zeroed_wf|auto|apply zeroed_get]. cbn iota beta.
  fold (padded Host hs). fold (padded Host hs) in HPl, HPb.
  set (c1 := set Host _ _). assert (W1 : wf c1) by (apply set_wf; auto; apply zeroed_wf).
  rewrite strcpy_zero; [|auto|vm_compute; lia|unfold c1; rewrite get_set_other by discriminate; apply zeroed_get].
  cbn iota beta. set (c2 := set OtaAuth _ c1). assert (W2 : wf c2) by (unfold c2; repeat wfstep; auto).
  set (c3 := set OtaPort _ c2). assert (W3 : wf c3) by (unfold c3; repeat wfstep; auto).
  set (c4 := set SseFreq _ c3). assert (W4 : wf c4) by (unfold c4; repeat wfstep; auto).
  rewrite strcpy_zero; [|auto|vm_compute; lia|unfold c4, c3, c2, c1; rewrite !get_set_other by discriminate; apply zeroed_get].
  cbn iota beta. set (c5 := set EHost _ c4). assert (W5 : wf c5) by (unfold c5; repeat wfstep; auto).
  set (c6 := set EPort _ c5). assert (W6 : wf c6) by (unfold c6; repeat wfstep; auto).
  rewrite strcpy_zero; [|auto|vm_compute; lia|unfold c6, c5, c4, c3, c2, c1; rewrite !get_set_other by discriminate; apply zeroed_get].
  cbn iota beta. set (c7 := set EUrl _ c6). assert (W7 : wf c7) by (unfold c7; repeat wfstep; auto).
  rewrite strcpy_zero; [|auto|vm_compute; lia|unfold c7, c6, c5, c4, c3, c2, c1; rewrite !get_set_other by discriminate; apply zeroed_get].
  cbn iota beta. set (c8 := set JHost _ c7). assert (W8 : wf c8) by (unfold c8; repeat wfstep; auto).
  set (c9 := set JPort _ c8). assert (W9 : wf c9) by (unfold c9; repeat wfstep; auto).
  rewrite strcpy_zero; [|auto|vm_compute; lia|unfold c9, c8, c7, c6, c5, c4, c3, c2, c1; rewrite !get_set_other by discriminate; apply zeroed_get].
  cbn iota beta. set (c10 := set JUrl _ c9). assert (W10 : wf c10) by (unfold c10; repeat wfstep; auto).
  rewrite strcpy_zero; [|auto|vm_compute; lia|unfold c10, c9, c8, c7, c6, c5, c4, c3, c2, c1; rewrite !get_set_other by discriminate; apply zeroed_get].
  cbn iota beta. set (c11 := set JAdco _ c10). assert (W11 : wf c11) by (unfold c11; repeat wfstep; auto).
  rewrite strcpy_zero; [|auto|vm_compute; lia|unfold c11, c10, c9, c8, c7, c6, c5, c4, c3, c2, c1; rewrite !get_set_other by discriminate; apply zeroed_get].
  cbn iota beta. set (c12 := set HHost _ c11). assert (W12 : wf c12) by (unfold c12; repeat wfstep; auto).
  set (c13 := set HPort _ c12). assert (W13 : wf c13) by (unfold c13; repeat wfstep; auto).
  rewrite strcpy_zero; [|auto|vm_compute; lia|unfold c13, c12, c11, c10, c9, c8, c7, c6, c5, c4, c3, c2, c1; rewrite !get_set_other by discriminate; apply zeroed_get].
  cbn iota beta. set (c14 := set HUrl _ c13). assert (W14 : wf c14) by (unfold c14; repeat wfstep; auto).
  exists c14. split; [reflexivity|]. split; [auto|].
  intros f. unfold c14, c13, c12, c11, c10, c9, c8, c7, c6, c5, c4, c3, c2, c1.
  destruct f; cbn [factory_field];
    repeat (first [ rewrite get_set_same by (rewrite ?set_length; reflexivity)
                  | rewrite get_set_other by discriminate ]); try apply zeroed_get; reflexivity.
Qed.
