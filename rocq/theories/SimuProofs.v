(** The frames of the simulated meter are accepted, with the right values. *)
From Coq Require Import ZArith List Bool Lia ZifyBool ZifyNat.
From Verif Require Import Base BaseFacts Teleinfo TeleinfoSpec TeleinfoMain JsonBuildFacts PagesProofs Simu SimuSpec.
Import ListNotations.
Open Scope Z_scope.

(** ** Numbers *)
Lemma digits_zero : forall k, digits k 0 = repeat 48 k.
Proof. induction k; [reflexivity|]. cbn [digits]. change (0 / 10) with 0. change (48 + 0 mod 10) with 48. rewrite IHk, <- repeat_cons. reflexivity. Qed.
Lemma digits_length : forall k v, length (digits k v) = k.
Proof. induction k; intros; cbn [digits]; [reflexivity|]. rewrite app_length, IHk. cbn [length]. lia. Qed.
Lemma digits_isdigit : forall k v, forallb isdigit (digits k v) = true.
Proof.
  induction k; intros; cbn [digits]; [reflexivity|]. rewrite forallb_app, IHk. cbn [forallb andb].
  assert (B := Z.mod_pos_bound v 10 ltac:(lia)). unfold isdigit. lia.
Qed.
Lemma dec_aux_digits_eq : forall f k n, (1 <= k)%nat -> 0 <= n < 10 ^ Z.of_nat k -> n < 2 ^ Z.of_nat f ->
  (1 <= f)%nat -> pad0 k (dec_aux f n []) = digits k n.
Proof.
  induction f; intros k n Hk Hn Hf H1; [lia|]. cbn [dec_aux]. destruct k as [|k]; [lia|]. cbn [digits].
  destruct (n <? 10) eqn:E.
  - rewrite Z.div_small by lia. rewrite digits_zero. unfold pad0. cbn [length]. rewrite Nat.sub_succ, Nat.sub_0_r. reflexivity.
  - rewrite dec_aux_acc. rewrite Nat2Z.inj_succ, Z.pow_succ_r in Hn by lia. rewrite Nat2Z.inj_succ, Z.pow_succ_r in Hf by lia.
    destruct k as [|k]; [change (10 ^ Z.of_nat 0) with 1 in Hn; lia|].
    assert (D1 : 0 <= n / 10 < 10 ^ Z.of_nat (S k)) by (split; [apply Z.div_pos; lia|apply Z.div_lt_upper_bound; lia]).
    assert (D2 : n / 10 < 2 ^ Z.of_nat f) by (apply Z.div_lt_upper_bound; lia).
    assert (F1 : (1 <= f)%nat).
    { destruct f; [change (2 ^ Z.of_nat 0) with 1 in *; lia|lia]. }
    rewrite <- (IHf (S k) (n / 10)) by (auto; lia).
    unfold pad0. rewrite app_length. cbn [length].
    replace (S (S k) - (length (dec_aux f (n / 10) []) + 1))%nat with (S k - length (dec_aux f (n / 10) []))%nat by lia.
    rewrite app_assoc. reflexivity.
Qed.
Lemma fmt_digits : forall k n, (1 <= k)%nat -> 0 <= n < 10 ^ Z.of_nat k -> fmt k n = digits k n.
Proof.
  intros k n Hk Hn. unfold fmt, dec. apply dec_aux_digits_eq; auto.
  - assert (L := Z.log2_nonneg n). rewrite Z2Nat.id by lia. destruct (Z.eq_dec n 0) as [->|N]; [reflexivity|].
    assert (S := Z.log2_spec n ltac:(lia)). rewrite Z.pow_succ_r in S by lia.
    replace (Z.log2 n + 2) with (Z.succ (Z.succ (Z.log2 n))) by lia. rewrite !Z.pow_succ_r by lia. lia.
  - assert (L := Z.log2_nonneg n). lia.
Qed.

(** ** Groups *)
Lemma ord_total : forall s, ord_sum s = total s.
Proof. induction s; cbn [ord_sum]; [reflexivity|]. unfold total. cbn [fold_right]. fold (total s). lia. Qed.
Lemma total_app : forall a b, total (a ++ b) = total a + total b.
Proof. induction a; intros; unfold total in *; cbn [app fold_right]; [lia|]. rewrite IHa. lia. Qed.
Lemma sim_group_eq : forall l v, sim_group l v = enc_body (enc_group 32 (l, v)).
Proof.
  intros. unfold sim_group, enc_body, enc_group. cbn [fst snd]. cbv zeta. rewrite (ord_total l), (ord_total v).
  change 63 with (Z.ones 6). rewrite Z.land_ones by lia. change (2 ^ 6) with 64.
  unfold checksum. rewrite !total_app. change (total [32]) with 32. rewrite <- !app_assoc. cbn [app].
  replace (total l + 32 + total v) with (total l + (32 + total v)) by lia. reflexivity.
Qed.

(** The groups as they are sent. *)
Definition sent (m : simu) : list group :=
  [ (str "ADCO", sm_adco m); (str "OPTARIF", str "HC.."); (str "ISOUSC", str "30");
    (str "HCHC", digits 9 (sm_hchc m)); (str "HCHP", digits 9 (sm_hchp m));
    (str "PTEC", if sm_creuses m then str "HC.." else str "HP.."); (str "IINST", digits 3 (sm_iinst m));
    (str "IMAX", str "042"); (str "PAPP", digits 5 (sm_papp m + sm_pseuil m)) ]
  ++ (if sm_adps m =? 0 then [] else [(str "ADPS", digits 3 (sm_adps m))])
  ++ [ (str "HHPHC", str "D"); (str "MOTDETAT", str "000000") ].

Definition sim_ok (m : simu) : Prop :=
  0 <= sm_hchc m < 10 ^ Z.of_nat 9 /\ 0 <= sm_hchp m < 10 ^ Z.of_nat 9 /\ 0 <= sm_iinst m < 10 ^ Z.of_nat 3 /\
  0 <= sm_papp m <= 5290 /\ (sm_pseuil m = 0 \/ sm_pseuil m = 4000) /\ 0 <= sm_adps m < 10 ^ Z.of_nat 3 /\
  length (sm_adco m) = 12%nat /\ Forall char7 (sm_adco m).

Lemma sim_text_eq : forall m, sim_ok m -> sim_text m = frame_bytes (map (fun g => enc_t (32, g)) (sent m)).
Proof.
  intros m (H1 & H2 & H3 & H4 & H5 & H6 & H7 & H8). unfold sim_text, sent.
  rewrite !sim_group_eq. rewrite (fmt_digits 9 (sm_hchc m)), (fmt_digits 9 (sm_hchp m)), (fmt_digits 3 (sm_iinst m)) by (auto; lia).
  rewrite (fmt_digits 5) by (change (10 ^ Z.of_nat 5) with 100000; lia).
  unfold frame_bytes, enc_t. cbn [fst snd]. destruct (sm_adps m =? 0) eqn:E; cbn [negb].
  - cbn [map app concat]. rewrite <- ?app_assoc. destruct (sm_creuses m); reflexivity.
  - rewrite (fmt_digits 3 (sm_adps m)) by (auto; lia). cbn [map app concat]. rewrite <- ?app_assoc. destruct (sm_creuses m); reflexivity.
Qed.

Lemma char7_digit : forall l, forallb isdigit l = true -> Forall char7 l.
Proof.
  induction l; intros H; constructor; cbn [forallb] in H; apply andb_true_iff in H; destruct H as (H & H'); auto.
  unfold isdigit in H. unfold char7, is_ctrl. lia.
Qed.
Definition char7b (c : Z) : bool := (0 <? c) && (c <? 128) && negb (is_ctrl c).
Lemma char7b_spec : forall l, forallb char7b l = true -> Forall char7 l.
Proof.
  induction l; intros H; constructor; cbn [forallb] in H; apply andb_true_iff in H; destruct H as (H & H'); auto.
  unfold char7b in H. unfold char7. destruct (is_ctrl a); [rewrite andb_false_r in H; discriminate H|]. lia.
Qed.
Definition label_ok (l : list Z) : bool := forallb (fun c => char7b c && negb (c =? 32)) l && (1 <=? length l)%nat.
Lemma good_sent : forall l v, label_ok l = true -> Forall char7 v -> good_group 32 (l, v).
Proof.
  intros l v H V. apply andb_true_iff in H. destruct H as (H & L). unfold good_group. cbn [fst snd].
  split; [unfold char7, is_ctrl; lia|]. split; [|split; [exact V|split]].
  - apply char7b_spec. rewrite forallb_forall in *. intros x Hx. specialize (H x Hx). lia.
  - intros I. rewrite forallb_forall in H. specialize (H 32 I). discriminate H.
  - lia.
Qed.
Lemma sent_good : forall m, sim_ok m -> Forall (fun g => good_group 32 g) (sent m).
Proof.
  intros m (H1 & H2 & H3 & H4 & H5 & H6 & H7 & H8). unfold sent.
  apply Forall_app. split.
  - repeat (constructor; [apply good_sent; [reflexivity|]|]); auto; try (apply char7_digit, digits_isdigit);
      try (apply char7b_spec; reflexivity). destruct (sm_creuses m); apply char7b_spec; reflexivity.
  - apply Forall_app. split.
    + destruct (sm_adps m =? 0); constructor; [|constructor]. apply good_sent; [reflexivity|apply char7_digit, digits_isdigit].
    + repeat (constructor; [apply good_sent; [reflexivity|apply char7b_spec; reflexivity]|]). constructor.
Qed.
Lemma sent_shown : forall m, map shown (sent m) = expected m.
Proof.
  assert (D : forall k v, (1 <= k)%nat -> rstrip (digits k v) = digits k v).
  { intros k v Hk. destruct k; [lia|]. cbn [digits]. unfold rstrip. rewrite rev_unit. cbn [drop_dots].
    assert (B := Z.mod_pos_bound v 10 ltac:(lia)). replace (48 + v mod 10 =? 46) with false by lia.
    cbn [rev]. rewrite rev_involutive. reflexivity. }
  intros m. unfold sent, expected. rewrite !map_app. f_equal; [|f_equal].
  - unfold shown. cbn [map fst snd]. rewrite !D by lia. destruct (sm_creuses m); reflexivity.
  - destruct (sm_adps m =? 0); [reflexivity|]. unfold shown. cbn [map fst snd]. rewrite D by lia. reflexivity.
Qed.
Lemma sent_short : forall m, sim_ok m -> (length (frame_bytes (map (fun g => enc_t (32%Z, g)) (sent m))) <= 351)%nat.
Proof.
  intros m (H1 & H2 & H3 & H4 & H5 & H6 & H7 & H8). unfold frame_bytes, sent, enc_t, enc_group, enc_body.
  destruct (sm_adps m =? 0), (sm_creuses m); cbn [map concat app fst snd length];
    repeat (rewrite ?app_length, ?digits_length, ?H7; cbn [length app]); apply Nat.leb_le; reflexivity.
Qed.

Lemma history_ok : forall es, Forall sim_event_ok es -> sim_ok (sim_history es).
Proof.
  intros es H. unfold sim_history. assert (G : sim_ok sim_init).
  { unfold sim_ok, sim_init. cbn [sm_hchc sm_hchp sm_iinst sm_papp sm_pseuil sm_adps sm_adco].
    split; [cbn; lia|]. split; [cbn; lia|]. split; [cbn; lia|]. split; [lia|]. split; [auto|]. split; [cbn; lia|].
    split; [reflexivity|apply char7b_spec; reflexivity]. }
  revert G. generalize sim_init. induction H as [|e es He _ IH]; intros m G; [exact G|]. cbn [fold_left]. apply IH.
  assert (A : forall v, 0 <= adps_value v < 10 ^ Z.of_nat 3).
  { intros v. unfold adps_value, ISOUSC. change (10 ^ Z.of_nat 3) with 1000. destruct ((30 <=? v) && (v <=? 999)) eqn:E; cbn [negb]; lia. }
  destruct G as (H1 & H2 & H3 & H4 & H5 & H6 & H7 & H8).
  assert (SA : forall v, sim_ok (set_adps v m)) by (intros v; exact (conj H1 (conj H2 (conj H3 (conj H4 (conj H5 (conj (A v) (conj H7 H8)))))))).
  destruct e as [v|v|w|c p i a]; cbn [sim_step sim_event_ok] in *.
  - split; [exact H1|]. split; [exact H2|]. split; [exact H3|]. split; [exact H4|]. split; [exact H5|]. split; [exact H6|].
    unfold set_adco, adco_text. cbn [sm_adco]. split.
    + rewrite app_length, repeat_length, firstn_length. lia.
    + apply Forall_app. split.
      * apply Forall_forall. intros x Hx. apply repeat_spec in Hx. subst. unfold char7, is_ctrl. lia.
      * rewrite <- (firstn_skipn 12 v) in He. apply Forall_app in He. apply He.
  - apply SA.
  - destruct w; cbn [bascule].
    + exact (conj H1 (conj H2 (conj H3 (conj H4 (conj H5 (conj H6 (conj H7 H8))))))).
    + destruct (negb (sm_adps m =? 0)); apply SA.
    + split; [exact H1|]. split; [exact H2|]. split; [exact H3|]. split; [exact H4|]. split; [cbn [sm_pseuil]; lia|].
      exact (conj H6 (conj H7 H8)).
  - destruct He as (C & P & I & P'). split; [cbn; lia|]. split; [cbn; lia|]. split; [cbn; lia|]. split; [exact P'|].
    exact (conj H5 (conj H6 (conj H7 H8))).
Qed.

Lemma c63 : forall es m sgn garbage pre, Forall sim_event_ok es -> m = sim_history es ->
  length garbage = 350%nat -> Forall is_byte (map snd pre) ->
  exists bs, trame m = Some bs /\ hd_error bs = Some 2 /\
    forall t0 rest, map snd ((t0, 2) :: rest) = bs ->
    exists d, run sgn (pre ++ (t0, 2) :: rest) (dec_init garbage) = Some d /\ ready d = true /\ d_ts d = t0 /\
      all_pairs (d_frame d) (d_size d) = Some (expected m).
Proof.
  intros es m sgn garbage pre He -> Hg Hp. assert (K := history_ok es He). set (m := sim_history es) in *. clearbody m.
  exists (sim_text m).
  assert (G : Forall good_t (map (fun g => (32, g)) (sent m))).
  { apply Forall_map. apply sent_good. exact K. }
  assert (F : fits 0 (map enc_t (map (fun g => (32, g)) (sent m)))).
  { apply c02_short; [exact G|]. rewrite map_map. apply sent_short. exact K. }
  split; [|split; [reflexivity|]].
  - unfold trame. replace (forallb _ (sim_text m)) with true; [reflexivity|]. symmetry.
    rewrite sim_text_eq by exact K. unfold frame_bytes.
    apply forallb_forall. intros x [<-|Hx]; [reflexivity|]. apply in_app_iff in Hx. destruct Hx as [Hx|[<-|[]]]; [|reflexivity].
    apply in_concat in Hx. destruct Hx as (b & Hb & Hx). apply in_map_iff in Hb. destruct Hb as (b' & <- & Hb).
    apply in_map_iff in Hb. destruct Hb as (g & <- & Hgr). assert (Q := sent_good m K). rewrite Forall_forall in Q. specialize (Q g Hgr).
    destruct Q as (_ & Q1 & Q2 & _). rewrite Forall_forall in Q1, Q2.
    destruct Hx as [<-|Hx]; [reflexivity|]. apply in_app_iff in Hx. destruct Hx as [Hx|[<-|[]]]; [|reflexivity].
    unfold enc_t, enc_group in Hx. cbn [fst snd] in Hx. apply in_app_iff in Hx. destruct Hx as [Hx|[<-|[<-|[]]]].
    + apply in_app_iff in Hx. destruct Hx as [Hx|[<-|Hx]]; [specialize (Q1 _ Hx); destruct Q1; lia|reflexivity|specialize (Q2 _ Hx); destruct Q2; lia].
    + reflexivity.
    + unfold checksum. match goal with |- context [?t mod 64] => assert (B := Z.mod_pos_bound t 64 ltac:(lia)); generalize dependent (t mod 64) end. intros. lia.
  - intros t0 rest E. rewrite sim_text_eq in E by exact K.
    destruct (c02 sgn garbage pre t0 rest (map (fun g => (32, g)) (sent m))) as (d & R & Rd & T & P); auto.
    + unfold sent. cbn [map app]. discriminate.
    + rewrite map_map. exact E.
    + exists d. split; [exact R|]. split; [exact Rd|]. split; [exact T|]. rewrite P. rewrite map_map. cbn [snd].
      f_equal. apply sent_shown.
Qed.

(** ** The groups, from the actions *)
Lemma last_snoc_map : forall (A B : Type) (f : A -> list B) es e d,
  last (flat_map f (es ++ [e])) d = match f e with [] => last (flat_map f es) d | l => last l d end.
Proof.
  intros A B f es e d. rewrite flat_map_app. cbn [flat_map]. rewrite app_nil_r. destruct (f e) as [|x l] eqn:E; [rewrite app_nil_r; reflexivity|].
  clear E. induction (flat_map f es) as [|y r IH]; [reflexivity|]. cbn [app]. rewrite <- IH. destruct (r ++ x :: l) eqn:F; [destruct r; discriminate|reflexivity].
Qed.
Lemma switched_snoc : forall w es e, switched w (es ++ [e]) = xorb (switched w es) (pressed w e).
Proof.
  intros w es e. unfold switched. rewrite filter_app, app_length. cbn [filter]. destruct (pressed w e); cbn [length].
  - rewrite Nat.add_1_r, Nat.odd_succ, <- Nat.negb_odd. destruct (Nat.odd _); reflexivity.
  - rewrite Nat.add_0_r. destruct (Nat.odd _); reflexivity.
Qed.
Lemma history_told : forall es, let m := sim_history es in
  sm_creuses m = switched Tariff es /\ (sm_hchc m, sm_hchp m, sm_iinst m, sm_papp m) = measured es /\ sm_adco m = meter_number es /\
  sm_pseuil m = (if switched Threshold es then 4000 else 0) /\
  match overload (rev es) with Some v => sm_adps m = v /\ v <> 0 | None => sm_adps m = 0 end.
Proof.
  induction es as [|e es IH] using rev_ind; [repeat split|]. cbv zeta in *. destruct IH as (C & M & N & P & O).
  unfold sim_history in *. rewrite fold_left_app. cbn [fold_left]. set (m := fold_left sim_step es sim_init) in *. clearbody m.
  rewrite !switched_snoc, rev_unit. unfold measured, meter_number in *. rewrite !last_snoc_map.
  assert (A : forall v, match overload (SetAdps v :: rev es) with Some v => adps_value v = v /\ v <> 0 | None => adps_value v = 0 end).
  { intros v. cbn [overload]. unfold adps_value, ISOUSC. destruct ((30 <=? v) && (v <=? 999)) eqn:E; cbn [negb]; [|reflexivity].
    apply andb_prop in E. destruct E as [E F]. apply Z.leb_le in E. apply Z.leb_le in F. rewrite (proj2 (Z.leb_le 30 v)), (proj2 (Z.leb_le v 999)) by lia. cbn; lia. }
  destruct e as [v|v|w|c p i a]; [| |destruct w|]; cbn [sim_step pressed]; rewrite ?xorb_false_r, ?xorb_true_r.
  - cbn [set_adco sm_creuses sm_hchc sm_hchp sm_iinst sm_papp sm_adps sm_adco sm_pseuil overload]. auto.
  - cbn [set_adps sm_creuses sm_hchc sm_hchp sm_iinst sm_papp sm_adps sm_adco sm_pseuil]. repeat (split; [assumption|]).
    specialize (A v). cbn [overload] in A |- *. destruct ((30 <=? v) && (v <=? 999)); exact A.
  - cbn [bascule sm_creuses sm_hchc sm_hchp sm_iinst sm_papp sm_adps sm_adco sm_pseuil overload]. rewrite C. auto.
  - unfold bascule. cbn [overload]. destruct (overload (rev es)) as [v|].
    + destruct O as [O Nz]. rewrite O. replace (v =? 0) with false by (symmetry; apply Z.eqb_neq; exact Nz). cbn. auto.
    + rewrite O. cbn. repeat (split; [assumption|]). split; [reflexivity|lia].
  - cbn [bascule sm_creuses sm_hchc sm_hchp sm_iinst sm_papp sm_adps sm_adco sm_pseuil overload]. rewrite P. repeat (split; [assumption|]).
    split; [destruct (switched Threshold es); reflexivity|exact O].
  - cbn [sm_creuses sm_hchc sm_hchp sm_iinst sm_papp sm_adps sm_adco sm_pseuil overload last]. auto.
Qed.
Lemma c63_told : forall es, expected (sim_history es) = told_groups es.
Proof.
  intros es. destruct (history_told es) as (C & M & N & P & O). unfold expected, told_groups. rewrite <- M, C, N, P. f_equal. f_equal.
  destruct (overload (rev es)) as [v|].
  - destruct O as [-> Nz]. replace (v =? 0) with false by (symmetry; apply Z.eqb_neq; exact Nz). reflexivity.
  - rewrite O. reflexivity.
Qed.
Lemma c63_all : forall es sgn garbage pre, Forall sim_event_ok es -> length garbage = 350%nat -> Forall is_byte (map snd pre) ->
  exists bs, trame (sim_history es) = Some bs /\ hd_error bs = Some 2 /\
    forall t0 rest, map snd ((t0, 2) :: rest) = bs ->
    exists d, run sgn (pre ++ (t0, 2) :: rest) (dec_init garbage) = Some d /\ ready d = true /\ d_ts d = t0 /\
      all_pairs (d_frame d) (d_size d) = Some (told_groups es).
Proof. intros es sgn garbage pre E G B. rewrite <- c63_told. exact (c63 es _ sgn garbage pre E eq_refl G B). Qed.
