(** Proofs: the walk of a directory. *)
From Coq Require Import ZArith List Bool Lia ZifyBool.
From Verif Require Import Base BaseFacts Erfs ErfsSpec ErfsProofs ErfsRead ErfsFinal ErfsDir ErfsDirSpec.
Import ListNotations.
Open Scope Z_scope.

Lemma until_app : forall a c, until_slash (a ++ [c]) = if existsb (Z.eqb 47) a then until_slash a else a ++ (if c =? 47 then [] else [c]).
Proof.
  induction a as [|x a IH]; intros c; [cbn; destruct (c =? 47); reflexivity|]. cbn [app until_slash existsb]. rewrite (Z.eqb_sym 47 x).
  destruct (x =? 47); cbn [orb]; [reflexivity|]. rewrite IH. destruct (existsb (Z.eqb 47) a); reflexivity.
Qed.
Lemma existsb_rev : forall (f : Z -> bool) l, existsb f (rev l) = existsb f l.
Proof. intros f. induction l as [|x l IH]; [reflexivity|]. cbn [rev existsb]. rewrite existsb_app, IH. cbn [existsb]. rewrite orb_false_r, orb_comm. reflexivity. Qed.
Lemma part_cons : forall c r, last_part (c :: r) = if existsb (Z.eqb 47) r then last_part r else if c =? 47 then r else c :: r.
Proof.
  intros c r. unfold last_part. cbn [rev]. rewrite until_app, existsb_rev. destruct (existsb (Z.eqb 47) r); [reflexivity|].
  rewrite rev_app_distr, rev_involutive. destruct (c =? 47); reflexivity.
Qed.
Lemma after_last : forall s best, after_slash s best = if existsb (Z.eqb 47) s then last_part s else best.
Proof.
  induction s as [|c r IH]; intros best; [reflexivity|]. cbn [after_slash existsb]. rewrite IH, part_cons, (Z.eqb_sym 47 c).
  destruct (c =? 47); cbn [orb]; destruct (existsb (Z.eqb 47) r); reflexivity.
Qed.
Lemma short_part : forall n, after_slash n n = last_part n.
Proof.
  intros n. rewrite after_last. destruct (existsb (Z.eqb 47) n) eqn:E; [reflexivity|]. symmetry.
  induction n as [|c r IH]; [reflexivity|]. rewrite part_cons. cbn [existsb] in E. apply orb_false_iff in E. destruct E as (E1 & E2).
  rewrite E2. rewrite Z.eqb_sym in E1. rewrite E1. reflexivity.
Qed.

(** The directory object when [k] files have been passed. *)
Definition at_file (files : list source) (k : nat) (d : edir) : Prop :=
  ed_index d = Z.of_nat k /\ (k <= length files)%nat /\ length (ed_name d) = 64%nat /\ nth 63 (ed_name d) 0 = 0 /\
  forall f, current files k = Some f -> (exists rest, ed_name d = src_name f ++ 0 :: rest) /\
    rec_len (ed_rec d) = size_of (src_data f) /\ rec_time (ed_rec d) = src_time f.

Section Walk.
Variables (s : erfs) (files : list source).
Hypothesis V : volume s files.
Hypothesis D : directory files.
Hypothesis SH : Forall (fun f => size_of (src_name f) <= 63) files.
Hypothesis OK : forall A f B, files = A ++ f :: B -> name_at files A + 63 <= fs_size s.

Lemma at_start : forall d, length (ed_name d) = 64%nat -> nth 63 (ed_name d) 0 = 0 -> ed_index d = 0 -> at_file files 0 d.
Proof. intros d L Z0 I. split; [exact I|]. split; [apply Nat.le_0_l|]. split; [exact L|]. split; [exact Z0|]. intros f H. discriminate H. Qed.
Lemma next_file : forall k d, at_file files k d -> (k < length files)%nat ->
  exists d' l, dir_next s d = (d', true, l) /\ at_file files (S k) d' /\ inside s l.
Proof.
  intros k d (I & _ & LN & ZN & _) K. destruct (nth_error files k) as [f|] eqn:N; [|apply nth_error_None in N; lia].
  destruct (nth_error_split files k N) as (A & B & E & LA).
  destruct (bounds s files V A f B E) as (B1 & B2 & B3 & B4 & B5). pose proof (v_count _ _ V) as CNT.
  pose proof (name_room_facts f). pose proof (size_nonneg _ (src_name f)). pose proof (data_room_facts f). pose proof (size_nonneg _ (src_data f)).
  pose proof (round4_facts (2 * size_of files) ltac:(lia)). pose proof (v_end _ _ V). pose proof (v_start _ _ V).
  assert (IA : ed_index d = size_of A) by (rewrite I; unfold size_of; rewrite LA; reflexivity).
  unfold dir_next. rewrite IA, (v_files _ _ V). replace (size_of A <? size_of files) with true by lia.
  rewrite (fat_is s files V). rewrite (u32_small (8 + round4 (2 * size_of files) + 16 * size_of A)) by lia.
  destruct (v_rec _ _ V A f B E) as (r & RF & R1 & R2 & R3 & R4). unfold read_into at 1.
  destruct (hal_ok s (8 + round4 (2 * size_of files) + 16 * size_of A) 16 (v_start _ _ V) (v_end _ _ V) ltac:(lia) ltac:(lia) ltac:(lia)) as [HR HI].
  rewrite HR, RF, R1. destruct (read_name s files [] V SH A f B (ed_name d) E LN ZN (OK A f B E)) as (rest & RN & IN & LN' & ZN'). rewrite RN.
  do 2 eexists. split; [reflexivity|]. split; [|apply inside_app; auto]. split; [|split; [lia|]].
  - cbn [ed_index]. unfold u16. rewrite Z.mod_small by lia. unfold size_of. lia.
  - split; [exact LN'|]. split; [exact ZN'|]. cbn [current ed_name ed_rec]. intros g G. assert (g = f) by congruence. subst g.
    split; [eauto|]. rewrite R3, R4. auto.
Qed.
Lemma end_file : forall k d, at_file files k d -> (length files <= k)%nat -> dir_next s d = (d, false, []).
Proof.
  intros k d (I & _) K. unfold dir_next. rewrite I, (v_files _ _ V). unfold size_of.
  destruct (Z.ltb_spec (Z.of_nat k) (Z.of_nat (length files))); [lia|reflexivity].
Qed.
Lemma valid_file : forall k d, at_file files k d -> dir_valid s d = match current files k with Some _ => true | None => false end.
Proof.
  intros k d (I & L & _). unfold dir_valid. rewrite I, (v_files _ _ V). unfold size_of. destruct k as [|i]; [reflexivity|]. cbn [current].
  destruct (nth_error files i) eqn:N; [lia|]. apply nth_error_None in N. lia.
Qed.
Lemma file_place : forall k f, current files k = Some f -> exists A B, files = A ++ f :: B.
Proof. intros [|i] f H; [discriminate|]. destruct (nth_error_split files i H) as (A & B & E & _). eauto. Qed.
Lemma file_regular : forall k f, current files k = Some f -> regular f.
Proof.
  intros k f H. destruct (file_place k f H) as (A & B & E). destruct D as (R & _). rewrite Forall_forall in R. apply R. rewrite E. apply in_or_app. right. left. reflexivity.
Qed.
Lemma no_nul : forall f, regular f -> Forall (fun c => c <> 0) (src_name f).
Proof. intros f (_ & F & _). eapply Forall_impl; [|exact F]. intros x X. cbn in X. lia. Qed.

Lemma walk_ok : forall cs k d, at_file files k d -> Forall sensible_walk cs -> walk s d cs = Some (walked files k cs).
Proof.
  induction cs as [|c cs IH]; intros k d H F; [reflexivity|]. apply Forall_cons_iff in F. destruct F as (F & Fs).
  assert (VA := valid_file k d H). destruct c as [| | | | | |m j b calls]; cbn [walk walked].
  - destruct (Nat.ltb_spec k (length files)) as [L|L].
    + destruct (next_file k d H L) as (d' & l & -> & H' & _). rewrite (IH (S k) d' H' Fs). reflexivity.
    + rewrite (end_file k d H L), (IH k d H Fs). reflexivity.
  - destruct H as (H1 & H2 & H3 & H4 & H5). rewrite (IH 0%nat (dir_rewind d) (at_start (dir_rewind d) H3 H4 eq_refl) Fs). reflexivity.
  - unfold dir_name. rewrite VA. assert (Fl := proj2 (proj2 (proj2 (proj2 H)))). destruct (current files k) as [f|] eqn:C.
    + destruct (Fl f eq_refl) as ((rest & ->) & _). rewrite cstr_from_app by (apply no_nul, (file_regular k); exact C). rewrite (IH k d H Fs). reflexivity.
    + rewrite (IH k d H Fs). reflexivity.
  - rewrite (IH k d H Fs). unfold dir_size. rewrite VA. assert (Fl := proj2 (proj2 (proj2 (proj2 H)))). destruct (current files k) as [f|]; [|reflexivity].
    destruct (Fl f eq_refl) as (_ & -> & _). reflexivity.
  - rewrite (IH k d H Fs). unfold dir_time. rewrite VA. assert (Fl := proj2 (proj2 (proj2 (proj2 H)))). destruct (current files k) as [f|]; [|reflexivity].
    destruct (Fl f eq_refl) as (_ & _ & ->). reflexivity.
  - rewrite (IH k d H Fs), VA. reflexivity.
  - unfold dir_file. rewrite VA. assert (Fl := proj2 (proj2 (proj2 (proj2 H)))). destruct (current files k) as [f|] eqn:C.
    2:{ rewrite (IH k d H Fs). destruct m; reflexivity. }
    destruct (Fl f eq_refl) as ((rest & ->) & _). rewrite cstr_from_app by (apply no_nul, (file_regular k); exact C). unfold erfs_open_mode.
    destruct m; [|rewrite (IH k d H Fs); reflexivity].
    destruct (file_place k f C) as (A & B & E). destruct F as (F & B32).
    destruct (c39_open s files A f B (src_name f) j V D SH E (OK A f B E) (or_introl eq_refl)) as (e & l & O & _ & OP). rewrite O.
    pose proof (opened_content _ _ _ _ _ _ V E OP) as OC. destruct OP as (O1 & O2 & O3 & O4 & O5).
    destruct (c41 _ _ calls e b OC) as (l' & SE & _); auto; [rewrite O5; pose proof (size_nonneg _ (src_data f)); lia|]. rewrite O5 in SE.
    unfold on_file, ef_short_name. rewrite O4. unfold ef_full_name in O4. rewrite O4, SE, O2, O3, short_part, (IH k d H Fs). reflexivity.
Qed.
End Walk.

Lemma c45_walk : forall files size image s s1 l0, directory files -> Forall (fun f => size_of (src_name f) <= 63) files ->
  create files size = Packed image -> installed s image -> erfs_begin s = (s1, true, l0) ->
  (forall before f after, files = before ++ f :: after -> name_at files before + 63 <= fs_size s) ->
  exists d, erfs_open_dir (str "/") = Some d /\ forall cs, Forall sensible_walk cs -> walk s1 d cs = Some (walked files 0 cs).
Proof.
  intros files size image s s1 l0 D S C I M OK. destruct (mount _ _ _ _ C I) as [M' V]. rewrite M in M'. assert (s1 = mounted s files) by congruence. subst s1.
  exists dir_open. split; [reflexivity|]. intros cs F. apply walk_ok; auto. apply at_start; reflexivity.
Qed.
Lemma c45_other_dir : forall path, path <> str "/" -> erfs_open_dir path = None.
Proof. intros path H. unfold erfs_open_dir. change [47] with (str "/"). rewrite (proj2 (beq_neq _ _) H). reflexivity. Qed.
