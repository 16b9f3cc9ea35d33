(** The EEPROM dump of the serial command line. *)
From Coq Require Import ZArith List Bool Lia ZifyBool ZifyNat.
From Verif Require Import Base BaseFacts Config ConfigSpec ConfigProofs ConfigMain ConfigHist Cli CliSpec.
Import ListNotations.
Open Scope Z_scope.

(** ** Hexadecimal numbers *)
Lemma hex_char_digit : forall d, 0 <= d < 16 -> hex_char (hex_digit d) d.
Proof. intros d H. unfold hex_char, hex_digit. destruct (d <? 10) eqn:E; lia. Qed.

Lemma shows_app : forall t k v d c, shows k v t -> hex_char c d -> shows (S k) (16 * v + d) (t ++ [c]).
Proof.
  induction t as [|x t IH]; intros k v d c S H; destruct k; cbn [shows] in S; try contradiction.
  - subst. cbn [app shows]. exists d. split; [exact H|]. cbn. lia.
  - destruct S as (d' & Hd & S). cbn [app]. cbn [shows]. exists d'. split; [exact Hd|].
    specialize (IH k _ d c S H). cbn [shows] in IH.
    replace (16 * v + d - d' * 16 ^ Z.of_nat (Datatypes.S k)) with (16 * (v - d' * 16 ^ Z.of_nat k) + d); [exact IH|].
    rewrite Nat2Z.inj_succ, Z.pow_succ_r by lia. lia.
Qed.
Lemma shows_zero : forall k v t, shows k v t -> shows (S k) v (48 :: t).
Proof. intros. cbn [shows]. exists 0. split; [unfold hex_char; lia|]. replace (v - 0 * _) with v by lia. exact H. Qed.
Lemma shows_zeros : forall n k v t, shows k v t -> shows (n + k) v (repeat 48 n ++ t).
Proof. induction n; intros; [exact H|]. cbn [repeat app Nat.add]. apply shows_zero. auto. Qed.
Lemma shows_length : forall k v t, shows k v t -> length t = k.
Proof. induction k; destruct t; cbn [shows]; try tauto. intros (d & _ & S). cbn [length]. f_equal. eauto. Qed.

(** the digits of a number below 16^k, k at least 1 *)
Lemma hex_aux_shows : forall f n acc k, (k <= f)%nat -> 0 <= n < 16 ^ Z.of_nat k -> (1 <= k)%nat ->
  exists ds j, hex_aux f n acc = ds ++ acc /\ shows j n ds /\ (1 <= j <= k)%nat.
Proof.
  induction f; intros n acc k Hk Hn H1; [lia|]. cbn [hex_aux].
  assert (M := Z.div_mod n 16 ltac:(lia)). assert (B := Z.mod_pos_bound n 16 ltac:(lia)).
  destruct (n <? 16) eqn:E.
  - exists [hex_digit (n mod 16)], 1%nat. split; [reflexivity|]. split; [|lia].
    rewrite Z.mod_small by lia. cbn [shows]. exists n. split; [apply hex_char_digit; lia|]. cbn. lia.
  - destruct k as [|[|k]]; [lia|change (16 ^ Z.of_nat 1) with 16 in Hn; lia|].
    destruct (IHf (n / 16) (hex_digit (n mod 16) :: acc) (S k)) as (ds & j & Ed & S & L); [lia| |lia|].
    { rewrite Nat2Z.inj_succ, Z.pow_succ_r in Hn by lia. split; [apply Z.div_pos; lia|apply Z.div_lt_upper_bound; lia]. }
    exists (ds ++ [hex_digit (n mod 16)]), (Datatypes.S j). split; [rewrite Ed, <- app_assoc; reflexivity|]. split; [|lia].
    rewrite M at 1. apply shows_app; [exact S|apply hex_char_digit; lia].
Qed.
Lemma hex_pad_shows : forall k n, (1 <= k <= 8)%nat -> 0 <= n < 16 ^ Z.of_nat k -> shows k n (hex_pad k n).
Proof.
  intros k n Hk Hn. unfold hex_pad, pad0, hex. destruct (hex_aux_shows 8 n [] k) as (ds & j & E & S & L); [lia|lia|lia|].
  rewrite E, app_nil_r. rewrite (shows_length _ _ _ S). replace k with (k - j + j)%nat at 1 by lia. apply shows_zeros. exact S.
Qed.

Lemma c24_name : forall chip, 0 <= chip < 4294967296 ->
  exists k digits, s_host (factory chip) = str "WifInfo-" ++ digits /\ (6 <= k <= 8)%nat /\ shows k chip digits.
Proof.
  intros chip H. destruct (hex_aux_shows 8 chip [] 8) as (ds & j & E & S & L); [lia|exact H|lia|]. rewrite app_nil_r in E.
  exists (6 - j + j)%nat, (hex6 chip). split; [reflexivity|]. split; [lia|]. unfold hex6, pad0, hex. rewrite E, (shows_length _ _ _ S).
  apply shows_zeros. exact S.
Qed.

(** ** The lines *)
Definition cell (b : list Z) : list Z := b ++ [32].
Definition tail_line (bs : list Z) : list Z := concat (map (fun b => cell (hex_pad 2 b)) bs) ++ [13; 10].

Lemma rd_skipn : forall (m : list Z) i x r, skipn i m = x :: r -> rd m i = Some x /\ skipn (S i) m = r.
Proof.
  induction m; destruct i; cbn [skipn rd nth_error]; intros x r H; try discriminate.
  - injection H as -> ->. auto.
  - apply IHm in H. exact H.
Qed.

(** the rest of a line on which [j] bytes stand *)
Lemma dump_rest : forall bs more i j per n e rest, bs <> [] -> (j + length bs = per)%nat -> (0 < j)%nat ->
  skipn i (e_buf e) = bs ++ more -> dump_loop n (i + length bs) 0 per e = Some rest ->
  dump_loop (length bs + n) i j per e = Some (tail_line bs ++ rest).
Proof.
  induction bs as [|b bs IH]; intros more i j per n e rest N L J Sk R; [congruence|].
  cbn [app] in Sk. destruct (rd_skipn _ _ _ _ Sk) as (Hb & Sk'). cbn [length Nat.add dump_loop]. rewrite Hb.
  replace ((j =? 0)%nat) with false by lia. cbn [length] in L.
  destruct bs as [|b' bs].
  - replace ((per <=? S j)%nat) with true by (cbn [length] in L; lia).
    cbn [length Nat.add] in R |- *. replace (i + 1)%nat with (S i) in R by lia. rewrite R.
    unfold tail_line, cell. cbn [map concat app]. rewrite app_nil_r, <- !app_assoc. reflexivity.
  - replace ((per <=? S j)%nat) with false by (cbn [length] in L; lia).
    rewrite (IH more (S i) (S j) per n e rest); [|congruence|lia|lia|exact Sk'|].
    + unfold tail_line, cell. cbn [map concat app]. rewrite <- !app_assoc. reflexivity.
    + replace (S i + length (b' :: bs))%nat with (i + length (b :: b' :: bs))%nat by (cbn [length]; lia). exact R.
Qed.
Lemma dump_row : forall bs more i per n e rest, (length bs = per)%nat -> (2 <= per)%nat ->
  skipn i (e_buf e) = bs ++ more -> dump_loop n (i + length bs) 0 per e = Some rest ->
  dump_loop (length bs + n) i 0 per e = Some (hex_pad 4 (Z.of_nat i) ++ str " : " ++ tail_line bs ++ rest).
Proof.
  intros [|b bs] more i per n e rest L P Sk R; [cbn in L; lia|]. cbn [app] in Sk.
  destruct (rd_skipn _ _ _ _ Sk) as (Hb & Sk'). cbn [length Nat.add dump_loop]. rewrite Hb. cbn [length] in L.
  replace ((per <=? 1)%nat) with false by lia. change ((0 =? 0)%nat) with true. cbn iota.
  rewrite (dump_rest bs more (S i) 1 per n e rest); [|destruct bs; [cbn in L; lia|congruence]|lia|lia|exact Sk'|].
  - unfold tail_line, cell. cbn [map concat]. rewrite <- !app_assoc. reflexivity.
  - replace (S i + length bs)%nat with (i + length (b :: bs))%nat by (cbn [length]; lia). exact R.
Qed.

Definition the_line (e : eeprom) (per r : nat) : list Z :=
  hex_pad 4 (Z.of_nat (per * r)) ++ str " : " ++ tail_line (slice (per * r) per (e_buf e)).

Lemma dump_rows : forall rows e per r, (2 <= per)%nat -> (per * (r + rows) <= length (e_buf e))%nat ->
  dump_loop (per * rows) (per * r) 0 per e = Some (concat (map (the_line e per) (seq r rows))).
Proof.
  induction rows as [|rows IH]; intros e per r P L.
  - rewrite Nat.mul_0_r. reflexivity.
  - assert (Ls : length (slice (per * r) per (e_buf e)) = per).
    { unfold slice. rewrite firstn_length, skipn_length. lia. }
    replace (per * S rows)%nat with (length (slice (per * r) per (e_buf e)) + per * rows)%nat by lia.
    cbn [seq map concat].
    rewrite (dump_row _ (skipn per (skipn (per * r) (e_buf e))) _ per _ _ (concat (map (the_line e per) (seq (S r) rows)))).
    + unfold the_line at 2. rewrite <- !app_assoc. reflexivity.
    + exact Ls.
    + exact P.
    + unfold slice. symmetry. apply firstn_skipn.
    + rewrite Ls. replace (per * r + per)%nat with (per * S r)%nat by lia. apply IH; lia.
Qed.

Lemma the_line_ok : forall e per r, bytes (e_buf e) -> Z.of_nat (per * r) < 65536 ->
  dump_line (Z.of_nat (per * r)) (slice (per * r) per (e_buf e)) (the_line e per r).
Proof.
  intros e per r B H. exists (hex_pad 4 (Z.of_nat (per * r))), (map (hex_pad 2) (slice (per * r) per (e_buf e))).
  split; [apply hex_pad_shows; [lia|change (16 ^ Z.of_nat 4) with 65536; lia]|]. split.
  - assert (Bs : bytes (slice (per * r) per (e_buf e))) by (unfold slice; apply firstn_bytes, skipn_bytes; exact B).
    induction Bs; cbn [map]; constructor; [|assumption]. apply hex_pad_shows; [lia|]. change (16 ^ Z.of_nat 2) with 256. exact H0.
  - unfold the_line, tail_line, cell. rewrite map_map. reflexivity.
Qed.

Lemma c62 : forall s, reachable s -> exists lines, cli_dump s = Some ([13; 10] ++ concat lines) /\ length lines = 64%nat /\
  forall r, (r < 64)%nat -> dump_line (16 * Z.of_nat r) (slice (16 * r) 16 (e_buf (c_ee s))) (nth r lines []).
Proof.
  intros s R. destruct (reachable_inv s R) as (_ & _ & (L & B) & _).
  assert (L' : length (e_buf (c_ee s)) = 1024%nat) by exact L.
  exists (map (the_line (c_ee s) 16) (seq 0 64)). split; [|split].
  - unfold cli_dump, eeprom_dump. change (u8 16 =? 0) with false. cbn iota. change (Z.to_nat (u8 16)) with 16%nat.
    change 1024%nat with (16 * 64)%nat at 1. change (dump_loop (16 * 64) 0 0 16) with (dump_loop (16 * 64) (16 * 0) 0 16).
    rewrite dump_rows by lia. reflexivity.
  - rewrite map_length, seq_length. reflexivity.
  - intros r Hr. rewrite (nth_indep _ [] (the_line (c_ee s) 16 0)) by (rewrite map_length, seq_length; exact Hr).
    rewrite map_nth, seq_nth by exact Hr. cbn [Nat.add].
    replace (16 * Z.of_nat r) with (Z.of_nat (16 * r)) by lia. apply the_line_ok; [exact B|lia].
Qed.
