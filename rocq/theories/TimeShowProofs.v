(** Proofs about the command "time". *)
From Coq Require Import ZArith List Bool Lia ZifyBool.
From Verif Require Import Base BaseFacts JsonBuildFacts Clock ClockSpec ClockProofs ClockMain FormMain ShowSpec ShowProofs TimeShow TimeShowSpec.
Import ListNotations.
Open Scope Z_scope.

(** ** The day of the year *)
Lemma first_day : forall y, 1970 <= y -> 0 <= A (y - 1) + 306 - 719468 /\ date_of (Z.to_nat (A (y - 1) + 306 - 719468)) = (y, 1, 1).
Proof.
  intros y H. pose proof (A_mono 1969 (y - 1) ltac:(lia)) as M. change (A 1969) with 719162 in M.
  split; [lia|]. rewrite <- civil_date, Z2Nat.id by lia. rewrite civil_at by (pose proof (A_len_bounds (y - 1)); lia).
  change (fields 306) with (1, 1, 1). unfold in_year. do 2 f_equal. lia.
Qed.
Lemma leap_era : forall y era, leapb (y + era * 400) = leapb y.
Proof.
  intros y era. unfold leapb.
  replace ((y + era * 400) mod 4) with (y mod 4) by (Z.div_mod_to_equations; lia).
  replace ((y + era * 400) mod 100) with (y mod 100) by (Z.div_mod_to_equations; lia).
  replace ((y + era * 400) mod 400) with (y mod 400) by (Z.div_mod_to_equations; lia). reflexivity.
Qed.
Lemma yday_march : forall t Y, A Y <= t / 86400 + 719468 < A (Y + 1) ->
  gm_yday t = let yd := t / 86400 + 719468 - A Y in if 306 <=? yd then yd - 306 else yd + 59 + (if leapb Y then 1 else 0).
Proof.
  intros t Y B. unfold gm_yday. cbv zeta. set (D := t / 86400 + 719468) in *. set (era := D / 146097).
  assert (R : 0 <= D - era * 146097 < 146097) by (subst era; Z.div_mod_to_equations; lia).
  set (e := D - era * 146097) in *. pose proof (era_year e R) as [Y1 Y2]. cbv zeta in *.
  set (y := (e - e / 1460 + e / 36524 - e / 146096) / 365) in *.
  assert (EA : A (y + era * 400) = era * 146097 + (365 * y + y / 4 - y / 100)).
  { unfold A. assert (y / 400 = 0) by (apply Z.div_small; lia). Z.div_mod_to_equations. lia. }
  assert (EB : A (y + era * 400 + 1) = era * 146097 + (365 * (y + 1) + (y + 1) / 4 - (y + 1) / 100 + (y + 1) / 400)).
  { unfold A. Z.div_mod_to_equations. lia. }
  assert (Q : Y = y + era * 400) by (apply (A_unique _ _ D); [exact B | subst e; lia]).
  rewrite isleap_leapb, <- (leap_era y era), <- Q.
  replace (e - (365 * y + y / 4 - y / 100)) with (D - A Y) by (rewrite Q; subst e; lia). reflexivity.
Qed.
Lemma gm_yday_ok : forall t, 0 <= t -> exists first, date_of first = (tm_year (gmtime t), 1, 1) /\
  t / 86400 = Z.of_nat first + gm_yday t /\ 0 <= gm_yday t.
Proof.
  intros t H. destruct (gmtime_date t H) as [D _]. set (y := tm_year (gmtime t)) in *.
  pose proof (year_from_1970 _ _ _ _ D) as Y0. destruct (first_day y Y0) as [P E].
  assert (T : 0 <= t / 86400) by (apply Z.div_pos; lia).
  exists (Z.to_nat (A (y - 1) + 306 - 719468)). split; [exact E|]. rewrite Z2Nat.id by exact P.
  destruct (civil_fields (t / 86400)) as [Y [B C]].
  rewrite (yday_march t Y B). cbv zeta.
  pose proof (A_len_bounds Y) as L. set (yd := t / 86400 + 719468 - A Y) in *.
  assert (R : 0 <= yd <= 365) by (subst yd; lia).
  pose proof (fields_ok _ R) as F.
  assert (C1 : all_days (fun yd => let '(b, m, d) := fields yd in if b =? 0 then yd <? 306 else 306 <=? yd) = true) by (vm_compute; reflexivity).
  pose proof (all_days_spec _ C1 yd R) as Q. cbv beta in Q.
  rewrite <- civil_date, Z2Nat.id in D by exact T. rewrite D in C. destruct (fields yd) as [[b m] d]. unfold in_year in C.
  assert (YB : y = Y + b) by congruence.
  destruct F as [[[-> F] | [-> F]] _].
  - change (0 =? 0) with true in Q. cbv iota in Q. replace (306 <=? yd) with false by lia.
    pose proof (A_len (Y - 1)) as LL. replace (Y - 1 + 1) with Y in LL by lia. replace (y - 1) with (Y - 1) by lia.
    destruct (leapb Y); subst yd; lia.
  - change (1 =? 0) with false in Q. cbv iota in Q. replace (306 <=? yd) with true by lia. replace (y - 1) with Y by lia. subst yd. lia.
Qed.

(** ** The two clocks *)
Lemma gm_clock : forall t, 0 <= t -> let g := gmtime t in let n := Z.to_nat (t / 86400) in
  clock_at t 0 n (tm_year g) (tm_mon g + 1) (tm_mday g) (gm_yday t) (tm_hour g) (tm_min g) (tm_sec g) /\ tm_wday g = weekday n.
Proof.
  intros t H g n. destruct (gmtime_date t H) as [D [G1 [G2 [G3 G4]]]]. destruct (gm_yday_ok t H) as [first [F1 [F2 F3]]].
  assert (T : 0 <= t / 86400) by (apply Z.div_pos; lia).
  split.
  - split; [exact D|]. split; [exists first; split; [exact F1 | subst n; lia]|]. split; [exact F3|].
    split; [exact G1|]. split; [exact G2|]. split; [exact G3|]. subst n. rewrite Z2Nat.id by exact T. subst g. lia.
  - unfold weekday. subst n g. rewrite Z2Nat.id by exact T. unfold gmtime. destruct (civil (t / 86400)) as [[a b] c]. reflexivity.
Qed.
Lemma local_clock : forall t, 0 <= t -> let l := localtime t in exists n o,
  clock_at t o n (tm_year l) (tm_mon l + 1) (tm_mday l) (local_yday t) (tm_hour l) (tm_min l) (tm_sec l) /\ tm_wday l = weekday n /\
  (summer t /\ o = 2 /\ local_isdst t = 1 \/ ~ summer t /\ o = 1 /\ local_isdst t = 0).
Proof.
  intros t H l. destruct (localtime_date t H) as [n [D [O1 [O2 [L1 [L2 [L3 L4]]]]]]]. set (o := - offset_of t / 3600) in *.
  destruct (gm_clock t H) as [[GD [[first [F1 F2]] [F3 [G1 [G2 [G3 G4]]]]]] GW].
  assert (T : 0 <= t / 86400) by (apply Z.div_pos; lia). rewrite Z2Nat.id in * by exact T.
  pose proof (date_number _ _ _ _ GD) as [_ [M1 M2]].
  exists n, o. split; [|split].
  - split; [exact D|]. split; [|split; [|auto]].
    + unfold local_yday. set (g := gmtime t) in *.
      replace (tm_hour g - offset_of t / 3600) with (tm_hour g + o) by lia.
      destruct (Z.leb_spec 24 (tm_hour g + o)) as [K | K].
      * assert (N : n = S (Z.to_nat (t / 86400))).
        { assert (Z.of_nat n = t / 86400 + 1); [|lia]. fold l in L4, L1, L2, L3. Z.div_mod_to_equations. lia. }
        assert (E : date_of n = tomorrow (date_of (Z.to_nat (t / 86400)))) by (rewrite N; reflexivity).
        rewrite D, GD in E. unfold tomorrow in E.
        replace (mon_lengths (tm_year g) (tm_mon g)) with (month_length (tm_year g) (tm_mon g + 1))
          by (rewrite <- mon_length_ok by exact M1; f_equal; lia).
        destruct (Z.ltb_spec (tm_mday g) (month_length (tm_year g) (tm_mon g + 1))) as [I | I].
        -- replace (month_length _ _ <? tm_mday g + 1) with false by lia. cbn [andb].
           exists first. fold l in E. replace (tm_year l) with (tm_year g) by congruence. split; [exact F1 | lia].
        -- replace (month_length _ _ <? tm_mday g + 1) with true by lia. cbn [andb].
           destruct (Z.ltb_spec (tm_mon g + 1) 12) as [J | J].
           ++ replace (tm_mon g + 1 =? 12) with false by lia. exists first. fold l in E.
              replace (tm_year l) with (tm_year g) by congruence. split; [exact F1 | lia].
           ++ replace (tm_mon g + 1 =? 12) with true by lia. exists n. fold l in D, E.
              split; [rewrite D; congruence | lia].
      * assert (N : n = Z.to_nat (t / 86400)).
        { assert (Z.of_nat n = t / 86400); [|lia]. fold l in L4, L1, L2, L3. Z.div_mod_to_equations. lia. }
        exists first. subst n. fold l in D. rewrite GD in D. replace (tm_year l) with (tm_year g) by congruence. split; [exact F1 | lia].
    + unfold local_yday. destruct (24 <=? _); [destruct (_ && _); lia | lia].
  - assert (W : tm_wday l = (4 + Z.of_nat n) mod 7); [|exact W].
    assert (GW' : tm_wday (gmtime t) = (4 + t / 86400) mod 7) by (rewrite GW; unfold weekday; rewrite Z2Nat.id by exact T; reflexivity).
    subst l. unfold localtime in *. set (g := gmtime t) in *.
    replace (tm_hour g - offset_of t / 3600) with (tm_hour g + o) in * by lia.
    destruct (Z.leb_spec 24 (tm_hour g + o)) as [K | K].
    + assert (N : Z.of_nat n = t / 86400 + 1).
      { destruct (_ <? _); [destruct (_ =? _)|]; cbn [tm_hour tm_min tm_sec] in L1, L2, L3, L4; Z.div_mod_to_equations; lia. }
      assert (X : (if 6 <? tm_wday g + 1 then 0 else tm_wday g + 1) = (4 + Z.of_nat n) mod 7).
      { rewrite N, GW'. destruct (6 <? _) eqn:S6; Z.div_mod_to_equations; lia. }
      destruct (_ <? _); [destruct (_ =? _)|]; exact X.
    + assert (N : Z.of_nat n = t / 86400) by (cbn [tm_hour tm_min tm_sec] in L1, L2, L3, L4; Z.div_mod_to_equations; lia).
      cbn [tm_wday]. rewrite N. exact GW'.
  - unfold local_isdst. subst o. destruct (offset_spec t H) as [[-> S] | [-> S]]; [left | right]; auto.
Qed.

(** ** The texts *)
Lemma dec_small : forall d, 0 <= d < 10 -> dec d = digits 1 d.
Proof.
  intros d H. rewrite <- padded_digits by (change (10 ^ Z.of_nat 1) with 10; lia). unfold padded.
  assert (d = 0 \/ d = 1 \/ d = 2 \/ d = 3 \/ d = 4 \/ d = 5 \/ d = 6 \/ d = 7 \/ d = 8 \/ d = 9) as C by lia.
  destruct C as [-> | [-> | [-> | [-> | [-> | [-> | [-> | [-> | [-> | ->]]]]]]]]]; reflexivity.
Qed.
Lemma dec_exact : forall k v, (1 <= k)%nat -> 10 ^ (Z.of_nat k - 1) <= v < 10 ^ Z.of_nat k -> dec v = digits k v /\ length (dec v) = k.
Proof.
  assert (Aux : forall k f v, 10 ^ (Z.of_nat k) <= v < 10 ^ Z.of_nat (S k) -> v < 2 ^ Z.of_nat f -> (1 <= f)%nat -> dec_aux f v [] = digits (S k) v).
  { induction k as [|k IH]; intros f v Hv Hf F1; (destruct f as [|f]; [lia|]); cbn [dec_aux].
    - change (10 ^ Z.of_nat 1) with 10 in Hv. replace (v <? 10) with true by lia. cbn [digits]. rewrite app_nil_l. reflexivity.
    - assert (0 < 10 ^ Z.of_nat k) by (apply Z.pow_pos_nonneg; lia).
      replace (Z.of_nat (S (S k))) with (Z.of_nat (S k) + 1) in Hv by lia. rewrite (Z.pow_add_r 10 _ 1) in Hv by lia.
      replace (Z.of_nat (S k)) with (Z.of_nat k + 1) in Hv by lia. rewrite (Z.pow_add_r 10 _ 1) in Hv by lia. change (10 ^ 1) with 10 in Hv.
      replace (v <? 10) with false by lia. rewrite dec_aux_acc.
      assert (F : (1 <= f)%nat). { destruct f; [change (2 ^ Z.of_nat 1) with 2 in Hf; lia | lia]. }
      rewrite (IH f (v / 10)); [reflexivity | | | exact F].
      + replace (Z.of_nat (S k)) with (Z.of_nat k + 1) by lia. rewrite Z.pow_add_r by lia. change (10 ^ 1) with 10.
        split; [apply Z.div_le_lower_bound; lia | apply Z.div_lt_upper_bound; lia].
      + replace (Z.of_nat (S f)) with (Z.of_nat f + 1) in Hf by lia. rewrite Z.pow_add_r in Hf by lia.
        change (2 ^ 1) with 2 in Hf. apply Z.div_lt_upper_bound; lia. }
  intros k v K H. destruct k as [|k]; [lia|].
  assert (P : 0 < 10 ^ (Z.of_nat (S k) - 1)) by (apply Z.pow_pos_nonneg; lia).
  assert (E : dec v = digits (S k) v).
  { unfold dec. pose proof (Z.log2_nonneg v). apply Aux; [replace (Z.of_nat k) with (Z.of_nat (S k) - 1) by lia; exact H | | lia].
    rewrite Z2Nat.id by lia. pose proof (Z.log2_spec v ltac:(lia)) as [_ L]. replace (Z.log2 v + 2) with (Z.succ (Z.log2 v) + 1) by lia.
    rewrite Z.pow_add_r by lia. change (2 ^ 1) with 2. lia. }
  split; [exact E | rewrite E; apply digits_length].
Qed.
Lemma ctime_text : forall t, 0 <= t < 253402300800 - 7200 -> exists n o y m d j h mi s, clock_at t o n y m d j h mi s /\
  (summer t /\ o = 2 \/ ~ summer t /\ o = 1) /\ y <= 9999 /\
  print_tm (str "localtime:") (local_isdst t) (local_yday t) (localtime t) =
    fields_line (str "localtime:") (if o =? 2 then 1 else 0) n y m d j h mi s /\
  ctime t = date_text n y m d h mi s ++ [10].
Proof.
  intros t [H1 H2]. destruct (local_clock t H1) as [n [o [C [W S]]]]. set (l := localtime t) in *.
  exists n, o, (tm_year l), (tm_mon l + 1), (tm_mday l), (local_yday t), (tm_hour l), (tm_min l), (tm_sec l).
  split; [exact C|]. split; [tauto|]. destruct C as [D [_ [_ [Hh [Hm [Hs E]]]]]].
  assert (O : o = 1 \/ o = 2) by tauto.
  assert (Y9 : tm_year l <= 9999) by (apply (year_bound n _ _ _ D); lia).
  pose proof (year_from_1970 _ _ _ _ D) as Y0. pose proof (date_number _ _ _ _ D) as [_ [M1 M2]]. pose proof (month_length_31 (tm_year l) (tm_mon l + 1)).
  split; [exact Y9|]. split.
  - unfold print_tm, fields_line. rewrite W. replace (tm_mon l + 1 - 1) with (tm_mon l) by lia.
    replace (local_isdst t) with (if o =? 2 then 1 else 0); [reflexivity|]. destruct S as [[_ [-> ->]] | [_ [-> ->]]]; reflexivity.
  - unfold ctime, asctime. fold l. unfold date_text. rewrite W.
    rewrite !(padded_digits 2) by (change (10 ^ Z.of_nat 2) with 100; lia).
    destruct (dec_exact 4 (tm_year l)) as [-> _]; [lia | change (10 ^ (Z.of_nat 4 - 1)) with 1000; change (10 ^ Z.of_nat 4) with 10000; lia|].
    replace (tm_mon l + 1 - 1) with (tm_mon l) by lia.
    assert (X : repeat 32 (3 - length (dec (tm_mday l))) ++ dec (tm_mday l) =
                str " " ++ (if tm_mday l <? 10 then str " " ++ digits 1 (tm_mday l) else digits 2 (tm_mday l))).
    { destruct (Z.ltb_spec (tm_mday l) 10).
      - rewrite dec_small by lia. rewrite digits_length. reflexivity.
      - destruct (dec_exact 2 (tm_mday l)) as [-> _]; [lia | change (10 ^ (Z.of_nat 2 - 1)) with 10; change (10 ^ Z.of_nat 2) with 100; lia|].
        rewrite digits_length. reflexivity. }
    unfold day_name, mon_name, day_names, month_names. rewrite <- ?app_assoc.
    change [32] with (str " "). change [58] with (str ":").
    rewrite (app_assoc (repeat 32 _) (dec _)), X. rewrite <- ?app_assoc. reflexivity.
Qed.

(** ** The whole text *)
Lemma digits_line : forall k v, one_line (digits k v).
Proof.
  induction k as [|k IH]; intros v; [constructor|]. cbn [digits]. apply one_line_app; [apply IH|]. constructor; [|constructor].
  assert (0 <= v mod 10 < 10) by (apply Z.mod_pos_bound; lia). lia.
Qed.
Lemma nth_line : forall ls k, Forall one_line ls -> one_line (nth k ls []).
Proof.
  induction ls as [|x ls IH]; intros k H; [destruct k; constructor|]. inversion H; subst. destruct k; [assumption | apply IH; assumption].
Qed.
Ltac plain := repeat match goal with
  | |- one_line (_ ++ _) => apply one_line_app
  | |- one_line (dec _) => apply dec_line
  | |- one_line (digits _ _) => apply digits_line
  | |- one_line (str _) => apply plainb; vm_compute; reflexivity
  end.
Lemma fields_plain : forall name dst n y m d j h mi s, one_line name -> one_line (fields_line name dst n y m d j h mi s).
Proof. intros. unfold fields_line. plain. assumption. Qed.
Lemma date_plain : forall n y m d h mi s, one_line (date_text n y m d h mi s).
Proof.
  intros. unfold date_text.
  assert (D : one_line (nth (Z.to_nat (weekday n)) day_names [])).
  { apply nth_line. unfold day_names. repeat (apply Forall_cons; [apply plainb; vm_compute; reflexivity|]). apply Forall_nil. }
  assert (M : one_line (nth (Z.to_nat (m - 1)) month_names [])).
  { apply nth_line. unfold month_names. repeat (apply Forall_cons; [apply plainb; vm_compute; reflexivity|]). apply Forall_nil. }
  assert (X : one_line (if d <? 10 then str " " ++ digits 1 d else digits 2 d)) by (destruct (d <? 10); plain).
  revert D M X. generalize (nth (Z.to_nat (weekday n)) day_names []) (nth (Z.to_nat (m - 1)) month_names [])
    (if d <? 10 then str " " ++ digits 1 d else digits 2 d). intros a b c D M X.
  plain; assumption.
Qed.
Lemma c118 : forall now sec usec ms us servers, 0 <= now < 253402300800 - 7200 ->
  exists n o y m d j h mi s n' y' m' d' j' h' mi' s',
    clock_at now o n y m d j h mi s /\ (summer now /\ o = 2 \/ ~ summer now /\ o = 1) /\ y <= 9999 /\
    clock_at now 0 n' y' m' d' j' h' mi' s' /\
    lines_of (time_text now sec usec ms us servers) =
      [str "";
       fields_line (str "localtime:") (if o =? 2 then 1 else 0) n y m d j h mi s;
       fields_line (str "gmtime:   ") 0 n' y' m' d' j' h' mi' s';
       str "millis:    " ++ dec ms;
       str "micros:    " ++ dec us;
       str "gtod:      " ++ dec sec ++ str "s / " ++ dec usec ++ str "us";
       str "time:      " ++ dec (now mod 4294967296);
       str "timezone:  CET-1CEST,M3.5.0,M10.5.0/3";
       str "ctime:     " ++ date_text n y m d h mi s] ++ lines_of (servers ++ [13; 10]).
Proof.
  intros now sec usec ms us servers H.
  destruct (ctime_text now H) as (n & o & y & m & d & j & h & mi & s & C & S & Y & L & T).
  destruct (gm_clock now ltac:(lia)) as [G W]. cbv zeta in G, W. set (g := gmtime now) in *. set (n' := Z.to_nat (now / 86400)) in *.
  exists n, o, y, m, d, j, h, mi, s, n', (tm_year g), (tm_mon g + 1), (tm_mday g), (gm_yday now), (tm_hour g), (tm_min g), (tm_sec g).
  split; [exact C|]. split; [exact S|]. split; [exact Y|]. split; [exact G|].
  assert (GL : print_tm (str "gmtime:   ") 0 (gm_yday now) g =
    fields_line (str "gmtime:   ") 0 n' (tm_year g) (tm_mon g + 1) (tm_mday g) (gm_yday now) (tm_hour g) (tm_min g) (tm_sec g)).
  { unfold print_tm, fields_line. rewrite W. replace (tm_mon g + 1 - 1) with (tm_mon g) by lia. reflexivity. }
  unfold time_text. fold g. rewrite L, T, GL. clear L T GL.
  set (l1 := fields_line (str "localtime:") _ _ _ _ _ _ _ _ _). set (l2 := fields_line (str "gmtime:   ") _ _ _ _ _ _ _ _ _).
  assert (P1 : one_line l1) by (apply fields_plain, plainb; vm_compute; reflexivity).
  assert (P2 : one_line l2) by (apply fields_plain, plainb; vm_compute; reflexivity).
  clearbody l1 l2.
  set (dt := date_text n y m d h mi s). assert (P3 : one_line dt) by apply date_plain. clearbody dt.
  set (e := [13; 10]).
  replace (e ++ l1 ++ e ++ l2 ++ e ++ str "millis:    " ++ dec ms ++ e ++ str "micros:    " ++ dec us ++ e ++
    str "gtod:      " ++ dec sec ++ str "s / " ++ dec usec ++ str "us" ++ e ++ str "time:      " ++ dec (now mod 4294967296) ++ e ++
    str "timezone:  CET-1CEST,M3.5.0,M10.5.0/3" ++ [10] ++ str "ctime:     " ++ (dt ++ [10]) ++ servers ++ e)
  with (str "" ++ e ++ l1 ++ e ++ l2 ++ e ++ (str "millis:    " ++ dec ms) ++ e ++ (str "micros:    " ++ dec us) ++ e ++
    (str "gtod:      " ++ dec sec ++ str "s / " ++ dec usec ++ str "us") ++ e ++ (str "time:      " ++ dec (now mod 4294967296)) ++ e ++
    str "timezone:  CET-1CEST,M3.5.0,M10.5.0/3" ++ [10] ++ (str "ctime:     " ++ dt) ++ [10] ++ (servers ++ e))
  by (rewrite <- ?app_assoc; reflexivity).
  unfold e at 1 2 3 4 5 6 7.
  rewrite lines_eol by (constructor). rewrite lines_eol by exact P1. rewrite lines_eol by exact P2.
  rewrite lines_eol by plain. rewrite lines_eol by plain. rewrite lines_eol by plain. rewrite lines_eol by plain.
  rewrite lines_lf by plain. rewrite lines_lf by (plain; exact P3). reflexivity.
Qed.
Lemma c118_instant : forall now now' sec sec' usec usec' ms ms' us us' servers servers',
  0 <= now < 4294967296 -> 0 <= now' < 4294967296 ->
  time_text now sec usec ms us servers = time_text now' sec' usec' ms' us' servers' -> now = now'.
Proof.
  intros now now' sec sec' usec usec' ms ms' us us' servers servers' H H' E.
  destruct (c118 now sec usec ms us servers ltac:(lia)) as (? & ? & ? & ? & ? & ? & ? & ? & ? & ? & ? & ? & ? & ? & ? & ? & ? & _ & _ & _ & _ & L).
  destruct (c118 now' sec' usec' ms' us' servers' ltac:(lia)) as (? & ? & ? & ? & ? & ? & ? & ? & ? & ? & ? & ? & ? & ? & ? & ? & ? & _ & _ & _ & _ & L').
  rewrite E, L' in L. apply (f_equal (fun x => nth 6 x [])) in L. cbn [app nth] in L. apply app_inv_head in L.
  rewrite !Z.mod_small in L by assumption. symmetry. apply dec_inj; [lia | lia | exact L].
Qed.
Lemma c118_set : forall now, 0 <= now < 253402300800 - 7200 -> exists n o y m d j h mi s, clock_at now o n y m d j h mi s /\
  (summer now /\ o = 2 \/ ~ summer now /\ o = 1) /\ y <= 9999 /\
  set_text now = str "SNTP updated, time: " ++ date_text n y m d h mi s ++ [10].
Proof.
  intros now H. destruct (ctime_text now H) as (n & o & y & m & d & j & h & mi & s & C & S & Y & _ & T).
  exists n, o, y, m, d, j, h, mi, s. unfold set_text. rewrite T. auto.
Qed.
