(** Proofs about the pages of Pages.v. *)
From Coq Require Import ZArith List Bool Lia ZifyBool.
From Verif Require Import Base BaseFacts Config ConfigSpec ConfigProofs Json JsonFacts JsonBuild JsonBuildFacts Pages PagesSpec.
Import ListNotations.
Open Scope Z_scope.

(** ** C13 *)
Lemma jb_num_text : forall k n ms, jb_num k n false (jb_text ms) = jb_text (ms ++ [(k, JNum (dec n))]).
Proof. intros. apply jb_raw_text. Qed.
Lemma le_value_nonneg : forall l, bytes l -> 0 <= le_value l.
Proof. induction l as [|x l IH]; intros H; cbn [le_value]; [lia|]. inv H. specialize (IH H3). unfold is_byte in H2. lia. Qed.
Lemma num_nonneg : forall f c, wf c -> 0 <= num f c.
Proof.
  intros f c [L B]. apply le_value_nonneg. unfold get. destruct (nth_in_or_default (fidx f) c []) as [I| ->]; [|constructor].
  rewrite Forall_forall in B. auto.
Qed.
Lemma one_flag : forall b, JNum (dec (flag b)) = one b.
Proof. intros []; reflexivity. Qed.
Lemma config_json_text : forall c restricted,
  config_get_json c restricted = print (JObj ((if restricted then [] else private_members (view c)) ++ public_members (view c))).
Proof.
  intros c restricted. unfold config_get_json, js_text, js_num. unfold jb_num at 1. rewrite jb_new_text.
  assert (E : (if restricted then jb_text [] else
      jb_str (str "password") (text Password c) false (jb_str (str "username") (text Username c) false
      (jb_num (str "ota_port") (num OtaPort c) false (jb_str (str "ota_auth") (text OtaAuth c) false
      (jb_str (str "ap_psk") (text ApPsk c) false (jb_str (str "host") (text Host c) false
      (jb_str (str "psk") (text Psk c) false (jb_str (str "ssid") (text Ssid c) false (jb_text [])))))))))
    = jb_text (if restricted then [] else private_members (view c))).
  { destruct restricted; [reflexivity|]. rewrite !jb_str_text, jb_num_text, !jb_str_text. reflexivity. }
  rewrite E. clear E. set (front := if restricted then [] else private_members (view c)).
  repeat (rewrite jb_str_text || rewrite jb_num_text). rewrite jb_raw_last, !one_flag.
  repeat (rewrite <- !app_assoc; cbn [app]). reflexivity.
Qed.
Lemma quotable_names : forall ms, forallb (fun m : list Z * json => quotable (fst m) && printable (snd m)) ms = true <->
  Forall (fun m => quotable (fst m) = true /\ printable (snd m) = true) ms.
Proof.
  intros. rewrite forallb_forall, Forall_forall. split; intros H m I; specialize (H m I).
  - now apply andb_true_iff in H.
  - now apply andb_true_iff.
Qed.
Lemma c13 : forall c restricted, wf c ->
  (forall f, is_text f = true -> restricted && secret f = false -> quotable (text f c) = true) ->
  json_of (config_get_json c restricted) =
  Some (JObj ((if restricted then [] else private_members (view c)) ++ public_members (view c))).
Proof.
  intros c restricted W Q. rewrite config_json_text. apply json_print. cbn [printable]. rewrite forallb_app.
  apply andb_true_iff. assert (N : forall f, plain_number (dec (num f c)) = true) by (intros; apply dec_plain, num_nonneg; auto).
  assert (O : forall b : bool, plain_number (if b then str "1" else str "0") = true) by (intros []; reflexivity).
  split.
  - destruct restricted; [reflexivity|]. apply quotable_names. unfold private_members.
    repeat (apply Forall_cons; [split; [reflexivity|]; cbn [snd printable]; (apply (N OtaPort) || (apply (Q _); [reflexivity|rewrite ?andb_false_r; reflexivity]))|]).
    constructor.
  - apply quotable_names. unfold public_members, one.
    repeat (apply Forall_cons; [split; [reflexivity|]; cbn [snd printable]; first [apply O | apply (Q _); [reflexivity|apply andb_false_r] | apply (N _)]|]).
    constructor.
Qed.

(** ** C28, the pages *)
Lemma same_text : forall c1 c2 f, same_public c1 c2 -> secret f = false -> text f c1 = text f c2.
Proof. intros. unfold text. now rewrite H. Qed.
Lemma same_num : forall c1 c2 f, same_public c1 c2 -> secret f = false -> num f c1 = num f c2.
Proof. intros. unfold num. now rewrite H. Qed.
Lemma same_bit : forall c1 c2 n f, same_public c1 c2 -> secret f = false -> bit n f c1 = bit n f c2.
Proof. intros. unfold bit. now rewrite (same_num _ _ _ H). Qed.
Lemma config_page_public : forall c1 c2, same_public c1 c2 -> config_get_json c1 true = config_get_json c2 true.
Proof.
  intros c1 c2 H. unfold config_get_json, js_text, js_num.
  repeat match goal with
  | |- context [text ?f c1] => rewrite (same_text c1 c2 f H eq_refl)
  | |- context [num ?f c1] => rewrite (same_num c1 c2 f H eq_refl)
  | |- context [bit ?n ?f c1] => rewrite (same_bit c1 c2 n f H eq_refl)
  end. reflexivity.
Qed.
Lemma info_page_public : forall c1 c2 i, sys_get_info_json c1 i true = sys_get_info_json c2 i true.
Proof. intros. unfold sys_get_info_json, info_items. destruct (sys_uptime (i_micros i)); [|reflexivity]. rewrite andb_false_r. reflexivity. Qed.

(** ** C53 *)
Definition file_row (f : list Z * Z) : json := row (fst f) (JNum (dec (snd f))).
Lemma jt_files : forall files pre rows,
  fold_left (fun s f => jt_num (fst f) (snd f) s) files (pre ++ jt_text rows) = pre ++ jt_text (rows ++ map file_row files).
Proof.
  induction files as [|f files IH]; intros; cbn [fold_left map]; [now rewrite app_nil_r|].
  assert (E : jt_num (fst f) (snd f) (pre ++ jt_text rows) = pre ++ jt_text (rows ++ [file_row f])).
  { unfold file_row. rewrite <- jt_num_text. unfold jt_num. now rewrite <- app_assoc. }
  rewrite E, IH, <- app_assoc. reflexivity.
Qed.
Lemma rev_tail : forall (a b : list Z) r, b <> [] -> (exists c t, rev b = c :: t /\ r = rev (93 :: t) /\ c <> 91) ->
  match rev (a ++ b) with c :: t => Some (rev (if c =? 91 then 93 :: c :: t else 93 :: t)) | [] => None end = Some (a ++ r).
Proof.
  intros a b r N (c & t & E & -> & C). rewrite rev_app_distr, E. cbn [app]. apply Z.eqb_neq in C. rewrite C.
  cbn [rev]. rewrite rev_app_distr, rev_involutive, <- app_assoc. reflexivity.
Qed.
Lemma finalize_app : forall pre rows, jt_finalize (pre ++ jt_text rows) = Some (pre ++ print (JArr rows)).
Proof.
  intros pre rows. unfold jt_finalize. destruct rows as [|v rows].
  - rewrite rev_app_distr. cbn [jt_text map concat rev app]. cbn [Z.eqb Pos.eqb rev]. rewrite rev_involutive, <- app_assoc. reflexivity.
  - unfold jt_text. rewrite concat_commas by discriminate.
    rewrite app_comm_cons, app_assoc, rev_app_distr. cbn [rev app Z.eqb Pos.eqb]. rewrite rev_involutive, <- app_assoc.
    reflexivity.
Qed.
Lemma c53_files : forall files total used, 0 <= total -> 0 <= used ->
  Forall (fun f => quotable (fst f) = true /\ 0 <= snd f) files ->
  exists body, fs_get_json files total used false = Some body /\
    json_of body = Some (JObj
      [ (str "files", JArr (map (fun f => JObj [(str "na", JStr (fst f)); (str "va", JNum (dec (snd f)))]) files));
        (str "info", JObj [(str "Total", JNum (dec total)); (str "Used", JNum (dec used))]) ]).
Proof.
  intros files total used Ht Hu H. unfold fs_get_json. rewrite jt_new_text, jt_files, finalize_app. cbn [app].
  eexists. split; [reflexivity|]. rewrite <- (json_print (JObj
      [ (str "files", JArr (map (fun f => JObj [(str "na", JStr (fst f)); (str "va", JNum (dec (snd f)))]) files));
        (str "info", JObj [(str "Total", JNum (dec total)); (str "Used", JNum (dec used))]) ])).
  - f_equal. unfold jb_num, jb_raw, jb_new. cbn [print map fst snd sep_by]. unfold quoted, file_row, row.
    cbn [str app Ascii.N_of_ascii Ascii.N_of_digits Z.of_N]. cbn [app]; repeat (rewrite <- !app_assoc; cbn [app]). reflexivity.
  - cbn [printable forallb fst snd]. rewrite !dec_plain by auto.
    assert (F : forallb printable (map (fun f => JObj [(str "na", JStr (fst f)); (str "va", JNum (dec (snd f)))]) files) = true).
    { apply forallb_forall. intros x I. apply in_map_iff in I. destruct I as (f & <- & I). rewrite Forall_forall in H.
      destruct (H f I) as [A B]. cbn [printable forallb fst snd]. rewrite A, dec_plain by auto. reflexivity. }
    rewrite F. reflexivity.
Qed.
Lemma decs_plain : forall n, plain_number (decs n) = true.
Proof.
  intros n. unfold decs. destruct (n <? 0) eqn:E; [|apply dec_plain; lia].
  destruct (dec_head (- n)) as (c & t & D & N); [lia|]. pose proof (dec_digits (- n)) as G. rewrite D in *.
  unfold plain_number, number, int_part. rewrite digits_all by auto.
  apply Z.eqb_neq in N. rewrite N. cbn [andb negb frac_part exp_part app]. rewrite !app_nil_r, beq_refl. reflexivity.
Qed.
Lemma scan_entry_text : forall w, scan_entry w = print (network_json w).
Proof.
  intros. unfold scan_entry, network_json. cbn [print map fst snd sep_by]. unfold quoted.
  cbn [str app Ascii.N_of_ascii Ascii.N_of_digits Z.of_N]. cbn [app]; repeat (rewrite <- !app_assoc; cbn [app]). reflexivity.
Qed.
Lemma scan_loop_text : forall nets fuel k s, (length nets <= 127)%nat -> (k <= length nets)%nat -> (length nets - k <= fuel)%nat ->
  scan_loop fuel nets (Z.of_nat (length nets)) (Z.of_nat k) s =
  Some (s ++ (if Nat.eqb k 0 then sep_by [44] (map scan_entry (skipn k nets))
              else concat (map (fun w => [44] ++ scan_entry w) (skipn k nets)))).
Proof.
  intros nets. induction fuel as [|fuel IH]; intros k s L K F.
  - assert (k = length nets) by lia. subst k. cbn [scan_loop]. rewrite Z.ltb_irrefl, skipn_all. cbn [map sep_by concat].
    destruct (Nat.eqb (length nets) 0); now rewrite app_nil_r.
  - cbn [scan_loop]. destruct (Z.ltb_spec (Z.of_nat k) (Z.of_nat (length nets))) as [B|B].
    + rewrite Nat2Z.id. destruct (nth_error nets k) as [w|] eqn:E; [|apply nth_error_None in E; lia].
      rewrite Z.mod_small by lia. replace (Z.of_nat k + 1) with (Z.of_nat (S k)) by lia. rewrite IH by lia.
      assert (S' : skipn k nets = w :: skipn (S k) nets).
      { clear -E. revert nets E. induction k as [|k IH]; intros [|x nets] E; try discriminate.
        - now inv E.
        - cbn [nth_error skipn] in *. now apply IH. }
      rewrite S'. destruct k as [|k].
      * cbn [Z.of_nat Z.eqb Nat.eqb app]. rewrite <- app_assoc. do 2 f_equal. cbn [map].
        clear S' E. generalize (skipn 1 nets). intros l. revert w. clear. induction l as [|v l IH]; intros w; cbn [map concat]; [cbn; now rewrite app_nil_r|].
        rewrite sep_by_cons, <- IH. cbn [map]. rewrite <- ?app_assoc. cbn [map]. rewrite <- ?app_assoc. reflexivity.
      * replace (Z.of_nat (S k) =? 0) with false by lia. cbn [Nat.eqb map concat]. rewrite <- !app_assoc. reflexivity.
    + assert (k = length nets) by lia. subst k. rewrite skipn_all. cbn [map sep_by concat].
      destruct (Nat.eqb (length nets) 0); now rewrite app_nil_r.
Qed.
Lemma c53_scan : forall nets, (length nets <= 127)%nat ->
  Forall (fun w => quotable (n_ssid w) = true /\ quotable (n_bssid w) = true) nets ->
  exists body, sys_wifi_scan_json nets false = Some body /\ json_of body = Some (JArr (map network_json nets)).
Proof.
  intros nets L H. unfold sys_wifi_scan_json. rewrite Z.mod_small by lia. replace (Z.of_nat (length nets) <? 128) with true by lia.
  pose proof (scan_loop_text nets 128 0 [91] L ltac:(lia) ltac:(lia)) as K. cbn [Z.of_nat] in K. rewrite K. clear K. eexists. split; [reflexivity|]. cbn [Nat.eqb skipn].
  rewrite <- (json_print (JArr (map network_json nets))).
  - f_equal. cbn [print]. rewrite map_map. cbn [app]. do 2 f_equal. f_equal. apply map_ext. apply scan_entry_text.
  - cbn [printable]. apply forallb_forall. intros x I. apply in_map_iff in I. destruct I as (w & <- & I).
    rewrite Forall_forall in H. destruct (H w I) as [A B]. unfold network_json. cbn [printable forallb fst snd].
    rewrite A, B, !decs_plain. reflexivity.
Qed.

(** ** C54 *)
Lemma c54 : forall bytes, 0 <= bytes < 4294967296 ->
  sys_format_size bytes = dec bytes ++ str " byte" /\ bytes < 1024 \/
  exists u unit h, In (u, unit) [(1024, str " kB"); (1048576, str " MB"); (1073741824, str " GB")] /\
    u <= bytes < 1024 * u /\
    sys_format_size bytes = dec (h / 100) ++ str "." ++ pad0 2 (dec (h mod 100)) ++ unit /\
    2 * Z.abs (100 * bytes - h * u) <= u.
Proof.
  intros b H. unfold sys_format_size.
  assert (R : forall u, 0 < u -> 2 * Z.abs (100 * b - (200 * b + u) / (2 * u) * u) <= u).
  { intros u U. pose proof (Z.div_mod (200 * b + u) (2 * u) ltac:(lia)) as D. pose proof (Z.mod_pos_bound (200 * b + u) (2 * u) ltac:(lia)). nia. }
  destruct (b <? 1024) eqn:E1; [left; split; auto; lia|]. right.
  destruct (b <? 1048576) eqn:E2; [|destruct (b <? 1073741824) eqn:E3].
  - exists 1024, (str " kB"), ((200 * b + 1024) / (2 * 1024)). split; [cbn; auto|]. split; [lia|]. split; [|apply R; lia].
    unfold two_decimals. now rewrite <- !app_assoc.
  - exists 1048576, (str " MB"), ((200 * b + 1048576) / (2 * 1048576)). split; [cbn; auto|]. split; [lia|]. split; [|apply R; lia].
    unfold two_decimals. now rewrite <- !app_assoc.
  - exists 1073741824, (str " GB"), ((200 * b + 1073741824) / (2 * 1073741824)). split; [cbn; auto|]. split; [lia|]. split; [|apply R; lia].
    unfold two_decimals. now rewrite <- !app_assoc.
Qed.

(** ** C46 *)
Lemma dec_aux_length : forall f n k, 0 <= n -> n < 10 ^ Z.of_nat k -> (1 <= k)%nat -> (length (dec_aux f n []) <= k)%nat.
Proof.
  induction f as [|f IH]; intros n k Hn H K; [cbn; lia|]. cbn [dec_aux]. destruct (n <? 10) eqn:E; [cbn; lia|].
  rewrite dec_aux_acc, app_length. cbn [length].
  destruct k as [|[|k]]; [lia|cbn in H; lia|].
  assert (length (dec_aux f (n / 10) []) <= S k)%nat; [|lia]. apply IH; [apply Z.div_pos; lia| |lia].
  apply Z.div_lt_upper_bound; [lia|]. rewrite Nat2Z.inj_succ, Z.pow_succ_r in H by lia. lia.
Qed.
Lemma dec_length : forall n k, 0 <= n -> n < 10 ^ Z.of_nat k -> (1 <= k)%nat -> (length (dec n) <= k)%nat.
Proof. intros. apply dec_aux_length; auto. Qed.
Lemma pad0_length : forall k s, length (pad0 k s) = Nat.max k (length s).
Proof. intros. unfold pad0. rewrite app_length, repeat_length. lia. Qed.
Lemma pad_int_length : forall n, -60 < n < 60 -> (length (pad_int 2 n) <= 3)%nat.
Proof.
  intros n H. unfold pad_int. destruct (n <? 0) eqn:E; cbn [length]; rewrite pad0_length.
  - pose proof (dec_length (- n) 2 ltac:(lia) ltac:(cbn; lia) ltac:(lia)). lia.
  - pose proof (dec_length n 2 ltac:(lia) ltac:(cbn; lia) ltac:(lia)). lia.
Qed.
Lemma decs_length : forall n, -100000 < n < 100000 -> (length (decs n) <= 6)%nat.
Proof.
  intros n H. unfold decs. destruct (n <? 0) eqn:E; cbn [length].
  - pose proof (dec_length (- n) 5 ltac:(lia) ltac:(cbn; lia) ltac:(lia)). lia.
  - pose proof (dec_length n 5 ltac:(lia) ltac:(cbn; lia) ltac:(lia)). lia.
Qed.
Lemma s32_range : forall x, -2147483648 <= s32 x < 2147483648.
Proof. intros. unfold s32. pose proof (Z.mod_pos_bound x 4294967296 ltac:(lia)). destruct (x mod 4294967296 <? 2147483648) eqn:E; lia. Qed.
Lemma c46_fits : forall micros, sys_uptime micros <> None.
Proof.
  intros micros. unfold sys_uptime. pose proof (s32_range (micros / 1000000)) as R. set (sec := s32 _) in *.
  assert (A : -100000 < Z.quot (Z.quot (Z.quot sec 60) 60) 24 < 100000).
  { rewrite !Z.quot_quot by lia. change (60 * (60 * 24)) with 86400.
    pose proof (Z.quot_rem' sec 86400). pose proof (Z.rem_bound_abs sec 86400 ltac:(lia)). lia. }
  assert (B : forall a b, 0 < b <= 60 -> -60 < Z.rem a b < 60).
  { intros a b Hb. pose proof (Z.rem_bound_abs a b ltac:(lia)). lia. }
  pose proof (decs_length _ A). pose proof (pad_int_length _ (B (Z.quot (Z.quot sec 60) 60) 24 ltac:(lia))).
  pose proof (pad_int_length _ (B (Z.quot sec 60) 60 ltac:(lia))). pose proof (pad_int_length _ (B sec 60 ltac:(lia))).
  match goal with |- (if Nat.ltb (length ?t) 64 then _ else _) <> None => assert (L : (length t < 64)%nat) end.
  { rewrite !app_length. cbn [length str]. lia. }
  apply Nat.ltb_lt in L. rewrite L. discriminate.
Qed.
Lemma c46 : forall micros, 0 <= micros < 2147483648 * 1000000 ->
  exists d h m s, sys_uptime micros =
    Some (dec d ++ str " days " ++ pad0 2 (dec h) ++ str " h " ++ pad0 2 (dec m) ++ str " m " ++ pad0 2 (dec s) ++ str " sec") /\
    0 <= d /\ 0 <= h < 24 /\ 0 <= m < 60 /\ 0 <= s < 60 /\
    d * 86400 + h * 3600 + m * 60 + s = micros / 1000000.
Proof.
  intros micros H. set (q := micros / 1000000).
  assert (Q : 0 <= q < 2147483648) by (split; [apply Z.div_pos; lia|apply Z.div_lt_upper_bound; lia]).
  exists (q / 60 / 60 / 24), (q / 60 / 60 mod 24), (q / 60 mod 60), (q mod 60).
  pose proof (c46_fits micros) as F. unfold sys_uptime in *. fold q in F |- *.
  assert (S : s32 q = q) by (unfold s32; rewrite Z.mod_small by lia; replace (q <? 2147483648) with true by lia; reflexivity).
  rewrite S in *.
  assert (P1 : 0 <= q / 60) by (apply Z.div_pos; lia). assert (P2 : 0 <= q / 60 / 60) by (apply Z.div_pos; lia).
  assert (P3 : 0 <= q / 60 / 60 / 24) by (apply Z.div_pos; lia).
  rewrite !Z.quot_div_nonneg in * by lia. rewrite !Z.rem_mod_nonneg in * by lia.
  pose proof (Z.mod_pos_bound (q / 60 / 60) 24 ltac:(lia)). pose proof (Z.mod_pos_bound (q / 60) 60 ltac:(lia)). pose proof (Z.mod_pos_bound q 60 ltac:(lia)).
  unfold decs, pad_int in *.
  replace (q / 60 / 60 / 24 <? 0) with false in * by lia. replace (q / 60 / 60 mod 24 <? 0) with false in * by lia.
  replace (q / 60 mod 60 <? 0) with false in * by lia. replace (q mod 60 <? 0) with false in * by lia.
  split. { destruct (Nat.ltb _ 64); [reflexivity|congruence]. }
  repeat (split; [lia|]).
  pose proof (Z.div_mod (q / 60 / 60) 24 ltac:(lia)). pose proof (Z.div_mod (q / 60) 60 ltac:(lia)). pose proof (Z.div_mod q 60 ltac:(lia)). lia.
Qed.

(** ** The system page *)
Lemma jt_items : forall items rows,
  fold_left add_item items (jt_text rows) = jt_text (rows ++ map item_json items).
Proof.
  induction items as [|i items IH]; intros; cbn [fold_left map]; [now rewrite app_nil_r|].
  assert (E : add_item (jt_text rows) i = jt_text (rows ++ [item_json i])).
  { destruct i; [apply jt_str_text|apply jt_num_text]. }
  rewrite E, IH, <- app_assoc. reflexivity.
Qed.
Lemma info_page : forall c i restricted items, info_items c i restricted = Some items -> Forall item_ready items ->
  exists body, sys_get_info_json c i restricted = Some body /\ json_of body = Some (JArr (map item_json items)).
Proof.
  intros c i restricted items E R. unfold sys_get_info_json. rewrite E, jt_new_text, jt_items, jt_finalize_text. cbn [app].
  eexists. split; [reflexivity|]. apply json_print. cbn [printable]. apply forallb_forall. intros x I. apply in_map_iff in I.
  destruct I as (it & <- & I). rewrite Forall_forall in R. specialize (R it I). destruct it; destruct R as [A B];
    cbn [item_json printable forallb fst snd]; rewrite A, ?B, ?dec_plain by auto; reflexivity.
Qed.
