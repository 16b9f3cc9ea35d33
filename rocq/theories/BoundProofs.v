(** Proofs of C106. *)
From Coq Require Import ZArith List Bool Lia.
From Verif Require Import Base BaseFacts Teleinfo TeleinfoSpec Publish HistorySpec AccessProofs PublishProofs TeleinfoMain Config ConfigSpec ConfigProofs ConfigMain ConfigHist
  JsonBuild JsonBuildFacts Tic TicSpec PageProofs TemplateProofs RequestProofs Pages PagesSpec PagesProofs Sse SseSpec SseProofs Cpu Web Wifi Device WebSpec WebProofs
  DeviceProofs DeviceMain DeviceSafe RequestSafe BoundSpec.
Import ListNotations.
Open Scope Z_scope.

(** ** The groups of a text *)
Definition weight (g : group) : nat := (length (fst g) + length (snd g) + 2)%nat.
Definition weights (gs : list group) : nat := list_sum (map weight gs).
Lemma pieces_weight : forall l acc, (list_sum (map (fun x => S (length x)) (pieces acc l)) <= length acc + length l)%nat.
Proof.
  induction l as [|b r IH]; intros acc; cbn [pieces length]; [cbn; lia|]. destruct (b =? 0).
  - cbn [map list_sum fold_right]. change (fold_right Nat.add 0%nat ?x) with (list_sum x). rewrite rev_length. specialize (IH []). cbn [length] in IH. lia.
  - specialize (IH (b :: acc)). cbn [length] in IH. lia.
Qed.
Lemma pair_up_weight : forall n l, (length l <= n)%nat -> (weights (pair_up l) <= list_sum (map (fun x => S (length x)) l))%nat.
Proof.
  induction n as [|n IH]; intros l H.
  - destruct l; [cbn; lia|cbn in H; lia].
  - destruct l as [|a [|b r]]; try (cbn; lia). cbn [length] in H. specialize (IH r ltac:(lia)).
    change (weights (pair_up (a :: b :: r))) with (length a + length b + 2 + weights (pair_up r))%nat.
    change (list_sum (map (fun x => S (length x)) (a :: b :: r))) with (S (length a) + (S (length b) + list_sum (map (fun x : list Z => S (length x)) r)))%nat. lia.
Qed.
Lemma pairs_weight : forall l, (weights (pairs_of l) <= length l)%nat.
Proof.
  intros l. unfold pairs_of. etransitivity; [apply (pair_up_weight _ _ (le_n _))|]. apply (pieces_weight l []).
Qed.
Lemma size_bound : forall t, published_ti t -> exists gs, carries t gs /\ ti_pairs t = Some gs /\ (weights gs <= 347)%nat /\ Forall (fun g => bytes (snd g)) gs.
Proof.
  intros t (sgn & g1 & g2 & es & p & G1 & G2 & B & E & ->).
  destruct (ti_kept sgn g1 g2 es p G1 G2 B E) as [(text & R & Hfr & Hsz & Hs & Hby & Hn & Hl) H350].
  exists (pairs_of text). unfold carries, ti_pairs. rewrite Hsz. rewrite Hfr in *. rewrite app_length in H350.
  rewrite all_pairs_spec by (rewrite ?app_length; auto). split; [reflexivity|]. split; [reflexivity|]. pose proof (pairs_weight text). split; [lia|].
  eapply Forall_impl; [|apply pairs_of_Forall; exact Hby]. cbv beta. tauto.
Qed.

(** ** Numbers *)
Lemma decs_bound : forall n, -9223372036854775808 <= n < 9223372036854775808 -> (length (decs n) <= 20)%nat.
Proof.
  intros n H. unfold decs. destruct (Z.ltb_spec n 0).
  - pose proof (dec_length (- n) 19 ltac:(lia) ltac:(change (10 ^ Z.of_nat 19) with 10000000000000000000; lia) ltac:(lia)). cbn [length]. lia.
  - pose proof (dec_length n 19 ltac:(lia) ltac:(change (10 ^ Z.of_nat 19) with 10000000000000000000; lia) ltac:(lia)). lia.
Qed.
Lemma pad0_len : forall k s, length (pad0 k s) = Nat.max k (length s).
Proof. intros. unfold pad0. rewrite app_length, repeat_length. lia. Qed.
Lemma seconds_bound : forall tv, readable tv -> (length (get_seconds tv) <= 24)%nat.
Proof.
  intros tv [A B]. unfold get_seconds. rewrite !app_length, pad0_len. cbn [length]. pose proof (decs_bound _ A).
  assert (0 <= tv_usec tv / 1000 < 1000) by (split; [apply Z.div_pos; lia|apply Z.div_lt_upper_bound; lia]).
  pose proof (dec_length (tv_usec tv / 1000) 3 ltac:(lia) ltac:(change (10 ^ Z.of_nat 3) with 1000; lia) ltac:(lia)). lia.
Qed.
Lemma nlz_len : forall v, (length (skip_zeros_s v) <= length v)%nat.
Proof.
  induction v as [|c r IH]; [auto|]. cbn [skip_zeros_s]. destruct r as [|d r]; [auto|]. destruct (c =? 48); cbn [length] in *; lia.
Qed.
Lemma int_len : forall v b w, get_integer_s v = (b, w) -> (length w <= length v)%nat.
Proof. intros v b w H. unfold get_integer_s in H. destruct (all_digits v); injection H as _ <-; [apply nlz_len|lia]. Qed.
Lemma trim_len : forall v, (length (trim_number v) <= length v)%nat.
Proof. intros v. assert (H := get_integer_eq v). eapply int_len. exact H. Qed.

(** ** The texts *)
Lemma jb_str_len : forall k v s, length (jb_str k v false s) = (length s + length k + length v + 6)%nat.
Proof. intros. unfold jb_str. rewrite !app_length. cbn [length]. lia. Qed.
Lemma jb_raw_len : forall k v s, length (jb_raw k v false s) = (length s + length k + length v + 4)%nat.
Proof. intros. unfold jb_raw. rewrite !app_length. cbn [length]. lia. Qed.
Lemma jb_fin_len : forall s r, jb_finalize s = Some r -> (length r <= length s)%nat.
Proof.
  intros s r H. unfold jb_finalize in H. rewrite <- (rev_length s). destruct (rev s) as [|x [|c l]]; try discriminate.
  injection H as <-. rewrite rev_length. destruct (c =? 123); cbn [length]; lia.
Qed.
Lemma dict_fold_len : forall gs s, (length (fold_left dict_group gs s) <= length s + 3 * weights gs)%nat.
Proof.
  induction gs as [|g gs IH]; intros s; cbn [fold_left]; [lia|]. etransitivity; [apply IH|].
  change (weights (g :: gs)) with (weight g + weights gs)%nat. unfold weight, dict_group.
  destruct (get_integer_s (snd g)) as [b v] eqn:E. apply int_len in E. destruct b; rewrite ?jb_raw_len, ?jb_str_len; lia.
Qed.
Lemma dict_len : forall e t notif r, published_ti t -> dated e -> readable (t_ts t) ->
  match notif with Some n => (length n <= 4)%nat | None => True end ->
  tic_get_json_dict_notif e t notif = Some r -> (length r <= dict_room)%nat.
Proof.
  intros e t notif r P [I _] T N H. destruct (size_bound t P) as (gs & _ & G & W & _). unfold tic_get_json_dict_notif in H. rewrite G in H.
  destruct (is_empty t). { injection H as <-. unfold dict_room. cbn [length str]. vm_compute. lia. }
  apply jb_fin_len in H. etransitivity; [exact H|]. etransitivity; [apply dict_fold_len|].
  assert (X := seconds_bound _ T). assert (Y := I (tv_sec (t_ts t))).
  change (length (str "timestamp")) with 9%nat in *. unfold dict_room.
  destruct notif as [n|]; rewrite !jb_str_len; change (length jb_new) with 2%nat; change (length (str "timestamp")) with 9%nat;
    change (length (str "seconds")) with 7%nat; change (length (str "notif")) with 5%nat; lia.
Qed.
Lemma jt_str_len : forall k v s, length (jt_str k v s) = (length s + length k + length v + 18)%nat.
Proof. intros. unfold jt_str. rewrite !app_length. cbn [length]. lia. Qed.
Lemma jt_fin_len : forall s r, jt_finalize s = Some r -> (length r <= S (length s))%nat.
Proof.
  intros s r H. unfold jt_finalize in H. rewrite <- (rev_length s). destruct (rev s) as [|c l]; try discriminate.
  injection H as <-. rewrite rev_length. destruct (c =? 91); cbn [length]; lia.
Qed.
Lemma table_fold_len : forall (gs : list group) s, (length (fold_left (fun s g => jt_str (fst g) (snd g) s) gs s) <= length s + 9 * weights gs)%nat.
Proof.
  induction gs as [|g gs IH]; intros s; cbn [fold_left]; [lia|]. etransitivity; [apply IH|].
  change (weights (g :: gs)) with (weight g + weights gs)%nat. unfold weight. rewrite jt_str_len. lia.
Qed.
Lemma watt_u32 : forall t p w, watt t p = Some w -> 0 <= w < 4294967296.
Proof.
  intros t p w H. unfold watt in H.
  destruct (nth_error (t_consos t) _) as [ca|]; [|discriminate].
  destruct (watt_loop _ _ _ _ _ _) as [pr|]; [|discriminate].
  destruct (nth_error (t_consos t) pr) as [cp|]; [|discriminate].
  destruct (date_ms ca =? date_ms cp); [inv H; lia|].
  destruct (_ =? 0); [discriminate|]. inv H. unfold u32.
  assert (D : forall a b, 0 <= a < 4294967296 -> 0 <= b -> 0 <= a / b < 4294967296).
  { intros a b A B. assert (C : b = 0 \/ 0 < b) by lia. destruct C as [->|C]; [rewrite Zdiv_0_r; lia|].
    split; [apply Z.div_pos; lia|]. apply Z.div_lt_upper_bound; nia. }
  apply D; apply Z.mod_pos_bound; reflexivity.
Qed.
Lemma table_len : forall e t r, published_ti t -> dated e -> tic_get_json_array e t = Some r -> (length r <= table_room)%nat.
Proof.
  intros e t r P [I _] H. destruct (size_bound t P) as (gs & _ & G & W & _). unfold tic_get_json_array in H. rewrite G in H.
  destruct (is_empty t). { injection H as <-. vm_compute. lia. }
  destruct (watt t 60) as [w|] eqn:E; [|discriminate]. apply watt_u32 in E. apply jt_fin_len in H. etransitivity; [exact H|].
  assert (F := table_fold_len gs). set (s1 := jt_num _ _ _) in *. specialize (F s1).
  assert (L : (length s1 <= 89)%nat).
  { unfold s1, jt_num. rewrite !app_length, jt_str_len. cbn [length]. assert (Y := I (tv_sec (t_ts t))).
    pose proof (dec_length w 10 ltac:(lia) ltac:(change (10 ^ Z.of_nat 10) with 10000000000; lia) ltac:(lia)).
    change (length (str "timestamp")) with 9%nat; change (length (str "watt")) with 4%nat; change (length jt_new) with 1%nat. lia. }
  unfold table_room. lia.
Qed.

(** ** Emoncms and Jeedom *)
Lemma in_weight : forall (g : group) gs, In g gs -> (weight g <= weights gs)%nat.
Proof.
  intros g gs. induction gs as [|h gs IH]; intros []; change (weights (h :: gs)) with (weight h + weights gs)%nat; [subst; lia|].
  specialize (IH H). lia.
Qed.
Lemma starts_dec : forall v r, emon_optarif v = Some r -> (length r <= 1)%nat.
Proof.
  intros v r H. unfold emon_optarif in H. repeat (match type of H with context [starts ?a ?b] => destruct (starts a b) as [[|]|] end; try discriminate H);
    injection H as <-; vm_compute; lia.
Qed.
Lemma ptec_len : forall v, (length (emon_ptec v) <= 2)%nat.
Proof. intros v. unfold emon_ptec. repeat match goal with |- context [beq ?a ?b] => destruct (beq a b) end; vm_compute; lia. Qed.
Lemma byte_decs : forall c, 0 <= c < 256 -> (length (decs c) <= 3)%nat.
Proof. intros c H. unfold decs. destruct (Z.ltb_spec c 0); [lia|]. apply dec_length; [lia|change (10 ^ Z.of_nat 3) with 1000; lia|lia]. Qed.
Lemma emon_code_len : forall g, bytes (snd g) -> (length (fst g) + length (emon_code g) + 2 <= 2 * weight g)%nat.
Proof.
  intros [l v] B. unfold emon_code, weight. cbn [fst snd] in *. destruct (beq l (str "OPTARIF")) eqn:E1.
  - assert (X : forall test, (length (match find test optarif_codes with Some p => str (snd p) | None => str "0" end) <= 1)%nat).
    { intros test. destruct (find test optarif_codes) as [p|] eqn:F; [|vm_compute; lia]. apply find_some in F. destruct F as [F _].
      repeat (destruct F as [<-|F]; [vm_compute; lia|]). destruct F. }
    specialize (X (fun p => is_prefix (str (fst p)) v)). cbv beta in X. lia.
  - destruct (beq l (str "HHPHC")) eqn:E2.
    + apply beq_eq in E2. subst l. change (length (str "HHPHC")) with 5%nat.
      assert (length (decs (hd 0%Z v)) <= 3)%nat; [|lia]. apply byte_decs. destruct v as [|c r]; cbn [hd]; [lia|]. apply Forall_inv in B. exact B.
    + destruct (beq l (str "PTEC")) eqn:E3.
      * assert (X : forall test, (length (match find test ptec_codes with Some p => str (snd p) | None => str "0" end) <= 2)%nat).
        { intros test. destruct (find test ptec_codes) as [p|] eqn:F; [|vm_compute; lia]. apply find_some in F. destruct F as [F _].
          repeat (destruct F as [<-|F]; [vm_compute; lia|]). destruct F. }
        specialize (X (fun p => beq (str (fst p)) v)). cbv beta in X. lia.
      * pose proof (trim_len v). lia.
Qed.
Lemma commas_len : forall l, (length (with_commas l) <= list_sum (map (fun x : list Z => S (length x)) l))%nat.
Proof.
  induction l as [|x r IH]; [cbn; lia|]. destruct r as [|y r]; [cbn; lia|].
  change (with_commas (x :: y :: r)) with (x ++ str "," ++ with_commas (y :: r)). rewrite !app_length. change (length (str ",")) with 1%nat.
  set (k := map _ (y :: r)) in *. change (map (fun x : list Z => S (length x)) (x :: y :: r)) with (S (length x) :: k).
  change (list_sum (S (length x) :: k)) with (S (length x) + list_sum k)%nat. lia.
Qed.
Lemma payload_len : forall gs, Forall (fun g => bytes (snd g)) gs -> (length (emon_payload gs) <= 2 + 2 * weights gs)%nat.
Proof.
  intros gs B. unfold emon_payload. rewrite !app_length. change (length (str "{")) with 1%nat. change (length (str "}")) with 1%nat.
  match goal with |- context [with_commas ?l] => assert (X := commas_len l) end.
  match type of X with (_ <= ?k)%nat => assert (Y : (k <= 2 * weights gs)%nat); [|lia] end.
  clear X. induction gs as [|g gs IH]; [cbn; lia|]. apply Forall_cons_iff in B. destruct B as [B Bs]. specialize (IH Bs).
  cbn [map]. change (weights (g :: gs)) with (weight g + weights gs)%nat.
  match goal with |- (list_sum (?a :: ?r) <= _)%nat => change (list_sum (a :: r)) with (a + list_sum r)%nat end.
  rewrite !app_length. change (length (str ":")) with 1%nat. pose proof (emon_code_len g B). lia.
Qed.
Lemma emoncms_page_len : forall t r, published_ti t -> tic_emoncms_data t [] = Some r -> (length r <= emoncms_room)%nat.
Proof.
  intros t r P H. destruct (size_bound t P) as (gs & _ & G & W & B). rewrite (emoncms_data _ _ _ G) in H. injection H as <-.
  cbn [app]. pose proof (payload_len gs B). unfold emoncms_room. lia.
Qed.

Section Configured.
Variable c : cfg.
Hypothesis C : wf c.
Hypothesis T : terminated c.
Lemma text_len : forall f, is_text f = true -> (length (text f c) < fsize f)%nat.
Proof. intros f F. rewrite <- (get_len f c C). apply cstr_length_nul. apply T. exact F. Qed.
Lemma jeedom_fold_len : forall (gs : list group) u, (length (fold_left (jeedom_group c) gs u) <= length u + 3 * weights gs)%nat.
Proof.
  induction gs as [|[l v] gs IH]; intros u; cbn [fold_left]; [lia|]. etransitivity; [apply IH|].
  change (weights ((l, v) :: gs)) with (weight (l, v) + weights gs)%nat. unfold weight, jeedom_group. cbn [fst snd]. rewrite !app_length.
  change (length (str "&")) with 1%nat. change (length (str "=")) with 1%nat.
  assert (A := text_len JAdco eq_refl). cbn [fsize] in A. destruct (beq l (str "ADCO")) eqn:E; [|lia].
  apply beq_eq in E. subst l. change (length (str "ADCO")) with 4%nat. destruct (text JAdco c); lia.
Qed.
Lemma jeedom_fits : forall t r, published_ti t -> jeedom_notif c t = Some (Some r) -> request_fits JEEDOM r.
Proof.
  intros t r P H. destruct (size_bound t P) as (gs & _ & G & W & B). unfold jeedom_notif in H. rewrite G in H.
  assert (A1 := text_len JHost eq_refl). assert (A2 := text_len JUrl eq_refl). assert (A3 := text_len JKey eq_refl). cbn [fsize] in A1, A2, A3.
  destruct (text JHost c) as [|h0 h] eqn:E; [discriminate|]. injection H as <-. unfold request_fits. cbn [r_host r_url r_data].
  split; [lia|]. split; [|exact Logic.I]. etransitivity; [apply jeedom_fold_len|]. rewrite !app_length.
  unfold url_room. destruct (text JUrl c) as [|u0 u]; cbn [length] in *; lia.
Qed.
Lemma emoncms_fits : forall t r, published_ti t -> emoncms_notif c t = Some (Some r) -> request_fits EMONCMS r.
Proof.
  intros t r P H. destruct (size_bound t P) as (gs & _ & G & W & B). unfold emoncms_notif in H.
  assert (A1 := text_len EHost eq_refl). assert (A2 := text_len EUrl eq_refl). assert (A3 := text_len EKey eq_refl). cbn [fsize] in A1, A2, A3.
  destruct (text EHost c) as [|h0 h] eqn:E; [discriminate|]. rewrite (emoncms_data _ _ _ G) in H.
  match type of H with Some (Some ?x) = _ => assert (Yr : r = x) by congruence end. rewrite Yr. clear H Yr. unfold request_fits. cbn [r_host r_url r_data].
  split; [lia|]. split; [|exact Logic.I]. unfold url_room.
  assert (N : (length (if (0 <? num ENode c)%Z then str "node=" ++ dec (num ENode c) ++ str "&" else []) <= 9)%nat).
  { destruct (0 <? num ENode c)%Z eqn:L; [|cbn; lia]. rewrite !app_length. change (length (str "node=")) with 5%nat. change (length (str "&")) with 1%nat.
    assert (0 <= num ENode c < 256).
    { assert (X := get_len ENode c C). cbn [fsize] in X. assert (Y : bytes (get ENode c)) by (apply get_bytes; exact C).
      unfold num. destruct (get ENode c) as [|x [|y l]]; try discriminate. apply Forall_inv in Y. unfold is_byte in Y. cbn. lia. }
    pose proof (dec_length (num ENode c) 3 ltac:(lia) ltac:(change (10 ^ Z.of_nat 3) with 1000; lia) ltac:(lia)). lia. }
  pose proof (payload_len gs B). repeat rewrite app_length. revert N. match goal with |- (?k <= 9)%nat -> _ => generalize k end. intros k N.
  change (length (str "?")) with 1%nat. change (length (str "apikey=")) with 7%nat. change (length (str "&json=")) with 6%nat.
  destruct (text EUrl c) as [|u0 u]; [change (length (str "/")) with 1%nat|]; lia.
Qed.

(** ** URLs written by the user *)
Lemma value_len : forall e t label notif v, published_ti t -> dated e -> readable (t_ts t) -> (length notif <= 4)%nat ->
  http_add_value_ex e t label notif = Some v -> (length v <= 345)%nat.
Proof.
  intros e t label notif v P [I K] R N H. unfold http_add_value_ex in H.
  destruct (beq_nocase label (str "type")); [injection H as <-; lia|].
  destruct (beq_nocase label (str "notif")); [injection H as <-; lia|].
  destruct (beq_nocase label (str "date")); [injection H as <-; specialize (I (tv_sec (t_ts t))); lia|].
  destruct (beq_nocase label (str "timestamp")); [injection H as <-; pose proof (decs_bound _ (proj1 R)); lia|].
  destruct (beq_nocase label (str "seconds")); [injection H as <-; pose proof (seconds_bound _ R); lia|].
  destruct (beq_nocase label (str "chipid")).
  { assert (Y : v = str "0x" ++ hex6 (chip_id e)) by congruence. rewrite Y, app_length. pose proof (hex6_length (chip_id e)).
    change (length (str "0x")) with 2%nat. lia. }
  destruct (published_facts t P) as (gs & w & Cg & _ & _ & _ & V). rewrite (proj2 (V label)) in H.
  destruct (size_bound t P) as (gs' & Cg' & _ & W & _). assert (gs' = gs) by (eapply carries_unique; eauto). subst gs'.
  destruct (lookup label gs) as [x|] eqn:L; cbn [option_map] in H; injection H as <-; [|cbn; lia].
  apply lookup_in in L. apply in_weight in L. unfold weight in L. cbn [fst snd] in L. pose proof (trim_len x). lia.
Qed.
Lemma tilde_ptr : forall n m p l q, tilde_label n m p = Some (l, q) -> (p <= q)%nat.
Proof.
  induction n as [|n IH]; intros m p l q H; cbn [tilde_label] in H; destruct (rd m p) as [x|]; try discriminate;
    destruct ((x =? 0) || (x =? 126)); try (injection H as _ <-; lia).
  destruct (tilde_label n m (S p)) as [[l1 q1]|] eqn:E; [|discriminate]. injection H as _ <-. apply IH in E. lia.
Qed.
Lemma dollar_ptr : forall n m p l q, dollar_label n m p = Some (l, q) -> (p <= q)%nat.
Proof.
  induction n as [|n IH]; intros m p l q H; cbn [dollar_label] in H; destruct (rd m p) as [x|]; try discriminate;
    destruct (isalpha x || (x =? 95)); try (injection H as _ <-; lia).
  destruct (dollar_label n m (S p)) as [[l1 q1]|] eqn:E; [|discriminate]. injection H as _ <-. apply IH in E. lia.
Qed.
Lemma expand_in : forall f e t notif m p uri r, expand f e t notif m p uri = Some r -> (p < length m)%nat.
Proof.
  intros [|f] e t notif m p uri r H; [discriminate|]. cbn [expand] in H. destruct (rd m p) as [x|] eqn:E; [|discriminate].
  unfold rd in E. apply nth_error_Some. congruence.
Qed.
Lemma expand_len : forall e t notif m, published_ti t -> dated e -> readable (t_ts t) -> (length notif <= 4)%nat ->
  forall f p uri r, expand f e t notif m p uri = Some r -> (length r <= length uri + 345 * (length m - 1 - p))%nat.
Proof.
  intros e t notif m P D R N. induction f as [|f IH]; intros p uri r H; [discriminate|].
  assert (B := expand_in _ _ _ _ _ _ _ _ H). cbn [expand] in H. destruct (rd m p) as [x|]; [|discriminate].
  destruct (x =? 0); [injection H as <-; lia|].
  assert (G : forall q uri' v, expand f e t notif m q uri' = Some r -> (S p <= q)%nat -> uri' = uri ++ v -> (length v <= 345)%nat ->
    (length r <= length uri + 345 * (length m - 1 - p))%nat).
  { intros q uri' v E Q U V. assert (B' := expand_in _ _ _ _ _ _ _ _ E). apply IH in E. rewrite U, app_length in E. nia. }
  destruct (x =? 126).
  - destruct (tilde_label 15 m (S p)) as [[l q]|] eqn:L; [|discriminate]. apply tilde_ptr in L.
    destruct (match l with [] => Some [126] | _ => http_add_value_ex e t l notif end) as [v|] eqn:V; [|discriminate].
    eapply G; [exact H|lia|reflexivity|]. destruct l; [injection V as <-; cbn; lia|]. eapply value_len; eauto.
  - destruct (x =? 36).
    + destruct (rd m (S p)) as [y|]; [|discriminate]. destruct (y =? 36); [eapply G; [exact H|lia|reflexivity|cbn; lia]|].
      destruct (dollar_label 15 m (S p)) as [[l q]|] eqn:L; [|discriminate]. apply dollar_ptr in L.
      destruct (http_add_value_ex e t l notif) as [v|] eqn:V; [|discriminate].
      eapply G; [exact H|lia|reflexivity|]. eapply value_len; eauto.
    + eapply G; [exact H|lia|reflexivity|cbn; lia].
Qed.
Definition own (w : reason) : Prop := w <> JEEDOM /\ w <> EMONCMS.
Lemma reason_len : forall w, own w -> (length (reason_text w) <= 4)%nat.
Proof. intros [] [A B]; try congruence; vm_compute; lia. Qed.
Lemma http_fits : forall e t w r, published_ti t -> dated e -> readable (t_ts t) -> own w -> http_notif e c t w = Some r -> request_fits w r.
Proof.
  intros e t w r P D R O H. assert (N := reason_len w O). unfold http_notif, expand_url in H.
  destruct (expand _ e t (reason_text w) (get HUrl c) 0 []) as [uri|] eqn:E; [|discriminate].
  apply (expand_len e t _ _ P D R N) in E. rewrite (get_len HUrl c C) in E. cbn [fsize length] in E.
  assert (A := text_len HHost eq_refl). cbn [fsize] in A.
  assert (U : (length uri <= url_room w)%nat). { destruct O. unfold url_room. destruct w; try congruence; lia. }
  destruct (bit 7 HFlags c).
  - destruct (tic_get_json_dict_notif e t (Some (reason_text w))) as [data|] eqn:J; [|discriminate]. injection H as <-.
    unfold request_fits. cbn [r_host r_url r_data]. split; [lia|]. split; [exact U|]. apply (dict_len e t (Some (reason_text w)) data P D R N J).
  - injection H as <-. unfold request_fits. cbn [r_host r_url r_data]. split; [lia|]. split; [exact U|exact Logic.I].
Qed.

(** ** What one frame causes *)
Definition tic_fits (x : effect) : Prop :=
  match x with Request w r => request_fits w r | SseData s => (length s <= dict_room)%nat end.
Definition is_request (x : effect) : bool := match x with Request _ _ => true | SseData _ => false end.
Section Frame.
Variables (e : env) (t : teleinfo).
Hypothesis P : published_ti t.
Hypothesis D : dated e.
Hypothesis R : readable (t_ts t).
Lemma send_fits : forall w o, match w with Some w => own w | None => True end -> send e c t w = Some o ->
  Forall tic_fits o /\ (length o <= 1)%nat /\ Forall (fun x => is_request x = true) o.
Proof.
  intros [w|] o O H; cbn [send] in H.
  - destruct (http_notif e c t w) as [r|] eqn:E; [|discriminate]. injection H as <-. split; [|split; [cbn; lia|repeat constructor]].
    constructor; [|constructor]. exact (http_fits e t w r P D R O E).
  - injection H as <-. split; [constructor|split; [cbn; lia|constructor]].
Qed.
Lemma ptec_own : forall s s' w, notif_ptec t s = Some (s', w) -> match w with Some w => own w | None => True end.
Proof.
  intros s s' w H. unfold notif_ptec in H. destruct (ti_value t _ _) as [[v|]|]; try discriminate; [|injection H as _ <-; exact Logic.I].
  destruct (beq _ _); [injection H as _ <-; exact Logic.I|]. destruct (n_init s); injection H as _ <-; [exact Logic.I|split; discriminate].
Qed.
Lemma adps_own : forall s s' w, notif_adps t s = Some (s', w) -> match w with Some w => own w | None => True end.
Proof.
  intros s s' w H. unfold notif_adps in H. destruct (ti_value t _ _) as [[v|]|]; try discriminate;
    destruct (n_adps s); injection H as _ <-; try exact Logic.I; split; discriminate.
Qed.
Lemma seuils_own : forall s s' w, notif_seuils c t s = Some (s', w) -> match w with Some w => own w | None => True end.
Proof.
  intros s s' w H. unfold notif_seuils in H. destruct (ti_value t _ _) as [[v|]|]; try discriminate; [|injection H as _ <-; exact Logic.I].
  destruct (_ =? 0); [injection H as _ <-; exact Logic.I|]. destruct (_ && _); [injection H as _ <-; split; discriminate|].
  destruct (_ && _); injection H as _ <-; [split; discriminate|exact Logic.I].
Qed.
Lemma http_part : forall now s tm o s' tm', notifs_http e c now t s tm = Some (o, s', tm') ->
  Forall tic_fits o /\ (length o <= 4)%nat /\ Forall (fun x => is_request x = true) o.
Proof.
  intros now s tm o s' tm' H. unfold notifs_http in H. destruct (text HHost c).
  { injection H as <- _ _. split; [constructor|]. split; [cbn; lia|constructor]. }
  destruct (if bit 1 HFlags c then notif_ptec t s else Some (s, None)) as [[s1 w1]|] eqn:E1; [|discriminate].
  destruct (send e c t w1) as [o1|] eqn:S1; [|discriminate].
  destruct (if bit 2 HFlags c then notif_seuils c t s1 else Some (s1, None)) as [[s2 w2]|] eqn:E2; [|discriminate].
  destruct (send e c t w2) as [o2|] eqn:S2; [|discriminate].
  destruct (if bit 0 HFlags c then notif_adps t s2 else Some (s2, None)) as [[s3 w3]|] eqn:E3; [|discriminate].
  destruct (send e c t w3) as [o3|] eqn:S3; [|discriminate].
  destruct (tm_expired now tm) as [f tm1]. destruct (send e c t (if f then Some MAJ else None)) as [o4|] eqn:S4; [|discriminate].
  injection H as <- _ _.
  apply send_fits in S1; [|destruct (bit 1 HFlags c); [eapply ptec_own; eauto|injection E1 as _ <-; exact Logic.I]].
  apply send_fits in S2; [|destruct (bit 2 HFlags c); [eapply seuils_own; eauto|injection E2 as _ <-; exact Logic.I]].
  apply send_fits in S3; [|destruct (bit 0 HFlags c); [eapply adps_own; eauto|injection E3 as _ <-; exact Logic.I]].
  apply send_fits in S4; [|destruct f; [split; discriminate|exact Logic.I]].
  destruct S1 as (A1 & B1 & C1), S2 as (A2 & B2 & C2), S3 as (A3 & B3 & C3), S4 as (A4 & B4 & C4).
  rewrite !app_length. repeat rewrite Forall_app. repeat split; auto. lia.
Qed.
Lemma notifs_fit : forall now k s ts o s' ts', tic_notifs e c now k t s ts = Some (o, s', ts') ->
  Forall tic_fits o /\ exists rs ds, o = rs ++ ds /\ (length rs <= 6)%nat /\ Forall (fun x => is_request x = true) rs /\
    (length ds <= 1)%nat /\ Forall (fun x => is_request x = false) ds.
Proof.
  intros now k s ts o s' ts' H. unfold tic_notifs in H.
  destruct (notifs_http e c now t s (t_http ts)) as [[[o1 s1] th]|] eqn:E1; [|discriminate]. apply http_part in E1. destruct E1 as (A1 & B1 & C1).
  destruct (tm_expired now (t_jeedom ts)) as [fj tj].
  destruct (if fj then jeedom_notif c t else Some None) as [rj|] eqn:E2; [|discriminate].
  destruct (tm_expired now (t_emoncms ts)) as [fe te].
  destruct (if fe then emoncms_notif c t else Some None) as [re|] eqn:E3; [|discriminate].
  destruct (tm_expired now (t_sse ts)) as [fs tsse].
  destruct (if fs && negb (Nat.eqb k 0) then d <- tic_get_json_dict e t ;; Some [SseData d] else Some []) as [ds|] eqn:E4; [|discriminate].
  injection H as <- _ _.
  assert (J : Forall tic_fits (as_effect JEEDOM rj)).
  { destruct rj as [r|]; [|constructor]. destruct fj; [|discriminate]. constructor; [exact (jeedom_fits t r P E2)|constructor]. }
  assert (M : Forall tic_fits (as_effect EMONCMS re)).
  { destruct re as [r|]; [|constructor]. destruct fe; [|discriminate]. constructor; [exact (emoncms_fits t r P E3)|constructor]. }
  assert (S : Forall tic_fits ds /\ (length ds <= 1)%nat /\ Forall (fun x => is_request x = false) ds).
  { destruct (fs && negb (Nat.eqb k 0)).
    - destruct (tic_get_json_dict e t) as [d|] eqn:X; [|discriminate]. injection E4 as <-. split; [|split; [cbn; lia|repeat constructor]].
      constructor; [|constructor]. exact (dict_len e t None d P D R Logic.I X).
    - injection E4 as <-. split; [constructor|]. split; [cbn; lia|constructor]. }
  destruct S as (S1 & S2 & S3). split. { repeat rewrite Forall_app. repeat split; assumption. }
  exists (o1 ++ as_effect JEEDOM rj ++ as_effect EMONCMS re), ds. split; [rewrite <- !app_assoc; reflexivity|].
  rewrite !app_length. split; [destruct rj, re; cbn [as_effect length]; lia|]. split; [|auto].
  repeat rewrite Forall_app. repeat split; auto; [destruct rj|destruct re]; repeat constructor.
Qed.
End Frame.
End Configured.
