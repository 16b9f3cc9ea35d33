(** The JSON pages show what they should if and only if the texts need no escape. *)
From Coq Require Import ZArith List Bool Lia.
From Verif Require Import Base BaseFacts Teleinfo TeleinfoSpec Publish HistorySpec PublishProofs Json JsonFacts JsonBuild JsonBuildFacts JsonExact Config ConfigSpec ConfigHist
  ConfigMain Tic TicSpec PageProofs Pages PagesSpec PagesProofs.
Import ListNotations.
Open Scope Z_scope.

Lemma same_json : forall j k, json_of (print j) = Some k -> j = k -> printable j = true.
Proof. intros j k H <-. apply json_print_exact. exact H. Qed.

Lemma ready_back : forall gs, forallb (fun m => quotable (fst m) && printable (snd m)) (map (fun g => (fst g, json_value (snd g))) gs) = true ->
  Forall json_ready gs.
Proof.
  induction gs as [|g gs IH]; cbn [map forallb fst snd]; intro H; [constructor|]. apply andb_true_iff in H. destruct H as (H & G).
  apply andb_true_iff in H. destruct H as (A & B). constructor; [|auto]. split; [exact A|]. unfold json_value in B.
  destruct (all_digit (snd g)) eqn:D.
  - cbn [printable] in B. destruct (snd g) as [|c t]; [discriminate B|]. split; [|discriminate].
    apply ascii_quotable. eapply Forall_impl; [|apply digits_printable; exact D]. cbv beta. lia.
  - cbn [printable] in B. split; [exact B|]. intro E. rewrite E in D. discriminate.
Qed.
Lemma c11_exact : forall e t notif, published_ti t ->
  exists gs body, carries t gs /\ tic_get_json_dict_notif e t notif = Some body /\
    (t_size t = 0%nat -> json_of body = Some (JObj [])) /\
    (t_size t <> 0%nat ->
     (json_of body = Some (JObj (
       (str "timestamp", JStr (iso e (tv_sec (t_ts t)))) :: (str "seconds", JStr (seconds_text (t_ts t))) ::
       match notif with Some n => [(str "notif", JStr n)] | None => [] end ++
       map (fun g => (fst g, json_value (snd g))) gs)) <->
      quotable (iso e (tv_sec (t_ts t))) = true /\ match notif with Some n => quotable n = true | None => True end /\ Forall json_ready gs)).
Proof.
  intros e t notif H. destruct (published_facts t H) as (gs & w & C & P & _). exists gs.
  destruct (is_empty t) eqn:E.
  - exists (str "{}"). split; auto. split. { unfold tic_get_json_dict_notif. now rewrite E. } split; [reflexivity|].
    intros N. apply Nat.eqb_eq in E. congruence.
  - eexists. split; auto. split; [apply dict_text; eauto|]. split.
    { intros Z. unfold is_empty in E. rewrite Z in E. discriminate. }
    intros _. fold (dict_members e t notif gs). rewrite json_print_exact. cbn [printable]. unfold dict_members. cbn [forallb fst snd printable].
    rewrite seconds_quotable, forallb_app. split.
    + intro X. apply andb_true_iff in X. destruct X as (X1 & X2). apply andb_true_iff in X1, X2. destruct X1 as (_ & X1), X2 as (_ & X2).
      apply andb_true_iff in X2. destruct X2 as (X2 & X3). split; [exact X1|]. split; [|apply ready_back; exact X3].
      destruct notif as [n|]; [|exact I]. cbn [forallb fst snd printable] in X2. rewrite !andb_true_r in X2.
      apply andb_true_iff in X2. apply X2.
    + intros (I1 & Q & R). rewrite I1, ready_printable by auto.
      destruct notif as [n|]; [cbn [forallb fst snd printable]; rewrite Q|]; reflexivity.
Qed.

Lemma rows_back : forall gs : list group, forallb printable (map (fun g => row (fst g) (JStr (snd g))) gs) = true ->
  Forall (fun g => quotable (fst g) = true /\ quotable (snd g) = true) gs.
Proof.
  induction gs as [|g gs IH]; cbn [map forallb printable row fst snd]; intro H; [constructor|]. apply andb_true_iff in H. destruct H as (H & G).
  apply andb_true_iff in H. destruct H as (A & H). apply andb_true_iff in H. destruct H as (B & _). apply andb_true_iff in A, B.
  constructor; [|auto]. tauto.
Qed.
Lemma c12_exact : forall e t, published_ti t ->
  exists gs w body, carries t gs /\ watt t 60 = Some w /\ tic_get_json_array e t = Some body /\
    (t_size t = 0%nat -> json_of body = Some (JArr [])) /\
    (t_size t <> 0%nat ->
     (json_of body = Some (JArr (
       entry (str "timestamp") (JStr (iso e (tv_sec (t_ts t)))) :: entry (str "watt") (JNum (dec w)) ::
       map (fun g => entry (fst g) (JStr (snd g))) gs)) <->
      quotable (iso e (tv_sec (t_ts t))) = true /\ Forall (fun g => quotable (fst g) = true /\ quotable (snd g) = true) gs)).
Proof.
  intros e t H. destruct (published_facts t H) as (gs & w & C & P & W & W0 & _). exists gs, w.
  unfold tic_get_json_array. destruct (is_empty t) eqn:E.
  - exists (str "[]"). do 3 (split; auto). split; [reflexivity|]. intros N. apply Nat.eqb_eq in E. congruence.
  - rewrite W, P. cbv zeta. rewrite jt_new_text, jt_str_text. cbn [app]. rewrite jt_num_text. cbn [app].
    rewrite array_groups_text, jt_finalize_text. eexists. do 3 (split; [reflexivity || assumption|]). split.
    { intros Z. unfold is_empty in E. rewrite Z in E. discriminate. }
    intros _. change entry with row. rewrite (json_print_exact (JArr _)). cbn [app printable forallb fst snd row]. rewrite dec_plain by auto.
    split.
    + intro X. apply andb_true_iff in X. destruct X as (X1 & X2). apply andb_true_iff in X2. destruct X2 as (_ & X2).
      split; [|apply rows_back; exact X2]. apply andb_true_iff in X1. destruct X1 as (_ & X1). apply andb_true_iff in X1.
      destruct X1 as (X1 & _). apply andb_true_iff in X1. apply X1.
    + intros (I1 & R). rewrite I1. apply rows_printable; auto.
Qed.

Lemma c13_exact : forall s restricted, reachable s ->
  (json_of (config_get_json (c_cfg s) restricted) =
   Some (JObj ((if restricted then [] else private_members (view (c_cfg s))) ++ public_members (view (c_cfg s)))) <->
   forall f, is_text f = true -> restricted && secret f = false -> quotable (text f (c_cfg s)) = true).
Proof.
  intros s r R. split; [|apply c13; exact (proj1 (reachable_inv s R))]. rewrite config_json_text. intro H.
  apply json_print_exact in H. cbn [printable] in H. rewrite forallb_app in H. apply andb_true_iff in H. destruct H as (A & B).
  apply quotable_names in B. rewrite Forall_forall in B. intros f T P.
  assert (K : forall n, In (n, JStr (text f (c_cfg s))) (public_members (view (c_cfg s))) -> quotable (text f (c_cfg s)) = true).
  { intros n I. apply B in I. apply I. }
  destruct r.
  - cbn [andb] in P. destruct f; try discriminate T; try discriminate P;
    match goal with |- quotable (text ?f _) = true => eapply K; unfold public_members, view; cbn [In];
      repeat first [left; reflexivity | right] end.
  - apply quotable_names in A. rewrite Forall_forall in A.
    assert (K' : forall n, In (n, JStr (text f (c_cfg s))) (private_members (view (c_cfg s))) -> quotable (text f (c_cfg s)) = true).
    { intros n I. apply A in I. apply I. }
    destruct f; try discriminate T;
    first [eapply K; unfold public_members, view; cbn [In s_emon_host s_emon_key s_emon_url s_jdom_host s_jdom_key s_jdom_url s_jdom_adco s_http_host s_http_url]; solve [repeat first [left; reflexivity | right]]
          |eapply K'; unfold private_members, view; cbn [In s_ssid s_psk s_host s_ap_psk s_ota_auth s_username s_password]; solve [repeat first [left; reflexivity | right]]].
Qed.

Lemma c53_files_exact : forall files total used, 0 <= total -> 0 <= used -> Forall (fun f => 0 <= snd f) files ->
  exists body, fs_get_json files total used false = Some body /\
    (json_of body = Some (JObj
      [ (str "files", JArr (map (fun f => JObj [(str "na", JStr (fst f)); (str "va", JNum (dec (snd f)))]) files));
        (str "info", JObj [(str "Total", JNum (dec total)); (str "Used", JNum (dec used))]) ]) <->
     Forall (fun f => quotable (fst f) = true) files).
Proof.
  intros files total used Ht Hu H. unfold fs_get_json. rewrite jt_new_text, jt_files, finalize_app. cbn [app].
  eexists. split; [reflexivity|].
  match goal with |- json_of ?b = Some ?j <-> _ => assert (E : b = print j) end.
  { unfold jb_num, jb_raw, jb_new. cbn [print map fst snd sep_by]. unfold quoted, file_row, row.
    cbn [str app Ascii.N_of_ascii Ascii.N_of_digits Z.of_N]. cbn [app]; repeat (rewrite <- !app_assoc; cbn [app]). reflexivity. }
  rewrite E, json_print_exact. clear E. cbn [printable forallb fst snd]. rewrite !dec_plain by auto. rewrite !andb_true_r.
  change (quotable (str "files")) with true. change (quotable (str "info")) with true. change (quotable (str "Total")) with true.
  change (quotable (str "Used")) with true. cbn [andb]. rewrite ?andb_true_r. rewrite forallb_forall, Forall_forall. rewrite Forall_forall in H. split.
  - intros X f I. specialize (X (JObj [(str "na", JStr (fst f)); (str "va", JNum (dec (snd f)))])).
    assert (J : printable (JObj [(str "na", JStr (fst f)); (str "va", JNum (dec (snd f)))]) = true).
    { apply X. apply in_map_iff. exists f. auto. }
    cbn [printable forallb fst snd] in J. apply andb_true_iff in J. destruct J as (J & _). apply andb_true_iff in J. apply J.
  - intros X x I. apply in_map_iff in I. destruct I as (f & <- & I). cbn [printable forallb fst snd]. rewrite (X f I), dec_plain by auto.
    reflexivity.
Qed.
Lemma c53_scan_exact : forall nets, (length nets <= 127)%nat ->
  exists body, sys_wifi_scan_json nets false = Some body /\
    (json_of body = Some (JArr (map network_json nets)) <->
     Forall (fun w => quotable (n_ssid w) = true /\ quotable (n_bssid w) = true) nets).
Proof.
  intros nets L. unfold sys_wifi_scan_json. rewrite Z.mod_small by lia. replace (Z.of_nat (length nets) <? 128) with true by lia.
  pose proof (scan_loop_text nets 128 0 [91] L ltac:(lia) ltac:(lia)) as K. cbn [Z.of_nat] in K. rewrite K. clear K. eexists. split; [reflexivity|].
  cbn [Nat.eqb skipn].
  match goal with |- json_of ?b = Some ?j <-> _ => assert (E : b = print j) end.
  { cbn [print]. rewrite map_map. cbn [app]. do 2 f_equal. f_equal. apply map_ext. apply scan_entry_text. }
  rewrite E, json_print_exact. clear E. cbn [printable]. rewrite forallb_forall, Forall_forall. split.
  - intros X w I. assert (J : printable (network_json w) = true) by (apply X, in_map; auto).
    unfold network_json in J. cbn [printable forallb fst snd] in J. rewrite !decs_plain in J.
    apply andb_true_iff in J. destruct J as (J1 & J). apply andb_true_iff in J. destruct J as (_ & J). apply andb_true_iff in J. destruct J as (J2 & _).
    apply andb_true_iff in J1, J2. tauto.
  - intros X x I. apply in_map_iff in I. destruct I as (w & <- & I). destruct (X w I) as [A B]. unfold network_json. cbn [printable forallb fst snd].
    rewrite A, B, !decs_plain. reflexivity.
Qed.
