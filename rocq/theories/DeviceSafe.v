(** The module never fails, except for the cases listed. *)
From Coq Require Import ZArith List Bool Lia.
From Verif Require Import Base BaseFacts Teleinfo TeleinfoSpec Publish HistorySpec PublishProofs Config ConfigSpec ConfigProofs ConfigMain ConfigHist
  JsonBuild JsonBuildFacts Tic TicSpec PageProofs TemplateProofs RequestProofs Pages PagesSpec PagesProofs Sse SseSpec SseProofs Cpu Web Wifi Device WebSpec WebProofs
  DeviceProofs DeviceMain.
Import ListNotations.
Open Scope Z_scope.

(** ** Pages are always produced *)
Lemma files_some : forall files total used r, exists b, fs_get_json files total used r = Some b.
Proof.
  intros files total used [|]; unfold fs_get_json; [eauto|]. rewrite jt_new_text, jt_files, finalize_app. eauto.
Qed.
Lemma info_some : forall c i r, i_total i <> 0 -> exists b, sys_get_info_json c i r = Some b.
Proof.
  intros c i r H. unfold sys_get_info_json.
  assert (X : exists items, info_items c i r = Some items).
  { unfold info_items. pose proof (c46_fits (i_micros i)) as F. destruct (sys_uptime (i_micros i)); [|congruence].
    destruct (Z.eqb_spec (i_total i) 0); [contradiction|]. eauto. }
  destruct X as [items ->]. rewrite jt_new_text, jt_items, jt_finalize_text. eauto.
Qed.
Lemma scan_loop_some : forall nets n fuel k s, n <= 127 -> n <= Z.of_nat (length nets) -> 0 <= k <= 127 -> n - k <= Z.of_nat fuel ->
  exists b, scan_loop fuel nets n k s = Some b.
Proof.
  intros nets n. induction fuel as [|f IH]; intros k s A B C D; cbn [scan_loop]; destruct (Z.ltb_spec k n); eauto; [lia|].
  destruct (nth_error nets (Z.to_nat k)) eqn:E; [|apply nth_error_None in E; lia].
  destruct (Z.eq_dec k 127) as [->|N]; [lia|]. rewrite Z.mod_small by lia. apply IH; lia.
Qed.
Lemma scan_some : forall nets r, exists b, sys_wifi_scan_json nets r = Some b.
Proof.
  intros nets [|]; unfold sys_wifi_scan_json; [eauto|].
  assert (M := Z.mod_pos_bound (Z.of_nat (length nets)) 256 eq_refl).
  assert (M2 : Z.of_nat (length nets) mod 256 <= Z.of_nat (length nets)) by (apply Z.mod_le; lia).
  set (m := Z.of_nat (length nets) mod 256) in *. clearbody m.
  destruct (scan_loop_some nets (if m <? 128 then m else m - 256) 128 0 [91]) as [b ->]; [| | | |eauto].
  all: destruct (Z.ltb_spec m 128); lia.
Qed.

(** ** Invariant *)
Definition pub_ok (sgn : bool) (p : pub) : Prop :=
  exists g1 g2 es, length g1 = 350%nat /\ length g2 = 350%nat /\ Forall is_byte (map snd (fed false es)) /\
    pub_run sgn es (pub_init g1 g2) = Some p.
Record dev_ok (sgn : bool) (d : device) : Prop := {
  do_cs : reachable (d_cs d); do_pub : pub_ok sgn (d_pub d); do_sse : sse_ok (d_sse d);
  do_len : length (pf_vals (d_perf d)) = 10%nat; do_idx : (pf_index (d_perf d) < 10)%nat }.
Lemma do_ti : forall sgn d, dev_ok sgn d -> published_ti (ti_of d).
Proof. intros sgn d [_ (g1 & g2 & es & A & B & C & D) _ _ _]. exists sgn, g1, g2, es, (d_pub d). auto. Qed.

Lemma fed_byte : forall es off tv c, is_byte c -> Forall is_byte (map snd (fed off es)) ->
  Forall is_byte (map snd (fed off (es ++ [Byte tv c]))).
Proof.
  induction es as [|[n x|b] es IH]; intros off tv c H F; cbn [app fed].
  - destruct off; cbn; auto.
  - cbn [fed] in F. destruct off; cbn [map] in *; [auto|]. apply Forall_cons_iff in F. constructor; [apply F|apply IH; [auto|apply F]].
  - apply IH; auto.
Qed.
Lemma fed_pause : forall es off b, fed off (es ++ [Pause b]) = fed off es.
Proof. induction es as [|[n x|b'] es IH]; intros off b; cbn [app fed]; auto. destruct off; rewrite IH; auto. Qed.
Lemma decode_some : forall sgn tv c p, pub_ok sgn p -> is_byte c -> exists p' f, tic_decode sgn tv c p = Some (p', f) /\ pub_ok sgn p'.
Proof.
  intros sgn tv c p (g1 & g2 & es & A & B & C & D) H.
  destruct (published_last sgn g1 g2 (es ++ [Byte tv c]) A B) as (p' & r & E & _); [apply fed_byte; auto|].
  assert (E' := E). rewrite pub_run_app, D in E'. cbn [pub_run pub_step] in E'. destruct (tic_decode sgn tv c p) as [[p1 f]|]; [|discriminate].
  injection E' as <-. exists p1, f. split; [reflexivity|]. exists g1, g2, (es ++ [Byte tv c]). auto using fed_byte.
Qed.
Lemma pause_ok : forall sgn b p, pub_ok sgn p -> pub_ok sgn (mk_pub (p_dec p) (p_ti p) b).
Proof.
  intros sgn b p (g1 & g2 & es & A & B & C & D). exists g1, g2, (es ++ [Pause b]). repeat split; auto.
  - rewrite fed_pause. exact C.
  - rewrite pub_run_app, D. reflexivity.
Qed.

Lemma clients_some : forall up data s, sse_ok s -> exists s' o, handle_clients up data s = Some (s', o) /\ sse_ok s'.
Proof. intros up data s H. rewrite handle_clients_spec by auto. do 2 eexists. split; [reflexivity|]. apply clients_ok. exact H. Qed.
Lemma effects_some : forall sgn up es d, dev_ok sgn d -> exists d' o, effects_out up es d = Some (d', o) /\ dev_ok sgn d'.
Proof.
  intros sgn up. induction es as [|e es IH]; intros d H; cbn [effects_out]; [eauto|]. destruct e as [w r|dt]; cbn [effect_out].
  - destruct (IH d H) as (d' & o & -> & H'). eauto.
  - destruct H as [A B C D E]. destruct (clients_some up (Some dt) (d_sse d) C) as (s & o & -> & S).
    destruct (IH (with_sse s d)) as (d' & o' & -> & H'); [constructor; assumption|]. eauto.
Qed.
Lemma receive_some : forall sgn a up tv c d, dev_ok sgn d -> is_byte c -> unterminated (text HUrl (cfg_of d)) = false ->
  exists d' o, receive sgn a up tv c d = Some (d', o) /\ dev_ok sgn d'.
Proof.
  intros sgn a up tv c d H Hc U. destruct H as [A B C D E]. unfold receive.
  destruct (decode_some sgn tv c (d_pub d) B Hc) as (p & f & -> & P). destruct f.
  - assert (T : published_ti (p_ti p)) by (destruct P as (g1 & g2 & es & ?); exists sgn, g1, g2, es, p; tauto).
    assert (S : url_safe (cfg_of d)).
    { destruct (reachable_inv _ A) as (_ & Ht & _). split; [apply (Ht HUrl eq_refl)|auto]. }
    pose proof (tic_notifs_some (a_env a) (cfg_of d) (a_now a) (length (sse_list (d_sse d))) (p_ti p) (d_ns d) (d_tm d) T S) as N.
    destruct (tic_notifs _ _ _ _ _ _ _) as [[[es n] t]|]; [|congruence]. apply effects_some. constructor; assumption.
  - do 2 eexists. split; [reflexivity|]. constructor; assumption.
Qed.

Lemma value_some : forall e t label, published_ti t -> exists v, tic_get_value e t label = Some v.
Proof.
  intros e t label P. destruct (published_facts t P) as (gs & w & _ & _ & W & _ & V). unfold tic_get_value.
  destruct (beq label (str "watt")); [rewrite W; eauto|]. destruct (beq label (str "seconds")); [eauto|].
  destruct (beq label (str "timestamp")); [eauto|]. rewrite (proj2 (V label)). eauto.
Qed.
Lemma happened_ok : forall sgn a q d d' os, happened a q d d' os -> devent_ok (DHttp a q) -> dev_ok sgn d -> dev_ok sgn d'.
Proof.
  intros sgn a q d d' os H K [A B C D E]. assert (R := happened_reachable _ _ _ _ _ H K A).
  destruct H as [-> _|_ _ -> _|r s code _ _ F -> _|s _ _ F -> _]; constructor; auto. apply ask_ok. exact C.
Qed.
Lemma handle_some : forall fuel sgn a q d, dev_ok sgn d -> ordinary_event (DHttp a q) -> (256 <= fuel)%nat ->
  exists d' o, handle fuel a q d = Done (d', o).
Proof.
  intros fuel sgn a q d H (K & L & U & T) F. assert (P := do_ti _ _ H). destruct H as [A B C D E]. assert (I := reachable_inv _ A).
  destruct (published_facts _ P) as (gs & w & _ & G & W & _ & V).
  unfold handle. destruct (find_route routes (q_method q) (q_uri q)) as [h|].
  - destruct h; cbn [serve]; unfold send_json, if_ok, if_full; destruct (get_auth (cfg_of d) q); eauto;
      try (unfold handle_sse; destruct (handle_sse_data (d_sse d)); eauto; fail);
      try (destruct (c11 (a_env a) (ti_of d) None P) as (gs' & body & _ & X & _); unfold tic_get_json_dict; rewrite X; cbn; eauto; fail);
      try (destruct (c12 (a_env a) (ti_of d) P) as (gs' & w' & body & _ & _ & X & _); rewrite X; cbn; eauto; fail);
      try (rewrite (emoncms_data _ _ [] G); cbn; eauto; fail);
      try (match goal with |- context [sys_get_info_json ?c ?i ?r] => destruct (info_some c i r T) as [b X]; rewrite X; cbn; eauto end; fail);
      try (edestruct files_some as [b X]; rewrite X; cbn; eauto; fail);
      try (edestruct scan_some as [b X]; rewrite X; cbn; eauto; fail);
      try (destruct (handle_read _ _); eauto; fail);
      try (cbn [lift]; eauto; fail).
    + unfold handle_form. destruct (step_inv (Post (a_flash a) true (q_args q)) (d_cs d) (proj1 K) I) as (s & X & _). cbn [cstep] in X.
      destruct (config_handle_form _ _ _ _) as [[s' code]|]; [|discriminate]. cbn. eauto.
    + unfold handle_form. destruct (step_inv (Post (a_flash a) false (q_args q)) (d_cs d) (proj1 K) I) as (s & X & _). cbn [cstep] in X.
      destruct (config_handle_form _ _ _ _) as [[s' code]|]; [|discriminate]. cbn. eauto.
    + unfold factory_reset. destruct (step_inv (FactoryReset (chip_id (a_env a)) (a_flash a)) (d_cs d) (proj2 K) I) as (s & X & _). cbn [cstep] in X.
      rewrite X. cbn. eauto.
  - destruct (static_file a q); [eauto|]. unfold not_found.
    assert (X : exists v, (if q_accepts q (text Username (cfg_of d)) (text Password (cfg_of d))
                           then l <- after_slash (q_uri q) ;; tic_get_value (a_env a) (ti_of d) l else Some None) = Some v).
    { destruct (q_accepts _ _ _); [|eauto]. unfold after_slash. destruct (cstr (q_uri q)); [congruence|]. apply value_some. exact P. }
    destruct X as [[v|] ->]; [eauto|]. rewrite args_loop_all by auto. eauto.
Qed.
Lemma dstep_some : forall fuel sgn e d, dev_ok sgn d -> ordinary_event e -> (256 <= fuel)%nat -> unterminated (text HUrl (cfg_of d)) = false ->
  exists d' o, dstep fuel sgn e d = Done (d', o) /\ dev_ok sgn d'.
Proof.
  intros fuel sgn e d H K F U. destruct e; cbn [dstep].
  - destruct H as [A B C D E]. unfold cpuload_loop. destruct (tm_expired (a_now a) (pf_timer (d_perf d))) as [f tm]. destruct f.
    + rewrite upd_lt by (rewrite D; exact E). cbn [lift]. do 2 eexists. split; [reflexivity|]. constructor; cbn [d_cs d_pub d_sse d_perf pf_vals pf_index]; auto.
      * rewrite app_length, firstn_length. cbn [length]. rewrite skipn_length, D. lia.
      * apply Nat.mod_upper_bound. discriminate.
    + cbn [lift]. do 2 eexists. split; [reflexivity|]. constructor; auto.
  - destruct K as [K _]. destruct (receive_some sgn a up tv c d H K U) as (d' & o & -> & H'). cbn. eauto.
  - destruct (handle_some fuel sgn a q d H K F) as (d' & o & E). exists d', o. split; [exact E|].
    destruct K as [K _]. eapply happened_ok; eauto. eapply handle_happened; eauto.
  - destruct H as [A B C D E].
    destruct u as [n l [|] en|dt [|] en|en|en]; cbn [handle_upload update_finish]; do 2 eexists; (split; [reflexivity|]); constructor;
      cbn [with_upload d_cs d_pub d_sse d_perf]; auto;
      cbn [p_dec p_ti]; apply pause_ok; auto.
  - destruct H as [A B C D E]. destruct (clients_some up None (d_sse d) C) as (s & o & -> & S). cbn [lift]. do 2 eexists.
    split; [reflexivity|]. constructor; auto.
Qed.
Lemma boot_dev_ok : forall sgn b, start_ok b -> exists d acts, boot b = Some (d, acts) /\ dev_ok sgn d.
Proof.
  intros sgn b H. destruct (boot_ok b H) as (d & acts & E & A & B & C & _ & _ & _ & P). exists d, acts. split; [exact E|].
  destruct H as (_ & _ & _ & _ & _ & G1 & G2).
  constructor; auto.
  - rewrite B. exists (b_g1 b), (b_g2 b), []. repeat split; auto. constructor.
  - rewrite C. apply init_ok.
  - rewrite P. reflexivity.
  - rewrite P. cbn. lia.
Qed.
Lemma drun_some : forall fuel sgn es d, dev_ok sgn d -> Forall ordinary_event es -> (256 <= fuel)%nat ->
  (exists d' os, drun fuel sgn es d = Done (d', os) /\ dev_ok sgn d') \/
  exists es1 es2 d1 os, es = es1 ++ es2 /\ drun fuel sgn es1 d = Done (d1, os) /\ unterminated (text HUrl (cfg_of d1)) = true.
Proof.
  intros fuel sgn. induction es as [|e es IH]; intros d H K F; [left; exists d, []; auto|].
  apply Forall_cons_iff in K. destruct K as [K Ks]. destruct (unterminated (text HUrl (cfg_of d))) eqn:U.
  - right. exists [], (e :: es), d, []. auto.
  - destruct (dstep_some fuel sgn e d H K F U) as (d1 & o & E & H1).
    destruct (IH d1 H1 Ks F) as [(d' & os & X & Y)|(es1 & es2 & d2 & os & -> & X & Y)].
    + left. exists d', (o :: os). cbn [drun]. rewrite E, X. auto.
    + right. exists (e :: es1), es2, d2, (o :: os). cbn [drun app]. rewrite E, X. auto.
Qed.
Lemma c57 : forall fuel sgn b es, start_ok b -> Forall ordinary_event es -> (256 <= fuel)%nat ->
  exists d0 acts, boot b = Some (d0, acts) /\
  ((exists d os, drun fuel sgn es d0 = Done (d, os)) \/
   exists es1 es2 d os, es = es1 ++ es2 /\ drun fuel sgn es1 d0 = Done (d, os) /\ unterminated (text HUrl (cfg_of d)) = true).
Proof.
  intros fuel sgn b es S K F. destruct (boot_dev_ok sgn b S) as (d0 & acts & E & H). exists d0, acts. split; [exact E|].
  destruct (drun_some fuel sgn es d0 H K F) as [(d & os & X & _)|R]; eauto.
Qed.
