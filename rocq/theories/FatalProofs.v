(** Exactly which events bring the module down (C57, C65). *)
From Coq Require Import ZArith List Bool Lia ZifyBool.
From Verif Require Import Base BaseFacts Teleinfo TeleinfoSpec Publish HistorySpec PublishProofs Config ConfigSpec ConfigProofs ConfigMain ConfigHist
  JsonBuild JsonBuildFacts Tic TicSpec PageProofs TemplateProofs NotifProofs RequestProofs Pages PagesSpec PagesProofs Sse SseSpec SseProofs Cpu Web Wifi Device WebSpec WebProofs
  DeviceProofs DeviceMain DeviceSafe RequestSafe Cli CliSpec CliProofs Life LifeSpec LifeProofs FatalSpec.
Import ListNotations.
Open Scope Z_scope.

(** ** Whether the URL can be expanded depends on the URL only *)
Lemma value_ex_some : forall e t label notif, published_ti t -> exists v, http_add_value_ex e t label notif = Some v.
Proof. intros e t label notif P. destruct (published_facts t P) as (gs & w & C & _). eexists. eapply add_value; eauto. Qed.
Lemma expand_same : forall m e t n e' t' n', published_ti t -> published_ti t' ->
  forall f p uri uri', expand f e t n m p uri = None -> expand f e' t' n' m p uri' = None.
Proof.
  intros m e t n e' t' n' P P'. induction f as [|f IH]; intros p uri uri' H; [reflexivity|]. cbn [expand] in *.
  destruct (rd m p) as [c|]; [|reflexivity]. destruct (c =? 0); [discriminate|]. destruct (c =? 126).
  - destruct (tilde_label 15 m (S p)) as [[l q]|]; [|reflexivity].
    assert (X : exists v, match l with [] => Some [126] | _ :: _ => http_add_value_ex e t l n end = Some v) by (destruct l; [eauto|apply value_ex_some; auto]).
    assert (X' : exists v, match l with [] => Some [126] | _ :: _ => http_add_value_ex e' t' l n' end = Some v) by (destruct l; [eauto|apply value_ex_some; auto]).
    destruct X as [v V], X' as [v' V']. rewrite V in H. rewrite V'. eapply IH; eauto.
  - destruct (c =? 36); [|eapply IH; eauto]. destruct (rd m (S p)) as [d|]; [|reflexivity]. destruct (d =? 36); [eapply IH; eauto|].
    destruct (dollar_label 15 m (S p)) as [[l q]|]; [|reflexivity].
    destruct (value_ex_some e t l n P) as [v V], (value_ex_some e' t' l n' P') as [v' V']. rewrite V in H. rewrite V'. eapply IH; eauto.
Qed.
Lemma runs_out_once : forall e t n m, published_ti t -> expand_url e t n m = None -> runs_out m.
Proof. intros e t n m P H e' t' n' P'. exact (expand_same m e t n e' t' n' P P' _ _ _ _ H). Qed.

(** Some data published, to decide it. *)
Lemma runs_dec_data : exists (e : env) t, published_ti t.
Proof.
  exists (mk_env (fun _ => []) 0), (p_ti (pub_init (repeat 0 350) (repeat 0 350))), true, (repeat 0 350), (repeat 0 350), [], (pub_init (repeat 0 350) (repeat 0 350)).
  repeat split; constructor.
Qed.
Lemma runs_dec : forall m, runs_out m \/ ~ runs_out m.
Proof.
  destruct runs_dec_data as (e & t & P). intros m. destruct (expand_url e t [] m) as [u|] eqn:E.
  - right. intros R. specialize (R e t [] P). congruence.
  - left. eapply runs_out_once; eauto.
Qed.

(** ** One frame *)
Definition clean (c : cfg) : cfg := set HUrl (repeat 0 151) c.
Lemma clean_get : forall f c, f <> HUrl -> get f (clean c) = get f c.
Proof. intros f c H. unfold clean. apply get_set_other. congruence. Qed.
Lemma clean_text : forall f c, f <> HUrl -> text f (clean c) = text f c.
Proof. intros f c H. unfold text. now rewrite clean_get. Qed.
Lemma clean_num : forall f c, f <> HUrl -> num f (clean c) = num f c.
Proof. intros f c H. unfold num. now rewrite clean_get. Qed.
Lemma clean_bit : forall k f c, f <> HUrl -> bit k f (clean c) = bit k f c.
Proof. intros k f c H. unfold bit. now rewrite clean_num. Qed.
Lemma clean_safe : forall c, length c = 35%nat -> url_safe (clean c).
Proof.
  intros c L. unfold url_safe, clean, text. rewrite get_set_same by auto. split; [left; reflexivity|]. right.
  exists [], (repeat 0 149). split; reflexivity.
Qed.
Lemma send_dead : forall e c t w, published_ti t -> runs_out (get HUrl c) ->
  send e c t w = match w with None => Some [] | Some _ => None end.
Proof. intros e c t [w|] P R; cbn [send]; [|reflexivity]. unfold http_notif. now rewrite (R e t _ P). Qed.
Lemma send_alive : forall e c t w, published_ti t -> ~ runs_out (get HUrl c) -> exists o, send e c t w = Some o.
Proof.
  intros e c t [w|] P R; cbn [send]; [|eauto]. unfold http_notif. destruct (expand_url e t (reason_text w) (get HUrl c)) eqn:E.
  - destruct (bit 7 HFlags c); [|eauto]. destruct (c11 e t (Some (reason_text w)) P) as (gs & body & _ & -> & _). eauto.
  - destruct R. eapply runs_out_once; eauto.
Qed.
Lemma send_shape : forall e c t w o, send e c t w = Some o -> match w with None => o = [] | Some x => exists r, o = [Request x r] end.
Proof. intros e c t [w|] o H; cbn [send] in H; [|congruence]. destruct (http_notif e c t w); [|discriminate]. injection H as <-. eauto. Qed.

Definition own (x : effect) : Prop := match x with Request w _ => own_reason w | _ => False end.
Lemma own_send : forall e c t w o, send e c t w = Some o -> match w with Some x => own_reason x | None => True end -> Forall own o.
Proof. intros e c t w o H R. apply send_shape in H. destruct w; [destruct H as [r0 ->]; constructor; [exact R|constructor]|subst; constructor]. Qed.
Lemma ptec_own : forall v s, match snd (f_ptec v s) with Some x => own_reason x | None => True end.
Proof. intros [v|] s; cbn [f_ptec]; [|exact Logic.I]. destruct (beq _ _); [exact Logic.I|]. cbn [snd]. destruct (n_init s); [exact Logic.I|split; discriminate]. Qed.
Lemma seuils_own : forall h b p s, match snd (f_seuils h b p s) with Some x => own_reason x | None => True end.
Proof.
  intros h b p s. unfold f_seuils. destruct (p =? 0); [exact Logic.I|]. destruct (_ && negb _); [split; discriminate|].
  destruct (_ && n_haut s); [split; discriminate|exact Logic.I].
Qed.
Lemma adps_own : forall v s, match snd (f_adps v s) with Some x => own_reason x | None => True end.
Proof. intros [v|] s; cbn [f_adps]; destruct (n_adps s); try exact Logic.I; split; discriminate. Qed.

Lemma http_exact : forall e c now t s tm, published_ti t -> length c = 35%nat ->
  exists o s' tm', notifs_http e (clean c) now t s tm = Some (o, s', tm') /\ Forall own o /\
    (runs_out (get HUrl c) -> o <> [] -> notifs_http e c now t s tm = None) /\
    (~ runs_out (get HUrl c) \/ o = [] -> exists r, notifs_http e c now t s tm = Some r).
Proof.
  intros e c now t s tm P L. unfold notifs_http. rewrite clean_text by discriminate.
  destruct (text HHost c) as [|x l].
  { exists [], s, tm. split; [reflexivity|]. split; [constructor|]. split; [congruence|eauto]. }
  rewrite !clean_bit by discriminate. rewrite !notif_ptec_eq by auto.
  assert (Hs : forall w, exists o, send e (clean c) t w = Some o) by (intros w; apply send_some; auto using clean_safe).
  assert (X1 : exists s1 w1, (if bit 1 HFlags c then Some (f_ptec (value_in t "PTEC") s) else Some (s, None)) = Some (s1, w1) /\
    match w1 with Some x => own_reason x | None => True end).
  { destruct (bit 1 HFlags c); [|exists s, None; split; [reflexivity|exact Logic.I]]. destruct (f_ptec (value_in t "PTEC") s) as [s1 w1] eqn:F. exists s1, w1. split; [reflexivity|].
    change w1 with (snd (s1, w1)). rewrite <- F. apply ptec_own. }
  destruct X1 as (s1 & w1 & -> & R1). rewrite !notif_seuils_eq by auto. rewrite !clean_num by discriminate.
  assert (X2 : exists s2 w2, (if bit 2 HFlags c then Some (f_seuils (num HSeuilHaut c) (num HSeuilBas c) (papp t) s1) else Some (s1, None)) = Some (s2, w2) /\
    match w2 with Some x => own_reason x | None => True end).
  { destruct (bit 2 HFlags c); [|exists s1, None; split; [reflexivity|exact Logic.I]]. destruct (f_seuils _ _ _ _) as [s2 w2] eqn:F. exists s2, w2. split; [reflexivity|].
    change w2 with (snd (s2, w2)). rewrite <- F. apply seuils_own. }
  destruct X2 as (s2 & w2 & -> & R2). rewrite !notif_adps_eq by auto.
  assert (X3 : exists s3 w3, (if bit 0 HFlags c then Some (f_adps (value_in t "ADPS") s2) else Some (s2, None)) = Some (s3, w3) /\
    match w3 with Some x => own_reason x | None => True end).
  { destruct (bit 0 HFlags c); [|exists s2, None; split; [reflexivity|exact Logic.I]]. destruct (f_adps _ _) as [s3 w3] eqn:F. exists s3, w3. split; [reflexivity|].
    change w3 with (snd (s3, w3)). rewrite <- F. apply adps_own. }
  destruct X3 as (s3 & w3 & -> & R3). destruct (tm_expired now tm) as [fired tm'].
  set (w4 := if fired then Some MAJ else None).
  assert (R4 : match w4 with Some x => own_reason x | None => True end) by (subst w4; destruct fired; [split; discriminate|exact Logic.I]).
  clearbody w4.
  destruct (Hs w1) as [o1 E1], (Hs w2) as [o2 E2], (Hs w3) as [o3 E3], (Hs w4) as [o4 E4]. rewrite E1, E2, E3, E4.
  exists (o1 ++ o2 ++ o3 ++ o4), s3, tm'. split; [reflexivity|].
  split; [rewrite !Forall_app; eauto 8 using own_send|].
  apply send_shape in E1, E2, E3, E4. split.
  - intros D N. rewrite !(send_dead e c t _ P D).
    destruct w1; [reflexivity|]. destruct w2; [reflexivity|]. destruct w3; [reflexivity|]. destruct w4; [reflexivity|]. subst. destruct N. reflexivity.
  - intros [D|N].
    + destruct (send_alive e c t w1 P D) as [u1 ->], (send_alive e c t w2 P D) as [u2 ->], (send_alive e c t w3 P D) as [u3 ->], (send_alive e c t w4 P D) as [u4 ->]. eauto.
    + destruct w1; [destruct E1 as [? ->]; discriminate|]. destruct w2; [destruct E2 as [? ->]; subst; discriminate|].
      destruct w3; [destruct E3 as [? ->]; subst; discriminate|]. destruct w4; [destruct E4 as [? ->]; subst; discriminate|]. cbn [send]. eauto.
Qed.

Lemma notifs_exact : forall e c now k t s ts, published_ti t -> length c = 35%nat ->
  exists o s' ts', tic_notifs e (clean c) now k t s ts = Some (o, s', ts') /\
    (tic_notifs e c now k t s ts = None <-> runs_out (get HUrl c) /\ exists w r, In (Request w r) o /\ own_reason w).
Proof.
  intros e c now k t s ts P L. destruct (http_exact e c now t s (t_http ts) P L) as (o & s' & tm' & E & W & D & A).
  destruct (published_facts t P) as (gs & w & C & Gs & _).
  unfold tic_notifs. rewrite E. destruct (tm_expired now (t_jeedom ts)) as [fj tj].
  assert (J : jeedom_notif (clean c) t = jeedom_notif c t).
  { unfold jeedom_notif. rewrite !clean_text, clean_num by discriminate. destruct (text JHost c); [reflexivity|]. rewrite Gs. f_equal. f_equal. f_equal.
    assert (Z0 : forall gl u, fold_left (jeedom_group (clean c)) gl u = fold_left (jeedom_group c) gl u).
    { induction gl as [|g gl IH]; intros u; cbn [fold_left]; [reflexivity|]. rewrite IH. f_equal. unfold jeedom_group. now rewrite clean_text by discriminate. }
    apply Z0. }
  rewrite J.
  assert (X1 : exists x, (if fj then jeedom_notif c t else Some None) = Some x).
  { destruct fj; [|eauto]. unfold jeedom_notif. destruct (text JHost c); [eauto|]. rewrite Gs. eauto. }
  destruct X1 as [rj ->]. destruct (tm_expired now (t_emoncms ts)) as [fe te].
  assert (M : emoncms_notif (clean c) t = emoncms_notif c t).
  { unfold emoncms_notif. now rewrite !clean_text, !clean_num by discriminate. }
  rewrite M.
  assert (X2 : exists x, (if fe then emoncms_notif c t else Some None) = Some x).
  { destruct fe; [|eauto]. unfold emoncms_notif. destruct (text EHost c); [eauto|]. rewrite (emoncms_data t gs) by auto. eauto. }
  destruct X2 as [re ->]. destruct (tm_expired now (t_sse ts)) as [fs tsse].
  assert (X3 : exists ds, (if fs && negb (Nat.eqb k 0) then d <- tic_get_json_dict e t ;; Some [SseData d] else Some []) = Some ds /\ forall x, In x ds -> ~ own x).
  { destruct (fs && negb (Nat.eqb k 0)); [|exists []; split; [reflexivity|intros x []]]. unfold tic_get_json_dict.
    destruct (c11 e t None P) as (gs' & body & _ & -> & _). eexists. split; [reflexivity|]. intros x [<-|[]] []. }
  destruct X3 as (ds & -> & Ds). do 3 eexists. split; [reflexivity|]. split.
  - intros N. destruct o as [|x o].
    { destruct (A (or_intror eq_refl)) as [[[o2 s2] t2] A2]. rewrite A2 in N. discriminate. }
    destruct (runs_dec (get HUrl c)) as [R|R].
    + split; [exact R|]. apply Forall_inv in W. destruct x as [w0 r0|]; [|destruct W]. exists w0, r0. split; [left; reflexivity|exact W].
    + destruct (A (or_introl R)) as [[[o2 s2] t2] A2]. rewrite A2 in N. discriminate.
  - intros (R & w0 & r0 & I0 & O). rewrite D; [reflexivity|exact R|]. intros ->. cbn [app] in I0.
    apply in_app_or in I0. destruct I0 as [I0|I0].
    { destruct rj; cbn in I0; [|exact I0]. destruct I0 as [I0|[]]. injection I0 as <- _. destruct O. congruence. }
    apply in_app_or in I0. destruct I0 as [I0|I0].
    { destruct re; cbn in I0; [|exact I0]. destruct I0 as [I0|[]]. injection I0 as <- _. destruct O. congruence. }
    exact (Ds _ I0 O).
Qed.

(** ** One byte *)
Lemma effects_other : forall up es d d', d_sse d = d_sse d' -> forall d1 o, effects_out up es d = Some (d1, o) ->
  exists d1', effects_out up es d' = Some (d1', o).
Proof.
  intros up. induction es as [|x es IH]; intros d d' S d1 o H; cbn [effects_out] in *; [injection H as <- <-; eauto|].
  destruct x as [w r|dt]; cbn [effect_out] in *.
  - destruct (effects_out up es d) as [[d2 o2]|] eqn:E; [|discriminate]. destruct (IH d d' S _ _ E) as [d3 ->]. injection H as <- <-. eauto.
  - rewrite <- S. destruct (handle_clients up (Some dt) (d_sse d)) as [[s1 o1]|]; [|discriminate].
    destruct (effects_out up es (with_sse s1 d)) as [[d2 o2]|] eqn:E; [|discriminate].
    destruct (IH (with_sse s1 d) (with_sse s1 d') eq_refl _ _ E) as [d3 ->]. injection H as <- <-. eauto.
Qed.
Lemma effects_sent : forall up es d d1 o w r, effects_out up es d = Some (d1, o) -> (In (Sent w r) o <-> In (Request w r) es).
Proof.
  intros up. induction es as [|x es IH]; intros d d1 o w r H; cbn [effects_out] in *; [injection H as <- <-; reflexivity|].
  destruct x as [w0 r0|dt]; cbn [effect_out] in *.
  - destruct (effects_out up es d) as [[d2 o2]|] eqn:E; [|discriminate]. injection H as <- <-. cbn [app In]. rewrite (IH _ _ _ w r E).
    split; intros [X|X]; auto; left; congruence.
  - destruct (handle_clients up (Some dt) (d_sse d)) as [[s1 o1]|]; [|discriminate].
    destruct (effects_out up es (with_sse s1 d)) as [[d2 o2]|] eqn:E; [|discriminate]. injection H as <- <-.
    rewrite in_app_iff, (IH _ _ _ w r E). cbn [In]. split.
    + intros [X|X]; [|auto]. apply in_map_iff in X. destruct X as (y & X & _). discriminate.
    + intros [X|X]; [discriminate|auto].
Qed.
Lemma cfg_length : forall sgn d, dev_ok sgn d -> length (cfg_of d) = 35%nat.
Proof. intros sgn d H. destruct (reachable_inv _ (do_cs _ _ H)) as (W & _). apply wf_length. exact W. Qed.
Lemma receive_exact : forall sgn a up tv c d, dev_ok sgn d -> is_byte c ->
  (receive sgn a up tv c d = None <-> fatal_byte sgn a up tv c d).
Proof.
  intros sgn a up tv c d H Hc. assert (L := cfg_length _ _ H). destruct H as [A B C D E].
  unfold fatal_byte, receive. change (cfg_of (no_url d)) with (clean (cfg_of d)). change (d_pub (no_url d)) with (d_pub d).
  change (d_ns (no_url d)) with (d_ns d). change (d_tm (no_url d)) with (d_tm d). change (d_sse (no_url d)) with (d_sse d).
  destruct (decode_some sgn tv c (d_pub d) B Hc) as (p & f & -> & P). destruct f.
  2: { split; [discriminate|]. intros (_ & d' & o & w & r & X & I & _). injection X as <- <-. destruct I. }
  assert (T : published_ti (p_ti p)) by (destruct P as (g1 & g2 & es & ?); exists sgn, g1, g2, es, p; tauto).
  destruct (notifs_exact (a_env a) (cfg_of d) (a_now a) (length (sse_list (d_sse d))) (p_ti p) (d_ns d) (d_tm d) T L) as (o & n & t & X & Y).
  rewrite X.
  destruct (effects_some sgn up o (mk_dev (d_cs d) p n t (d_sse d) (d_perf d) (d_upd d))) as (d1 & o1 & F & _); [constructor; assumption|].
  match goal with |- context [effects_out up o ?dd = Some _] => destruct (effects_other up o (mk_dev (d_cs d) p n t (d_sse d) (d_perf d) (d_upd d)) dd eq_refl _ _ F) as [d2 F2]; rewrite F2 end.
  assert (Q : forall w r, In (Sent w r) o1 <-> In (Request w r) o) by (intros; eapply effects_sent; eauto).
  split.
  - intros N. destruct (tic_notifs (a_env a) (cfg_of d) _ _ _ _ _) as [[[es n'] t']|].
    + destruct (effects_some sgn up es (mk_dev (d_cs d) p n' t' (d_sse d) (d_perf d) (d_upd d))) as (d3 & o3 & F3 & _); [constructor; assumption|].
      rewrite F3 in N. discriminate.
    + destruct (proj1 Y eq_refl) as (R & w & r & I & O). split; [exact R|]. exists d2, o1, w, r. rewrite Q. auto.
  - intros (R & d3 & o3 & w & r & X3 & I & O). injection X3 as <- <-. rewrite (proj2 Y); [reflexivity|]. split; [exact R|].
    exists w, r. split; [apply Q; exact I|exact O].
Qed.

(** ** One request *)
Lemma serve_ends : forall a q d h, serve a q d h <> OutOfFuel.
Proof.
  assert (K : forall (x : option (device * list out)), lift x <> OutOfFuel) by (intros [x|]; discriminate).
  intros a q d h. destruct h; cbn [serve]; unfold send_json, if_ok, if_full; destruct (get_auth (cfg_of d) q); try discriminate; try apply K;
    try (unfold handle_sse; destruct (handle_sse_data _); discriminate); match goal with |- context [handle_read ?x ?y] => destruct (handle_read x y); discriminate end.
Qed.
Lemma form_code : forall o r fm s s' code, config_handle_form o r fm s = Some (s', code) -> code <> 404.
Proof.
  intros o r fm s s' code H. unfold config_handle_form in H. destruct (has_arg _ _); [|congruence].
  destruct (if r then _ else _) as [c1|]; [|discriminate]. destruct (form_common fm c1) as [c2|]; [|discriminate].
  destruct (config_save _ _) as [[s2 ok]|]; [|discriminate]. injection H as _ <-. destruct ok; discriminate.
Qed.
Lemma serve_404 : forall a q d h d' body, serve a q d h <> Done (d', [Reply 404 Web.Text body]).
Proof.
  assert (J : forall (x : option (list Z)) f (d d' : device) body, lift (b <- x ;; Some (d, [Reply 200 Json (f b)])) <> Done (d', [Reply 404 Web.Text body]))
    by (intros [x|] f d d' body; discriminate).
  intros a q d h d' body. destruct h; cbn [serve]; unfold send_json, if_ok, if_full; destruct (get_auth (cfg_of d) q); try discriminate; try apply J.
  1, 2: unfold handle_sse, handle_sse_data; destruct (Nat.ltb _ _); discriminate.
  1, 2: unfold handle_form; destruct (config_handle_form _ _ _ _) as [[s code]|] eqn:E; [|discriminate];
    apply form_code in E; cbn [lift]; congruence.
  - unfold factory_reset. destruct (config_reset _ _ _); discriminate.
  - destruct (d_upd d); discriminate.
  - unfold handle_read. destruct (a_site a _); [discriminate|]. destruct (a_site a _); discriminate.
  - unfold handle_read. destruct (a_site a _); [discriminate|]. destruct (a_site a _); discriminate.
  - destruct (a_site a _); discriminate.
  - destruct (a_site a _); discriminate.
  - destruct (a_site a _); discriminate.
Qed.
Lemma file_404 : forall a q o code k body, static_file a q = Some o -> o <> Reply code k body.
Proof.
  intros a q o code k body H. unfold static_file in H. destruct (_ && _); [|discriminate].
  destruct (a_site a _); [injection H as <-; discriminate|]. destruct (a_site a _); [injection H as <-; discriminate|discriminate].
Qed.
Lemma handle_endless : forall fuel sgn a q d, dev_ok sgn d -> (256 <= fuel)%nat ->
  (handle fuel a q d = OutOfFuel <-> endless_request fuel a q d).
Proof.
  intros fuel sgn a q d H F. unfold endless_request, handle. change (q_method (bare q)) with (q_method q). change (q_uri (bare q)) with (q_uri q).
  change (static_file a (bare q)) with (static_file a q).
  destruct (find_route routes (q_method q) (q_uri q)) as [h|].
  { split; [intros X; destruct (serve_ends a q d h X)|]. intros (_ & d' & b & X). destruct (serve_404 _ _ _ _ _ _ X). }
  destruct (static_file a q) as [o|] eqn:S.
  { split; [discriminate|]. intros (_ & d' & b & X). injection X as _ X. destruct (file_404 _ _ _ 404 Web.Text b S X). }
  unfold not_found. change (q_accepts (bare q)) with (q_accepts q). change (q_uri (bare q)) with (q_uri q). change (q_args (bare q)) with (@nil (list Z * list Z)).
  destruct (if q_accepts q _ _ then _ else _) as [[v|]|].
  - split; [discriminate|]. intros (_ & d' & b & X). discriminate.
  - rewrite (args_loop_all [] fuel) by (cbn; lia). destruct (Compare_dec.le_lt_dec 256 (length (q_args q))) as [G|G].
    + rewrite args_loop_never by (auto; lia). split; [|reflexivity]. intros _. split; [exact G|]. eauto.
    + rewrite args_loop_all by auto. split; [discriminate|]. intros (G' & _). lia.
  - split; [discriminate|]. intros (_ & d' & b & X). discriminate.
Qed.

(** ** Any event, any history *)
Lemma dstep_exact : forall fuel sgn e d, dev_ok sgn d -> devent_ok e -> (256 <= fuel)%nat ->
  (dstep fuel sgn e d = Undefined <-> fatal sgn e d) /\ (dstep fuel sgn e d = OutOfFuel <-> endless fuel e d).
Proof.
  intros fuel sgn e d H K F.
  assert (Q : match e with DTurn _ | DUpload _ _ | DPoll _ => exists x, dstep fuel sgn e d = Done x | _ => True end).
  { destruct e; try exact Logic.I; cbn [dstep].
    - destruct H as [A B C D E]. unfold cpuload_loop. destruct (tm_expired (a_now a) (pf_timer (d_perf d))) as [f tm]. destruct f; [|cbn [lift]; eauto].
      rewrite upd_lt by (rewrite D; exact E). cbn [lift]. eauto.
    - eauto.
    - destruct (clients_some up None (d_sse d) (do_sse _ _ H)) as (s & o & -> & _). cbn [lift]. eauto. }
  destruct e as [a|a up tv c|a q|a u|up]; cbn [fatal endless].
  1, 4, 5: destruct Q as [x ->]; split; split; (discriminate || intros []).
  - cbn [dstep]. rewrite <- (receive_exact sgn a up tv c d H K). destruct (receive sgn a up tv c d); cbn [lift]; split; split; try discriminate; auto; intros [].
  - cbn [dstep]. split; [apply (handle_undefined fuel sgn a q d H K)|apply (handle_endless fuel sgn a q d H F)].
Qed.
Lemma drun_exact : forall fuel sgn es d0, dev_ok sgn d0 -> Forall devent_ok es -> (256 <= fuel)%nat ->
  (drun fuel sgn es d0 = Undefined <->
   exists es1 e es2 d os, es = es1 ++ e :: es2 /\ drun fuel sgn es1 d0 = Done (d, os) /\ fatal sgn e d) /\
  (drun fuel sgn es d0 = OutOfFuel <->
   exists es1 e es2 d os, es = es1 ++ e :: es2 /\ drun fuel sgn es1 d0 = Done (d, os) /\ endless fuel e d).
Proof.
  intros fuel sgn. induction es as [|e es IH]; intros d0 H K F.
  { cbn [drun]. split; (split; [discriminate|]); intros ([|x es1] & y & es2 & d & os & X & _); discriminate. }
  apply Forall_cons_iff in K. destruct K as [K Ks]. destruct (dstep_exact fuel sgn e d0 H K F) as (DU & DE). cbn [drun].
  destruct (dstep fuel sgn e d0) as [[d1 o1]| |] eqn:S.
  - destruct (IH d1 (dstep_keeps _ _ _ _ _ _ H K S) Ks F) as (IU & IE).
    assert (G : forall P : devent -> device -> Prop, ~ P e d0 ->
      ((exists es1 y es2 d os, es = es1 ++ y :: es2 /\ drun fuel sgn es1 d1 = Done (d, os) /\ P y d) <->
       exists es1 y es2 d os, e :: es = es1 ++ y :: es2 /\ drun fuel sgn es1 d0 = Done (d, os) /\ P y d)).
    { intros P N. split.
      - intros (es1 & y & es2 & d & os & -> & R & X). exists (e :: es1), y, es2, d, (o1 :: os). cbn [drun app]. rewrite S, R. auto.
      - intros ([|x es1] & y & es2 & d & os & X & R & Y); cbn [app drun] in *.
        + injection X as <- <-. injection R as <- _. contradiction.
        + injection X as <- ->. rewrite S in R. destruct (drun fuel sgn es1 d1) as [[d2 os2]| |] eqn:R1; try discriminate.
          injection R as <- _. exists es1, y, es2, d2, os2. auto. }
    rewrite <- (G (fatal sgn)) by (intros X; apply DU in X; discriminate).
    rewrite <- (G (endless fuel)) by (intros X; apply DE in X; discriminate).
    rewrite <- IU, <- IE. destruct (drun fuel sgn es d1) as [[d2 os2]| |]; split; split; congruence.
  - split; split; try discriminate; try reflexivity.
    + intros _. exists [], e, es, d0, []. split; [reflexivity|]. split; [reflexivity|]. now apply DU.
    + intros ([|x es1] & y & es2 & d & os & X & R & Y); cbn [app drun] in *.
      * injection X as <- <-. injection R as <- _. apply DE in Y. discriminate.
      * injection X as <- ->. rewrite S in R. discriminate.
  - split; split; try discriminate; try reflexivity.
    + intros ([|x es1] & y & es2 & d & os & X & R & Y); cbn [app drun] in *.
      * injection X as <- <-. injection R as <- _. apply DU in Y. discriminate.
      * injection X as <- ->. rewrite S in R. discriminate.
    + intros _. exists [], e, es, d0, []. split; [reflexivity|]. split; [reflexivity|]. now apply DE.
Qed.
Lemma c57_exact : forall fuel sgn b es, start_ok b -> Forall devent_ok es -> (256 <= fuel)%nat ->
  exists d0 acts, boot b = Some (d0, acts) /\
  (drun fuel sgn es d0 = Undefined <->
   exists es1 e es2 d os, es = es1 ++ e :: es2 /\ drun fuel sgn es1 d0 = Done (d, os) /\ fatal sgn e d) /\
  (drun fuel sgn es d0 = OutOfFuel <->
   exists es1 e es2 d os, es = es1 ++ e :: es2 /\ drun fuel sgn es1 d0 = Done (d, os) /\ endless fuel e d).
Proof.
  intros fuel sgn b es S K F. destruct (boot_dev_ok sgn b S) as (d0 & acts & E & H). exists d0, acts. split; [exact E|]. now apply drun_exact.
Qed.
