(** Proofs of C106: the whole module. *)
From Coq Require Import ZArith List Bool Lia.
From Verif Require Import Base BaseFacts Teleinfo TeleinfoSpec Publish HistorySpec AccessProofs PublishProofs TeleinfoMain Config ConfigSpec ConfigProofs ConfigMain ConfigHist
  JsonBuild JsonBuildFacts Tic TicSpec PageProofs TemplateProofs RequestProofs Pages PagesSpec PagesProofs Sse SseSpec SseProofs Cpu Web Wifi Device WebSpec WebProofs
  DeviceProofs DeviceMain DeviceSafe RequestSafe BoundSpec BoundProofs.
Import ListNotations.
Open Scope Z_scope.

(** ** The clock of the published frame *)
Definition timed (p : pub) : Prop := readable (d_ts (p_dec p)) /\ readable (t_ts (p_ti p)).
Lemma put_ts : forall sgn tv c d d', put sgn tv c d = Some d' -> d_ts d' = d_ts d \/ d_ts d' = tv.
Proof.
  intros sgn tv c d d' H. unfold put in H. destruct (c =? STX); [injection H as <-; auto|].
  destruct (c =? LF); [destruct (d_state _); injection H as <-; auto|].
  destruct (c =? CR).
  { cbn [d_state] in H. destruct (d_state d); try (injection H as <-; auto; fail).
    unfold put_cr in H. destruct (_ && _); [|injection H as <-; auto]. destruct (Nat.ltb _ _); [|injection H as <-; auto].
    destruct (rd _ _); [|discriminate]. destruct (rd _ _); [|discriminate]. destruct (ck_loop _ _ _ _ _ _) as [[sum fr]|]; [|discriminate].
    destruct (_ =? _); [|injection H as <-; auto]. destruct (strip_loop _ _); [|discriminate]. destruct (upd _ _ _); [|discriminate].
    injection H as <-. auto. }
  destruct (c =? ETX); [destruct (d_state _); injection H as <-; auto|].
  destruct (c =? EOT); [injection H as <-; auto|]. cbn [d_state] in H. destruct (d_state d); try (injection H as <-; auto; fail).
  destruct (Nat.ltb _ _); [|injection H as <-; auto]. destruct (upd _ _ _); [|discriminate]. injection H as <-. auto.
Qed.
Lemma copy_ts : forall fr n ts t t', copy_from fr n ts t = Some t' -> t_ts t' = ts.
Proof.
  intros fr n ts t t' H. unfold copy_from in H. destruct (Nat.ltb _ _); [discriminate|]. destruct (Nat.eqb n 0); [injection H as <-; reflexivity|].
  revert H. generalize (str "HCHP") (str "HCHC"). intros k1 k2 H. cbv zeta in H.
  match type of H with context [get_value_int ?a ?b k1 ?d] => destruct (get_value_int a b k1 d) as [hp|]; [|discriminate H] end.
  match type of H with context [get_value_int ?a ?b k2 ?d] => destruct (get_value_int a b k2 d) as [hc|]; [|discriminate H] end.
  match type of H with context [updc ?a ?b ?d] => destruct (updc a b d) as [cs|]; [|discriminate H] end.
  assert (X : t_ts t' = ts) by (match type of H with Some ?x = _ => transitivity (t_ts x); [congruence|reflexivity] end). exact X.
Qed.
Lemma decode_timed : forall sgn tv c p p' f, tic_decode sgn tv c p = Some (p', f) -> readable tv -> timed p -> timed p'.
Proof.
  intros sgn tv c p p' f H R [A B]. unfold tic_decode in H. destruct (p_pause p); [injection H as <- _; split; assumption|].
  destruct (put sgn tv c (p_dec p)) as [d|] eqn:E; [|discriminate]. apply put_ts in E.
  assert (X : readable (d_ts d)) by (destruct E as [->| ->]; assumption).
  destruct (ready d); [|injection H as <- _; split; assumption]. destruct (copy_from _ _ _ _) as [t|] eqn:K; [|discriminate].
  apply copy_ts in K. injection H as <- _. split; cbn [p_dec p_ti]; [exact X|rewrite K; exact X].
Qed.

(** ** Effects *)
Lemma count_app : forall A (f : A -> bool) x y, count f (x ++ y) = (count f x + count f y)%nat.
Proof. intros. unfold count. rewrite filter_app, app_length. reflexivity. Qed.
Lemma requests_out : forall up es d d' o, Forall (fun x => is_request x = true) es -> Forall tic_fits es -> effects_out up es d = Some (d', o) ->
  d' = d /\ Forall effect_fits o /\ count is_sent o = length es /\ count is_text_sent o = 0%nat.
Proof.
  intros up. induction es as [|x es IH]; intros d d' o R F H; cbn [effects_out] in H; [injection H as <- <-; repeat split; auto|].
  apply Forall_cons_iff in R. apply Forall_cons_iff in F. destruct R as [R Rs], F as [F Fs]. destruct x as [w r|s]; [|discriminate].
  cbn [effect_out] in H. destruct (effects_out up es d) as [[d2 o2]|] eqn:E; [|discriminate]. injection H as <- <-.
  destruct (IH _ _ _ Rs Fs E) as (-> & A & B & C). split; [reflexivity|]. cbn [app]. split; [constructor; assumption|].
  unfold count in *. cbn [filter is_sent is_text_sent length]. auto.
Qed.
Lemma pass_fits : forall up data l, match data with Some d => (length d <= dict_room)%nat | None => True end ->
  Forall effect_fits (map Streaming (pass up data l)) /\ count is_sent (map Streaming (pass up data l)) = 0%nat /\
  (count is_text_sent (map Streaming (pass up data l)) <= length l)%nat.
Proof.
  intros up data l D. induction l as [|id l IH]; [repeat split; auto; constructor|]. destruct IH as (A & B & C).
  unfold pass. cbn [flat_map]. fold (pass up data l). rewrite map_app, Forall_app, !count_app. rewrite B. cbn [length].
  destruct (up id); [destruct data as [d|]|]; cbn [map]; repeat split; auto; try lia.
  - constructor; [|constructor]. cbn [effect_fits]. unfold event_text, event_room. rewrite !app_length. change (length (str "data: ")) with 6%nat. cbn [length]. lia.
  - change (count is_text_sent [Streaming (SentTo id (event_text d))]) with 1%nat. lia.
  - constructor; [exact Logic.I|constructor].
Qed.
Lemma data_out : forall up es d d' o, sse_ok (d_sse d) -> (length es <= 1)%nat -> Forall (fun x => is_request x = false) es -> Forall tic_fits es ->
  effects_out up es d = Some (d', o) -> Forall effect_fits o /\ count is_sent o = 0%nat /\ (count is_text_sent o <= 2)%nat.
Proof.
  intros up [|[w r|s] [|y es]] d d' o S L R F H; cbn [length] in L; try lia.
  - cbn in H. injection H as _ <-. repeat split; auto; cbn; lia.
  - apply Forall_inv in R. discriminate.
  - cbn [effects_out effect_out] in H. rewrite handle_clients_spec in H by exact S. cbv beta iota in H. injection H as _ <-. rewrite app_nil_r.
    apply Forall_inv in F. destruct (pass_fits up (Some s) (sse_list (d_sse d)) F) as (A & B & C). split; [exact A|]. split; [exact B|].
    pose proof (so_two _ S). lia.
Qed.
Lemma effects_app : forall up a b d, effects_out up (a ++ b) d =
  match effects_out up a d with Some (d1, o1) => match effects_out up b d1 with Some (d2, o2) => Some (d2, o1 ++ o2) | None => None end | None => None end.
Proof.
  intros up. induction a as [|x a IH]; intros b d; cbn [app effects_out].
  - destruct (effects_out up b d) as [[d2 o2]|]; reflexivity.
  - destruct (effect_out up x d) as [[d1 o1]|]; [|reflexivity]. rewrite IH. destruct (effects_out up a d1) as [[d2 o2]|]; [|reflexivity].
    destruct (effects_out up b d2) as [[d3 o3]|]; [|reflexivity]. rewrite app_assoc. reflexivity.
Qed.
Definition few (o : list out) : Prop := Forall effect_fits o /\ (count is_sent o <= 6)%nat /\ (count is_text_sent o <= 2)%nat.
Lemma few_nil : few [].
Proof. repeat split; auto; cbn; lia. Qed.
Lemma receive_few : forall sgn a up tv c d d' o, dev_ok sgn d -> is_byte c -> timed (d_pub d) -> dated (a_env a) -> readable tv ->
  receive sgn a up tv c d = Some (d', o) -> timed (d_pub d') /\ few o.
Proof.
  intros sgn a up tv c d d' o [A B C _ _] K T D R H. assert (RK := receive_keeps _ _ _ _ _ _ _ _ H). destruct RK as ((fr & RK) & _).
  split; [eapply decode_timed; eauto|]. unfold receive in H. destruct (decode_some sgn tv c (d_pub d) B K) as (p & f & Dc & P). rewrite Dc in *.
  destruct f; [|injection H as _ <-; apply few_nil].
  assert (T' : timed p) by (eapply decode_timed; eauto).
  destruct (tic_notifs _ _ _ _ _ _ _) as [[[es n] t]|] eqn:E; [|discriminate]. destruct (reachable_inv _ A) as (W & Tm & _).
  assert (PT : published_ti (p_ti p)) by (destruct P as (g1 & g2 & es' & ?); exists sgn, g1, g2, es', p; tauto).
  apply (notifs_fit (cfg_of d) W Tm (a_env a) (p_ti p) PT D (proj2 T')) in E. destruct E as (F & rs & ds & -> & L1 & R1 & L2 & R2).
  rewrite effects_app in H. apply Forall_app in F. destruct F as [F1 F2].
  destruct (effects_out up rs _) as [[d1 o1]|] eqn:E1; [|discriminate]. destruct (effects_out up ds d1) as [[d2 o2]|] eqn:E2; [|discriminate].
  injection H as _ <-. apply requests_out in E1; auto. destruct E1 as (-> & X1 & X2 & X3). apply data_out in E2; auto.
  destruct E2 as (Y1 & Y2 & Y3). unfold few. rewrite Forall_app, !count_app. repeat split; auto; lia.
Qed.
Lemma no_sent : forall o, (forall w r, ~ In (Sent w r) o) -> (forall i t, ~ In (Streaming (SentTo i t)) o) -> few o.
Proof.
  intros o A B. assert (X : Forall (fun x => effect_fits x /\ is_sent x = false /\ is_text_sent x = false) o).
  { apply Forall_forall. intros x I. destruct x as [| |e| | | | | | |w r]; cbn; auto; [|exfalso; eapply A; eauto].
    destruct e; auto. exfalso. eapply B. eauto. }
  clear A B. induction X as [|x o (P & Q & R) X IH]; [apply few_nil|]. destruct IH as (E & F & G). unfold few, count in *. cbn [filter].
  rewrite Q, R. repeat split; auto.
Qed.
Lemma step_few : forall fuel sgn e d d' o, dev_ok sgn d -> timed (d_pub d) -> devent_ok e -> timely e -> dstep fuel sgn e d = Done (d', o) ->
  timed (d_pub d') /\ few o.
Proof.
  intros fuel sgn e d d' o K T V L H. destruct e as [a|a up tv c|a q|a u|up]; cbn [dstep] in H.
  - destruct (cpuload_loop _ _); [|discriminate]. cbn [lift] in H. injection H as <- <-. split; [exact T|apply few_nil].
  - destruct (receive sgn a up tv c d) as [[d1 o1]|] eqn:E; [|discriminate]. injection H as <- <-. destruct L as [L1 L2]. eapply receive_few; eauto.
  - assert (X := handle_restart _ _ _ _ _ _ H). destruct X as (_ & _ & _ & _ & _ & _ & X). apply handle_happened in H.
    destruct H as [-> N|_ _ -> ->|r s code _ _ F -> ->|s _ _ F -> ->].
    + split; [exact T|]. apply no_sent; [exact X|]. intros i t. apply N.
    + split; [exact T|]. apply no_sent; [exact X|]. intros i t I. unfold handle_sse_data in I. destruct (Nat.ltb _ _); cbn in I; intuition discriminate.
    + split; [exact T|]. apply no_sent; [exact X|]. cbn. intros i t I. intuition discriminate.
    + split; [exact T|]. apply no_sent; [exact X|]. cbn. intros i t I. intuition discriminate.
  - split.
    + destruct u as [n l [|] en|dt [|] en|en|en]; cbn in H; injection H as <- _; exact T.
    + destruct u as [n l [|] en|dt [|] en|en|en]; cbn in H; injection H as _ <-; apply no_sent; cbn; intros; intuition discriminate.
  - destruct K as [_ _ C _ _]. rewrite handle_clients_spec in H by exact C. cbn [lift] in H. injection H as <- <-. split; [exact T|].
    destruct (pass_fits up None (sse_list (d_sse d)) Logic.I) as (A & B & D). unfold few. rewrite B. pose proof (so_two _ C). repeat split; auto; lia.
Qed.
Lemma run_few : forall fuel sgn es d d' os, dev_ok sgn d -> timed (d_pub d) -> Forall devent_ok es -> Forall timely es ->
  drun fuel sgn es d = Done (d', os) -> dev_ok sgn d' /\ timed (d_pub d') /\ Forall few os.
Proof.
  intros fuel sgn. induction es as [|e es IH]; intros d d' os K T V L R; cbn [drun] in R; [injection R as <- <-; auto|].
  destruct (dstep fuel sgn e d) as [[d1 o]| |] eqn:S; try discriminate. destruct (drun fuel sgn es d1) as [[d2 os2]| |] eqn:R2; try discriminate.
  injection R as <- <-. apply Forall_cons_iff in V. apply Forall_cons_iff in L. destruct V as [V Vs], L as [L Ls].
  destruct (step_few _ _ _ _ _ _ K T V L S) as [T1 F]. assert (K1 := dstep_keeps _ _ _ _ _ _ K V S).
  destruct (IH _ _ _ K1 T1 Vs Ls R2) as (A & B & C). auto.
Qed.
Lemma boot_timed : forall b d acts, start_ok b -> boot b = Some (d, acts) -> timed (d_pub d).
Proof.
  intros b d acts S E. destruct (boot_ok b S) as (d1 & a1 & E1 & _ & P & _). rewrite E in E1. injection E1 as <- _. rewrite P.
  split; cbn [pub_init p_dec p_ti dec_init ti_init d_ts t_ts]; unfold readable; cbn; lia.
Qed.
Lemma boot_good : forall sgn b d acts, start_ok b -> boot b = Some (d, acts) -> dev_ok sgn d.
Proof. intros sgn b d acts S E. destruct (boot_dev_ok sgn b S) as (d1 & a1 & E1 & K). rewrite E in E1. injection E1 as <- _. exact K. Qed.

Lemma c106_effects : forall fuel sgn b d0 acts es d os, start_ok b -> boot b = Some (d0, acts) -> Forall devent_ok es -> Forall timely es ->
  drun fuel sgn es d0 = Done (d, os) ->
  Forall (fun o => Forall effect_fits o /\ (count is_sent o <= 6)%nat /\ (count is_text_sent o <= 2)%nat) os.
Proof.
  intros fuel sgn b d0 acts es d os S E V L R. exact (proj2 (proj2 (run_few _ _ _ _ _ _ (boot_good sgn _ _ _ S E) (boot_timed _ _ _ S E) V L R))).
Qed.

(** ** Pages *)
Lemma json_len : forall q d get n d' o, send_json q d get = Done (d', o) -> (21 <= n)%nat -> (forall r b, get r = Some b -> (length b <= n)%nat) ->
  forall code kind body, In (Reply code kind body) o -> (length body <= n)%nat.
Proof.
  intros q d get n d' o H N G code kind body I. unfold send_json, if_ok in H.
  assert (X : forall r, lift (b <- get r ;; Some (d, [Reply 200 Json (or_braces b)])) = Done (d', o) -> (length body <= n)%nat).
  { intros r Y. destruct (get r) as [b|] eqn:E; [|discriminate]. cbn [lift] in Y. injection Y as _ <-. apply G in E.
    destruct I as [I|[]]. injection I as _ _ <-. destruct b; [cbn; lia|exact E]. }
  destruct (get_auth (cfg_of d) q); [|eapply X; eauto|eapply X; eauto].
  injection H as _ <-. destruct I as [I|[]]. unfold challenge in I. assert (Y : body = str "Authentication Failed") by congruence.
  rewrite Y. change (length (str "Authentication Failed")) with 21%nat. exact N.
Qed.
Lemma c106_pages : forall fuel sgn b d0 acts es d os a q n d' o, start_ok b -> boot b = Some (d0, acts) -> Forall devent_ok es -> Forall timely es ->
  drun fuel sgn es d0 = Done (d, os) -> dated (a_env a) -> page_room (q_uri q) = Some n -> handle fuel a q d = Done (d', o) ->
  forall code kind body, In (Reply code kind body) o -> (length body <= n)%nat.
Proof.
  intros fuel sgn b d0 acts es d os a q n d' o S E V L R D P H.
  destruct (run_few _ _ _ _ _ _ (boot_good sgn _ _ _ S E) (boot_timed _ _ _ S E) V L R) as (K & T & _). assert (PT := do_ti _ _ K).
  unfold page_room in P. unfold handle in H.
  destruct (beq (q_uri q) (str "/json")) eqn:U1.
  { apply beq_eq in U1. injection P as <-. rewrite U1 in H.
    replace (find_route routes (q_method q) (str "/json")) with (Some HDict) in H by (destruct (q_method q); reflexivity). cbn [serve] in H.
    apply (json_len _ _ _ dict_room _ _ H); [unfold dict_room; lia|]. intros r x J. exact (dict_len _ _ None _ PT D (proj2 T) Logic.I J). }
  destruct (beq (q_uri q) (str "/tinfo.json")) eqn:U2.
  { apply beq_eq in U2. injection P as <-. rewrite U2 in H.
    replace (find_route routes (q_method q) (str "/tinfo.json")) with (Some HArray) in H by (destruct (q_method q); reflexivity). cbn [serve] in H.
    apply (json_len _ _ _ table_room _ _ H); [unfold table_room; lia|]. intros r x J. exact (table_len _ _ _ PT D J). }
  destruct (beq (q_uri q) (str "/emoncms.json")) eqn:U3; [|discriminate].
  apply beq_eq in U3. injection P as <-. rewrite U3 in H.
  replace (find_route routes (q_method q) (str "/emoncms.json")) with (Some HEmoncms) in H by (destruct (q_method q); reflexivity). cbn [serve] in H.
  apply (json_len _ _ _ emoncms_room _ _ H); [unfold emoncms_room; lia|]. intros r x J. exact (emoncms_page_len _ _ PT J).
Qed.

(** ** What is kept *)
Lemma ptec_short : forall t s s' w, (length (n_periode s) <= 7)%nat -> notif_ptec t s = Some (s', w) -> (length (n_periode s') <= 7)%nat.
Proof.
  intros t s s' w N H. unfold notif_ptec in H. destruct (ti_value t _ _) as [[v|]|]; try discriminate; [|injection H as <- _; exact N].
  destruct (beq _ _); [injection H as <- _; exact N|]. assert (X : (length (firstn 7 v) <= 7)%nat) by (rewrite firstn_length; lia). cbv zeta in H. revert X H. generalize (firstn 7 v). intros x X H. destruct (n_init s); injection H as <- _; cbn [n_periode]; lia.
Qed.
Lemma adps_short : forall t s s' w, notif_adps t s = Some (s', w) -> n_periode s' = n_periode s.
Proof. intros t s s' w H. unfold notif_adps in H. destruct (ti_value t _ _) as [[v|]|]; try discriminate; destruct (n_adps s); injection H as <- _; reflexivity. Qed.
Lemma seuils_short : forall c t s s' w, notif_seuils c t s = Some (s', w) -> n_periode s' = n_periode s.
Proof.
  intros c t s s' w H. unfold notif_seuils in H. destruct (ti_value t _ _) as [[v|]|]; try discriminate; [|injection H as <- _; reflexivity].
  destruct (_ =? 0); [injection H as <- _; reflexivity|]. destruct (_ && _); [injection H as <- _; reflexivity|].
  destruct (_ && _); injection H as <- _; reflexivity.
Qed.
Lemma notifs_short : forall e c now k t s ts o s' ts', tic_notifs e c now k t s ts = Some (o, s', ts') ->
  (length (n_periode s) <= 7)%nat -> (length (n_periode s') <= 7)%nat.
Proof.
  intros e c now k t s ts o s' ts' H N. unfold tic_notifs in H. destruct (notifs_http e c now t s (t_http ts)) as [[[o1 s1] th]|] eqn:E; [|discriminate].
  assert (X : s1 = s').
  { destruct (tm_expired now (t_jeedom ts)) as [fj tj]. destruct (if fj then jeedom_notif c t else Some None); [|discriminate].
    destruct (tm_expired now (t_emoncms ts)) as [fe te]. destruct (if fe then emoncms_notif c t else Some None); [|discriminate].
    destruct (tm_expired now (t_sse ts)) as [fs tsse]. destruct (if fs && _ then _ else _); [|discriminate]. congruence. }
  subst s1. clear H. unfold notifs_http in E. destruct (text HHost c); [injection E as _ <- _; exact N|].
  destruct (if bit 1 HFlags c then notif_ptec t s else Some (s, None)) as [[s1 w1]|] eqn:E1; [|discriminate].
  destruct (send e c t w1) as [x1|]; [|discriminate].
  destruct (if bit 2 HFlags c then notif_seuils c t s1 else Some (s1, None)) as [[s2 w2]|] eqn:E2; [|discriminate].
  destruct (send e c t w2) as [x2|]; [|discriminate].
  destruct (if bit 0 HFlags c then notif_adps t s2 else Some (s2, None)) as [[s3 w3]|] eqn:E3; [|discriminate].
  destruct (send e c t w3) as [x3|]; [|discriminate].
  destruct (tm_expired now (t_http ts)) as [f tm1]. destruct (send e c t (if f then Some MAJ else None)) as [x4|]; [|discriminate].
  injection E as _ <- _.
  assert (Y1 : (length (n_periode s1) <= 7)%nat) by (destruct (bit 1 HFlags c); [eapply ptec_short; eauto|injection E1 as <- _; exact N]).
  assert (Y2 : n_periode s2 = n_periode s1) by (destruct (bit 2 HFlags c); [eapply seuils_short; eauto|injection E2 as <- _; reflexivity]).
  assert (Y3 : n_periode s3 = n_periode s2) by (destruct (bit 0 HFlags c); [eapply adps_short; eauto|injection E3 as <- _; reflexivity]).
  rewrite Y3, Y2. exact Y1.
Qed.
Definition short (d : device) : Prop := (length (n_periode (d_ns d)) <= 7)%nat.
Lemma effects_ns : forall up es d d' o, effects_out up es d = Some (d', o) -> d_ns d' = d_ns d.
Proof.
  intros up. induction es as [|e es IH]; intros d d' o H; cbn [effects_out] in H; [injection H as <- _; reflexivity|].
  destruct (effect_out up e d) as [[d1 o1]|] eqn:E; [|discriminate]. destruct (effects_out up es d1) as [[d2 o2]|] eqn:E2; [|discriminate].
  injection H as <- _. rewrite (IH _ _ _ E2). destruct e as [w r|s]; cbn [effect_out] in E; [injection E as <- _; reflexivity|].
  destruct (handle_clients _ _ _) as [[x y]|]; [|discriminate]. injection E as <- _. reflexivity.
Qed.
Lemma step_short : forall fuel sgn e d d' o, short d -> dstep fuel sgn e d = Done (d', o) -> short d'.
Proof.
  intros fuel sgn e d d' o K H. unfold short in *. destruct e as [a|a up tv c|a q|a u|up]; cbn [dstep] in H.
  - destruct (cpuload_loop _ _); [|discriminate]. cbn [lift] in H. injection H as <- _. exact K.
  - destruct (receive sgn a up tv c d) as [[d1 o1]|] eqn:E; [|discriminate]. injection H as <- _. unfold receive in E.
    destruct (tic_decode sgn tv c (d_pub d)) as [[p f]|]; [|discriminate]. destruct f; [|injection E as <- _; exact K].
    destruct (tic_notifs _ _ _ _ _ _ _) as [[[es n] t]|] eqn:X; [|discriminate]. apply effects_ns in E. rewrite E. cbn [d_ns].
    eapply notifs_short; eauto.
  - apply handle_happened in H. destruct H as [-> N|_ _ -> ->|r s code _ _ F -> ->|s _ _ F -> ->]; exact K.
  - destruct (upload_keeps a u d) as (_ & _ & _ & X & _). injection H as H. rewrite H in X. cbn [fst] in X. rewrite X. exact K.
  - destruct (handle_clients up None (d_sse d)) as [[s o1]|]; [|discriminate]. cbn [lift] in H. injection H as <- _. exact K.
Qed.
Lemma run_short : forall fuel sgn es d d' os, short d -> drun fuel sgn es d = Done (d', os) -> short d'.
Proof.
  intros fuel sgn. induction es as [|e es IH]; intros d d' os K R; cbn [drun] in R; [injection R as <- _; exact K|].
  destruct (dstep fuel sgn e d) as [[d1 o]| |] eqn:S; try discriminate. destruct (drun fuel sgn es d1) as [[d2 os2]| |] eqn:R2; try discriminate.
  injection R as <- _. eapply IH; [|exact R2]. eapply step_short; eauto.
Qed.
Lemma heap_two : forall s, sse_ok s -> (length (sse_heap s) <= 2)%nat.
Proof.
  intros s H. pose proof (so_two s H). assert (length (sse_heap s) <= length (sse_list s))%nat; [|lia].
  apply NoDup_incl_length; [apply H|]. intros x I. apply H. exact I.
Qed.
Lemma wf_total : forall c, wf c -> length (concat c) = 1024%nat.
Proof.
  intros c [H _]. assert (X : length (concat c) = list_sum (map (@length Z) c)).
  { clear. induction c as [|x c IH]; [reflexivity|]. cbn [concat map]. rewrite app_length, IH. reflexivity. }
  rewrite X, H. reflexivity.
Qed.
Lemma c106_kept : forall fuel sgn b d0 acts es d os, start_ok b -> boot b = Some (d0, acts) -> Forall devent_ok es ->
  drun fuel sgn es d0 = Done (d, os) -> small d.
Proof.
  intros fuel sgn b d0 acts es d os S E V R. assert (K := drun_keeps _ _ _ _ _ _ (boot_good sgn _ _ _ S E) V R).
  assert (N : short d).
  { eapply run_short; [|exact R]. destruct (boot_ok b S) as (d1 & a1 & E1 & _ & _ & _ & _ & X & _). rewrite E in E1. injection E1 as <- _.
    unfold short. rewrite X. cbn. lia. }
  destruct K as [A (g1 & g2 & ps & G1 & G2 & B & Pr) C D _]. destruct (reachable_inv _ A) as (W & _ & EE).
  destruct (pub_run_inv sgn g1 ps [] (pub_init g1 g2) G1 B (pub_init_inv sgn _ _ G1 G2)) as (p' & R' & X1 & (X2 & _ & X3) & _).
  rewrite Pr in R'. injection R' as <-. destruct EE as ((F1 & _) & (F2 & _) & _).
  unfold small. repeat split; auto.
  - cbn [app] in X1. destruct (DecoderProofs.run_inv sgn _ [] _ B (DecoderProofs.init_inv g1 G1)) as (dd & Y & I). cbn [pub_init p_pause] in *. rewrite Y in X1. injection X1 as <-. apply I.
  - apply wf_total. exact W.
  - apply C.
  - apply heap_two. exact C.
Qed.
