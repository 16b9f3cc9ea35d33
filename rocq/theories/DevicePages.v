(** From the bytes received to the pages. *)
From Coq Require Import ZArith List Bool Lia.
From Verif Require Import Base BaseFacts Teleinfo TeleinfoSpec Publish HistorySpec DecoderProofs GroupProofs AccessProofs PublishProofs Config ConfigSpec
  Json JsonBuild JsonBuildFacts Tic TicSpec PageProofs Pages PagesSpec Sse SseSpec SseProofs Cpu Web Wifi Device WebSpec WebProofs
  DeviceProofs DeviceMain DeviceSafe DeviceFinal.
Import ListNotations.
Open Scope Z_scope.

(** What the published frame is after some history of the receiver. *)
Definition groups_are (t : teleinfo) (r : option (timeval * list (list Z))) : Prop :=
  match r with
  | None => t_size t = 0%nat
  | Some (t0, bodies) => t_size t = length (content bodies) /\ carries t (pairs_of (content bodies)) /\ t_ts t = t0 /\
      exists R, t_frame t = content bodies ++ R
  end.
Lemma pub_groups : forall sgn g1 g2 es p, length g1 = 350%nat -> length g2 = 350%nat -> Forall is_byte (map snd (fed false es)) ->
  pub_run sgn es (pub_init g1 g2) = Some p ->
  published_ti (p_ti p) /\ exists r, last_valid (fed false es) r /\ groups_are (p_ti p) r.
Proof.
  intros sgn g1 g2 es p G1 G2 B R. split; [exists sgn, g1, g2, es, p; auto|].
  destruct (pub_run_inv sgn g1 es [] (pub_init g1 g2) G1 B (pub_init_inv sgn _ _ G1 G2))
    as (p' & R' & _ & (_ & _ & H350) & r & Hl & Hs).
  rewrite R in R'. injection R' as <-. cbn [app] in Hl. exists r. split; [exact Hl|]. destruct r as [[t0 bodies]|]; cbn [shows groups_are] in *.
  - destruct Hs as (Ht & Hsz & R' & Hfr). unfold carries. split; [exact Hsz|]. split; [|eauto].
    destruct Hl as (h1 & h2 & _ & _ & (_ & G & _) & _). rewrite Hsz, Hfr.
    rewrite all_pairs_spec by (try apply content_stops; rewrite <- ?Hfr; auto). reflexivity.
  - exact Hs.
Qed.
Lemma heard_groups : forall fuel sgn b d0 acts es d os, start_ok b -> boot b = Some (d0, acts) ->
  Forall is_byte (map snd (heard false es)) -> drun fuel sgn es d0 = Done (d, os) ->
  published_ti (ti_of d) /\ exists r, last_valid (heard false es) r /\ groups_are (ti_of d) r.
Proof.
  intros fuel sgn b d0 acts es d os S E B H. destruct (boot_pub b d0 acts S E) as (P & _). destruct S as (_ & _ & _ & _ & _ & G1 & G2).
  assert (R := drun_pub _ _ _ _ _ _ H). rewrite P in R. rewrite <- fed_heard in B |- *.
  exact (pub_groups sgn (b_g1 b) (b_g2 b) _ _ G1 G2 B R).
Qed.

Lemma valid_content : forall h t0 bodies, last_valid h (Some (t0, bodies)) -> content bodies <> [].
Proof.
  intros h t0 bodies (h1 & h2 & _ & _ & (N & _ & _) & _). destruct bodies as [|b r]; [congruence|]. unfold content. cbn [map concat].
  destruct (kept_ends b) as (k & ->). destruct k; discriminate.
Qed.
Lemma dict_route : forall fuel a q d, q_uri q = str "/json" ->
  handle fuel a q d = send_json q d (fun _ => tic_get_json_dict (a_env a) (ti_of d)).
Proof. intros fuel a q d U. unfold handle. rewrite U. destruct (q_method q); reflexivity. Qed.
Lemma array_route : forall fuel a q d, q_uri q = str "/tinfo.json" ->
  handle fuel a q d = send_json q d (fun _ => tic_get_json_array (a_env a) (ti_of d)).
Proof. intros fuel a q d U. unfold handle. rewrite U. destruct (q_method q); reflexivity. Qed.
Lemma sent_json : forall q d get b, ~ refused q d -> (forall r, get r = Some b) -> b <> [] ->
  send_json q d get = Done (d, [Reply 200 Json b]).
Proof.
  intros q d get b R G N. assert (O : or_braces b = b) by (destruct b; [congruence|reflexivity]).
  unfold send_json, if_ok. destruct (get_auth (cfg_of d) q) eqn:A.
  - exfalso. apply R. unfold get_auth in A. unfold refused. destruct (text Username (cfg_of d)); [discriminate|].
    destruct (q_accepts q _ _); [destruct (q_forwarded q); discriminate|]. split; [discriminate|reflexivity].
  - rewrite G. cbn [lift]. rewrite O. reflexivity.
  - rewrite G. cbn [lift]. rewrite O. reflexivity.
Qed.
Lemma json_of_nonempty : forall b j, json_of b = Some j -> b <> [].
Proof. intros b j H ->. discriminate. Qed.

Lemma json_page : forall fuel a q d h r, published_ti (ti_of d) -> last_valid h r -> groups_are (ti_of d) r ->
  ~ refused q d -> q_uri q = str "/json" ->
  match r with
  | None => handle fuel a q d = Done (d, [Reply 200 Json (str "{}")])
  | Some (t0, bodies) => quotable (iso (a_env a) (tv_sec t0)) = true -> Forall json_ready (pairs_of (content bodies)) ->
      exists body, handle fuel a q d = Done (d, [Reply 200 Json body]) /\
        json_of body = Some (JObj ((str "timestamp", JStr (iso (a_env a) (tv_sec t0))) :: (str "seconds", JStr (seconds_text t0)) ::
          map (fun g => (fst g, json_value (snd g))) (pairs_of (content bodies))))
  end.
Proof.
  intros fuel a q d h r P L M R U. rewrite dict_route by exact U.
  destruct (c11 (a_env a) (ti_of d) None P) as (gs & body & C & J & Z & N). destruct r as [[t0 bodies]|]; cbn [groups_are] in M.
  - destruct M as (M1 & M2 & M3 & _). intros X2 X3. assert (X1 : content bodies <> []) by (eapply valid_content; eauto). exists body.
    assert (gs = pairs_of (content bodies)) by (eapply carries_unique; eauto). subst gs.
    assert (K := N ltac:(rewrite M1; destruct (content bodies); [congruence|discriminate])). rewrite M3 in K.
    specialize (K X2 I X3). cbn [app] in K. split; [|exact K]. apply sent_json; [exact R|intros _; exact J|]. eapply json_of_nonempty; eauto.
  - assert (body = str "{}").
    { unfold tic_get_json_dict_notif, is_empty in J. rewrite M in J. cbn [Nat.eqb] in J. injection J as <-. reflexivity. }
    subst body. apply sent_json; [exact R|intros _; exact J|discriminate].
Qed.
Lemma c56_json : forall fuel sgn b d0 acts es d os a q, start_ok b -> boot b = Some (d0, acts) ->
  Forall is_byte (map snd (heard false es)) -> drun fuel sgn es d0 = Done (d, os) ->
  ~ refused q d -> q_uri q = str "/json" ->
  exists r, last_valid (heard false es) r /\
    match r with
    | None => handle fuel a q d = Done (d, [Reply 200 Json (str "{}")])
    | Some (t0, bodies) => quotable (iso (a_env a) (tv_sec t0)) = true -> Forall json_ready (pairs_of (content bodies)) ->
        exists body, handle fuel a q d = Done (d, [Reply 200 Json body]) /\
          json_of body = Some (JObj ((str "timestamp", JStr (iso (a_env a) (tv_sec t0))) :: (str "seconds", JStr (seconds_text t0)) ::
            map (fun g => (fst g, json_value (snd g))) (pairs_of (content bodies))))
    end.
Proof.
  intros fuel sgn b d0 acts es d os a q S E B H R U.
  destruct (heard_groups _ _ _ _ _ _ _ _ S E B H) as (P & r & L & M). exists r. split; [exact L|]. eapply json_page; eauto.
Qed.
Lemma c56_array : forall fuel sgn b d0 acts es d os a q, start_ok b -> boot b = Some (d0, acts) ->
  Forall is_byte (map snd (heard false es)) -> drun fuel sgn es d0 = Done (d, os) ->
  ~ refused q d -> q_uri q = str "/tinfo.json" ->
  exists r, last_valid (heard false es) r /\
    match r with
    | None => handle fuel a q d = Done (d, [Reply 200 Json (str "[]")])
    | Some (t0, bodies) => quotable (iso (a_env a) (tv_sec t0)) = true ->
        Forall (fun g => quotable (fst g) = true /\ quotable (snd g) = true) (pairs_of (content bodies)) ->
        exists body w, handle fuel a q d = Done (d, [Reply 200 Json body]) /\ watt (ti_of d) 60 = Some w /\
          json_of body = Some (JArr (entry (str "timestamp") (JStr (iso (a_env a) (tv_sec t0))) :: entry (str "watt") (JNum (dec w)) ::
            map (fun g => entry (fst g) (JStr (snd g))) (pairs_of (content bodies))))
    end.
Proof.
  intros fuel sgn b d0 acts es d os a q S E B H R U. rewrite array_route by exact U.
  destruct (heard_groups _ _ _ _ _ _ _ _ S E B H) as (P & r & L & M). exists r. split; [exact L|].
  destruct (c12 (a_env a) (ti_of d) P) as (gs & w & body & C & W & J & Z & N). destruct r as [[t0 bodies]|].
  - destruct M as (M1 & M2 & M3 & _). intros X2 X3. assert (X1 : content bodies <> []) by (eapply valid_content; eauto). exists body, w.
    assert (gs = pairs_of (content bodies)) by (eapply carries_unique; eauto). subst gs.
    assert (K := N ltac:(rewrite M1; destruct (content bodies); [congruence|discriminate])). rewrite M3 in K.
    specialize (K X2 X3). split; [|auto]. apply sent_json; [exact R|intros _; exact J|]. eapply json_of_nonempty; eauto.
  - assert (body = str "[]").
    { unfold tic_get_json_array, is_empty in J. rewrite M in J. cbn [Nat.eqb] in J. injection J as <-. reflexivity. }
    subst body. apply sent_json; [exact R|intros _; exact J|discriminate].
Qed.

(** ** Uploads *)
Lemma has_prefix_iff : forall w s, has_prefix w s = true <-> exists b, s = w ++ b.
Proof.
  intros w s. unfold has_prefix. split.
  - intros H. apply beq_true in H. exists (skipn (length w) s). rewrite <- H at 1. symmetry. apply firstn_skipn.
  - intros (b & ->). rewrite firstn_app, Nat.sub_diag, firstn_all. cbn [firstn]. rewrite app_nil_r. apply beq_refl.
Qed.
Lemma contains_iff : forall w s, contains w s = true <-> exists a b, s = a ++ w ++ b.
Proof.
  intros w. induction s as [|c s IH]; cbn [contains]; rewrite orb_true_iff, has_prefix_iff.
  - split.
    + intros [(b & H)|H]; [|discriminate]. exists [], b. exact H.
    + intros (a & b & H). left. destruct a; [|discriminate]. exists b. exact H.
  - rewrite IH. split.
    + intros [(b & H)|(a & b & ->)]; [exists [], b; exact H|exists (c :: a), b; reflexivity].
    + intros ([|x a] & b & H); [left; exists b; exact H|]. injection H as -> ->. right. exists a, b. reflexivity.
Qed.
Lemma writes_run : forall fuel sgn (ws : list (around * list Z * bool)) d,
  drun fuel sgn (map (fun w => DUpload (fst (fst w)) (UpWrite (snd (fst w)) true (snd w))) ws) d =
  Done (d, map (fun w => [UpdateWrite (snd (fst w))]) ws).
Proof. intros fuel sgn. induction ws as [|w ws IH]; intros d; [reflexivity|]. cbn [map drun dstep handle_upload]. rewrite IH. reflexivity. Qed.
Lemma c60 : forall fuel sgn a name len e0 ws a2 ended d,
  exists d' os, drun fuel sgn (DUpload a (UpStart name len true e0) ::
      map (fun w => DUpload (fst (fst w)) (UpWrite (snd (fst w)) true (snd w))) ws ++ [DUpload a2 (UpEnd ended)]) d = Done (d', os) /\
    exists (to_fs : bool), (to_fs = true <-> exists x y, name = x ++ str "fs.bin" ++ y) /\
    concat os = UpdateBegin to_fs (if to_fs then a_fs_size a else len) :: map (fun w => UpdateWrite (snd (fst w))) ws ++
      [UpdateEnd true; Reply 200 Text (if ended then str "OK" else str "FAIL")] /\
    cfg_of d' = cfg_of d /\ d_upd d' = ended.
Proof.
  intros. cbn [drun dstep handle_upload fst snd]. rewrite drun_app, writes_run. cbn [drun dstep handle_upload update_finish].
  do 2 eexists. split; [reflexivity|]. exists (contains (str "fs.bin") name). split; [apply contains_iff|]. split; [|split; reflexivity].
  cbn [concat app]. rewrite concat_app. cbn [concat app]. f_equal. f_equal. clear. induction ws as [|w ws IH]; [reflexivity|]. cbn [map concat app]. now rewrite IH.
Qed.

(** ** Restarts *)
Lemma c59 : forall fuel sgn b d0 acts es1 a q es2 d os k, start_ok b -> boot b = Some (d0, acts) ->
  drun fuel sgn (es1 ++ DHttp a q :: es2) d0 = Done (d, os) -> k = length es1 ->
  exists d1 os1, drun fuel sgn es1 d0 = Done (d1, os1) /\
  (In RestartSoon (nth k os []) -> q_uri q = str "/update" /\ q_method q = POST /\ fully_allowed q d1 /\ just_updated (uploads es1)) /\
  (In RestartNow (nth k os []) -> q_uri q = str "/reset" /\ ~ refused q d1 \/ q_uri q = str "/factory_reset" /\ fully_allowed q d1) /\
  (In EraseSdk (nth k os []) -> q_uri q = str "/factory_reset" /\ fully_allowed q d1).
Proof.
  intros fuel sgn b d0 acts es1 a q es2 d os k S B H ->. rewrite drun_app in H. destruct (drun fuel sgn es1 d0) as [[d1 os1]| |] eqn:E1; try discriminate.
  cbn [drun dstep] in H. destruct (handle fuel a q d1) as [[d2 o]| |] eqn:E2; try discriminate.
  destruct (drun fuel sgn es2 d2) as [[d3 os3]| |] eqn:E3; try discriminate. injection H as <- <-.
  exists d1, os1. split; [reflexivity|].
  assert (N : nth (length es1) (os1 ++ o :: os3) [] = o).
  { rewrite app_nth2; rewrite (drun_length _ _ _ _ _ _ E1); [|lia]. rewrite Nat.sub_diag. reflexivity. }
  rewrite N. destruct (handle_restart _ _ _ _ _ _ E2) as (R1 & R2 & R3 & _). split; [|split; assumption].
  intros I. destruct (R1 I) as (U & M & F & X). repeat (split; [assumption|]).
  destruct (boot_pub b d0 acts S B) as (_ & _ & X0 & _). apply (upd_iff _ _ _ _ _ _ X0 E1). exact X.
Qed.
Lemma only_requests_restart : forall fuel sgn e d d' o, dstep fuel sgn e d = Done (d', o) ->
  In RestartSoon o \/ In RestartNow o \/ In EraseSdk o -> exists a q, e = DHttp a q.
Proof.
  intros fuel sgn e d d' o H I. destruct e as [a|a up tv c|a q|a u|up]; eauto; exfalso.
  - cbn [dstep] in H. destruct (cpuload_loop _ _); [|discriminate]. injection H as _ <-. cbn in I. tauto.
  - cbn [dstep] in H. destruct (receive sgn a up tv c d) as [[d1 o1]|] eqn:R; [|discriminate]. injection H as _ <-.
    assert (X : forall es x d2 o2, effects_out up es x = Some (d2, o2) -> Forall (fun y => match y with Sent _ _ | Streaming _ => True | _ => False end) o2).
    { clear. induction es as [|e es IH]; intros x d2 o2 H; cbn [effects_out] in H; [injection H as _ <-; constructor|].
      destruct (effect_out up e x) as [[y oy]|] eqn:E; [|discriminate]. destruct (effects_out up es y) as [[z oz]|] eqn:F; [|discriminate].
      injection H as _ <-. apply Forall_app. split; [|eauto]. destruct e; cbn [effect_out] in E.
      - injection E as _ <-. repeat constructor.
      - match type of E with context [handle_clients ?u ?v ?w] => destruct (handle_clients u v w) as [[s os]|]; [|discriminate] end. injection E as _ <-.
        apply Forall_forall. intros w Hw. apply in_map_iff in Hw. destruct Hw as (v & <- & _). exact I. }
    unfold receive in R. destruct (tic_decode sgn tv c (d_pub d)) as [[p f]|]; [|discriminate]. destruct f.
    + destruct (tic_notifs _ _ _ _ _ _ _) as [[[es n] t]|]; [|discriminate]. apply X in R. rewrite Forall_forall in R.
      destruct I as [I|[I|I]]; exact (R _ I).
    + injection R as _ <-. cbn in I. tauto.
  - cbn [dstep] in H. injection H as H. apply (f_equal snd) in H. cbn [snd] in H. subst o.
    assert (Y : Forall (fun y => match y with UpdateBegin _ _ | UpdateWrite _ | UpdateEnd _ | Reply _ _ _ => True | _ => False end) (snd (handle_upload a u d))).
    { destruct u as [n l [] e|x [] e|e|e]; cbn; repeat constructor. }
    rewrite Forall_forall in Y. destruct I as [I|[I|I]]; exact (Y _ I).
  - cbn [dstep] in H. destruct (handle_clients up None (d_sse d)) as [[s os]|]; [|discriminate]. injection H as _ <-.
    destruct I as [I|[I|I]]; apply in_map_iff in I; destruct I as (v & V & _); discriminate V.
Qed.
