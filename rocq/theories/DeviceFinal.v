(** The remaining lemmas about the whole module: streams, updates, labels, pages. *)
From Coq Require Import ZArith List Bool Lia.
From Verif Require Import Base BaseFacts Teleinfo TeleinfoSpec Publish HistorySpec PublishProofs Config ConfigSpec ConfigProofs ConfigMain ConfigHist
  Json JsonBuild JsonBuildFacts Tic TicSpec PageProofs Pages PagesSpec PagesProofs Sse SseSpec SseProofs Cpu Web Wifi Device WebSpec WebProofs
  DeviceProofs DeviceMain DeviceSafe.
Import ListNotations.
Open Scope Z_scope.

(** ** Streams: data are only sent to clients that were allowed when they asked *)
Lemma loop_to : forall up data l heap l' h o, handle_loop up data l heap = Some (l', h, o) ->
  (forall id, In id l' -> In id l) /\ (forall id text, In (SentTo id text) o -> In id l) /\ (forall id, ~ In (Opened id) o).
Proof.
  intros up data. induction l as [|x l IH]; intros heap l' h o H; cbn [handle_loop] in H.
  - injection H as <- <- <-. cbn. tauto.
  - destruct (existsb (Nat.eqb x) heap); [|discriminate]. destruct (up x).
    + destruct (handle_loop up data l heap) as [[[r' h'] o']|] eqn:E; [|discriminate]. injection H as <- <- <-.
      destruct (IH _ _ _ _ E) as (A & B & C). repeat split.
      * intros id [->|I]; [left|right]; auto.
      * intros id t I. destruct data; [destruct I as [I|I]; [injection I as -> _; left; auto|right; eauto]|right; eauto].
      * intros id I. destruct data; [destruct I as [I|I]; [discriminate|eapply C; eauto]|eapply C; eauto].
    + destruct (delete x heap) as [heap'|]; [|discriminate].
      destruct (handle_loop up data l heap') as [[[r' h'] o']|] eqn:E; [|discriminate]. injection H as <- <- <-.
      destruct (IH _ _ _ _ E) as (A & B & C). repeat split.
      * intros id I. right. auto.
      * intros id t [I|I]; [discriminate|right; eauto].
      * intros id [I|I]; [discriminate|eapply C; eauto].
Qed.
Lemma clients_to : forall up data s s' o, handle_clients up data s = Some (s', o) ->
  (forall id, In id (sse_list s') -> In id (sse_list s)) /\ (forall id text, In (SentTo id text) o -> In id (sse_list s)).
Proof.
  intros up data s s' o H. unfold handle_clients in H. destruct (sse_list s) as [|x l] eqn:E.
  - injection H as <- <-. rewrite E. cbn. auto.
  - destruct (handle_loop up data (x :: l) (sse_heap s)) as [[[l' h] o']|] eqn:F; [|discriminate]. injection H as <- <-.
    destruct (loop_to _ _ _ _ _ _ _ F) as (A & B & _). cbn [sse_list]. auto.
Qed.
Lemma in_streaming : forall e o, In (Streaming e) (map Streaming o) -> In e o.
Proof. intros e o H. apply in_map_iff in H. destruct H as (x & E & I). injection E as <-. exact I. Qed.
Lemma effects_to : forall up es d d' os, effects_out up es d = Some (d', os) ->
  (forall id, In id (sse_list (d_sse d')) -> In id (sse_list (d_sse d))) /\
  (forall id text, In (Streaming (SentTo id text)) os -> In id (sse_list (d_sse d))).
Proof.
  intros up. induction es as [|e es IH]; intros d d' os H; cbn [effects_out] in H.
  - injection H as <- <-. cbn. tauto.
  - destruct (effect_out up e d) as [[d1 o1]|] eqn:E; [|discriminate].
    destruct (effects_out up es d1) as [[d2 o2]|] eqn:E2; [|discriminate]. injection H as <- <-.
    destruct (IH _ _ _ E2) as (A & B). destruct e as [w r|dt]; cbn [effect_out] in E.
    + injection E as <- <-. split; [exact A|]. intros id t [I|I]; [discriminate|eauto].
    + destruct (handle_clients up (Some dt) (d_sse d)) as [[s o]|] eqn:F; [|discriminate]. injection E as <- <-.
      destruct (clients_to _ _ _ _ _ F) as (P & Q). cbn [with_sse d_sse] in *. split; [auto|].
      intros id t I. apply in_app_or in I. destruct I as [I|I]; [apply in_streaming in I; eauto|eauto].
Qed.
(** A client of the list after a step was there before, or has just been accepted; data go to clients of the list. *)
Lemma dstep_to : forall fuel sgn e d d' os, dstep fuel sgn e d = Done (d', os) ->
  (forall id, In id (sse_list (d_sse d')) -> In id (sse_list (d_sse d)) \/
     exists a q, e = DHttp a q /\ ~ refused q d /\ In (q_uri q) [str "/sse/json"; str "/tic"] /\ In (Streaming (Opened id)) os) /\
  (forall id text, In (Streaming (SentTo id text)) os -> In id (sse_list (d_sse d))).
Proof.
  intros fuel sgn e d d' os H. destruct e; cbn [dstep] in H.
  - destruct (cpuload_loop _ _); [|discriminate]. cbn [lift] in H. injection H as <- <-. cbn. tauto.
  - destruct (receive sgn a up tv c d) as [[d1 o1]|] eqn:E; [|discriminate]. cbn [lift] in H. injection H as <- <-.
    unfold receive in E. destruct (tic_decode sgn tv c (d_pub d)) as [[p fresh]|]; [|discriminate]. destruct fresh.
    + destruct (tic_notifs _ _ _ _ _ _ _) as [[[es n] t]|]; [|discriminate].
      destruct (effects_to _ _ _ _ _ E) as (A & B). cbn [d_sse] in *. auto.
    + injection E as <- <-. cbn. tauto.
  - apply handle_happened in H.
    destruct H as [-> N|U R -> ->|r s code U G F -> ->|s U G F -> ->].
    + split; [auto|]. intros id t I. destruct (N _ I).
    + unfold handle_sse_data. destruct (Nat.ltb (length (sse_list (d_sse d))) 2); cbn [fst snd with_sse d_sse sse_list map sse_out]; split.
      * intros id I. apply in_app_or in I. destruct I as [I|[<-|[]]]; [auto|right]. exists a, q. repeat split; auto. left. reflexivity.
      * intros id t [I|[]]. discriminate.
      * auto.
      * intros id t [I|[]]. discriminate.
    + cbn [with_tm with_cs d_sse]. split; [auto|]. intros id t [I|[]]. discriminate.
    + cbn [with_cs d_sse]. split; [auto|]. intros id t. cbn. intuition discriminate.
  - injection H as H. destruct (upload_keeps a u d) as (_ & U & N & _). rewrite H in U, N. cbn [fst snd] in *. rewrite U. split; [auto|].
    intros id t I. destruct (N _ I).
  - destruct (handle_clients up None (d_sse d)) as [[s o]|] eqn:E; [|discriminate]. cbn [lift] in H. injection H as <- <-.
    destruct (clients_to _ _ _ _ _ E) as (A & B). cbn [with_sse d_sse]. split; [auto|]. intros id t I. apply in_streaming in I. eauto.
Qed.

(** Client [id] was accepted during event [j] of [es]. *)
Definition accepted (fuel : nat) (sgn : bool) (d0 : device) (es : list devent) (id j : nat) : Prop :=
  exists a q dj osj, nth_error es j = Some (DHttp a q) /\ drun fuel sgn (firstn j es) d0 = Done (dj, osj) /\
    ~ refused q dj /\ In (q_uri q) [str "/sse/json"; str "/tic"].
Lemma accepted_app : forall fuel sgn d0 es e id j, accepted fuel sgn d0 es id j -> accepted fuel sgn d0 (es ++ [e]) id j.
Proof.
  intros fuel sgn d0 es e id j (a & q & dj & osj & N & R & A & B).
  assert (L : (j < length es)%nat) by (apply nth_error_Some; congruence).
  exists a, q, dj, osj. repeat split; auto.
  - rewrite nth_error_app1 by exact L. exact N.
  - rewrite firstn_app. replace (j - length es)%nat with 0%nat by lia. rewrite firstn_O, app_nil_r. exact R.
Qed.
Lemma listed_accepted : forall fuel sgn d0 es d os, sse_list (d_sse d0) = [] -> drun fuel sgn es d0 = Done (d, os) ->
  forall id, In id (sse_list (d_sse d)) -> exists j, (j < length es)%nat /\ accepted fuel sgn d0 es id j /\ In (Streaming (Opened id)) (nth j os []).
Proof.
  intros fuel sgn d0 es. induction es as [|e es IH] using rev_ind; intros d os Z0 H id I.
  - injection H as <- <-. rewrite Z0 in I. destruct I.
  - apply drun_snoc in H. destruct H as (d1 & os1 & o & H1 & H2 & ->). assert (L := drun_length _ _ _ _ _ _ H1).
    destruct (dstep_to _ _ _ _ _ _ H2) as (A & _). destruct (A id I) as [J|(a & q & -> & R & U & O)].
    + destruct (IH _ _ Z0 H1 id J) as (j & Lj & Aj & Oj). exists j. split; [rewrite app_length; lia|].
      split; [apply accepted_app; auto|]. rewrite app_nth1 by lia. exact Oj.
    + exists (length es). split; [rewrite app_length; cbn; lia|]. split.
      * exists a, q, d1, os1. repeat split; auto.
        -- rewrite nth_error_app2 by lia. rewrite Nat.sub_diag. reflexivity.
        -- rewrite firstn_app, firstn_all, Nat.sub_diag. cbn [firstn]. rewrite app_nil_r. exact H1.
      * rewrite app_nth2 by lia. rewrite L, Nat.sub_diag. exact O.
Qed.
Lemma c58 : forall fuel sgn d0 es d os k id text, sse_list (d_sse d0) = [] -> drun fuel sgn es d0 = Done (d, os) ->
  In (Streaming (SentTo id text)) (nth k os []) ->
  exists j a q dj osj, (j < k)%nat /\ nth_error es j = Some (DHttp a q) /\ drun fuel sgn (firstn j es) d0 = Done (dj, osj) /\
    ~ refused q dj /\ In (q_uri q) [str "/sse/json"; str "/tic"] /\ In (Streaming (Opened id)) (nth j os []).
Proof.
  intros fuel sgn d0 es. induction es as [|e es IH] using rev_ind; intros d os k id text Z0 H I.
  - injection H as <- <-. destruct k; destruct I.
  - apply drun_snoc in H. destruct H as (d1 & os1 & o & H1 & H2 & ->). assert (L := drun_length _ _ _ _ _ _ H1).
    assert (X : exists j, (j < k)%nat /\ (j < length es)%nat /\ accepted fuel sgn d0 es id j /\ In (Streaming (Opened id)) (nth j os1 [])).
    { destruct (Nat.lt_ge_cases k (length os1)) as [K|K].
      - rewrite app_nth1 in I by exact K. destruct (IH _ _ k id text Z0 H1 I) as (j & a & q & dj & osj & J & N & R & A & B & O).
        exists j. split; [exact J|]. split; [lia|]. split; [exists a, q, dj, osj; auto|exact O].
      - rewrite app_nth2 in I by lia. destruct (k - length os1)%nat as [|m] eqn:M.
        + cbn [nth] in I. destruct (dstep_to _ _ _ _ _ _ H2) as (_ & B). specialize (B _ _ I).
          destruct (listed_accepted _ _ _ _ _ _ Z0 H1 id B) as (j & Lj & Aj & Oj). exists j. split; [lia|auto].
        + cbn [nth] in I. destruct m; destruct I. }
    destruct X as (j & J & Lj & Aj & Oj). apply (accepted_app _ _ _ _ e) in Aj. destruct Aj as (a & q & dj & osj & N & R & A & B).
    exists j, a, q, dj, osj. repeat split; auto. rewrite app_nth1 by lia. exact Oj.
Qed.

(** ** Updates *)
Definition end_of (u : upload) : bool := match u with UpStart _ _ _ e | UpWrite _ _ e | UpEnd e | UpAborted e => e end.
Lemma upload_upd : forall a u d, d_upd (fst (handle_upload a u d)) =
  if upload_over u then end_of u else match u with UpStart _ _ _ _ => false | _ => d_upd d end.
Proof. intros a u d. destruct u as [n l [|] en|dt [|] en|en|en]; reflexivity. Qed.
Lemma dstep_upd : forall fuel sgn e d d' os, dstep fuel sgn e d = Done (d', os) ->
  d_upd d' = match e with DUpload _ u => if upload_over u then end_of u else match u with UpStart _ _ _ _ => false | _ => d_upd d end | _ => d_upd d end.
Proof.
  intros fuel sgn e d d' os H. destruct e; cbn [dstep] in H.
  - destruct (cpuload_loop _ _); [|discriminate]. cbn [lift] in H. injection H as <- <-. reflexivity.
  - destruct (receive sgn a up tv c d) as [[d1 o1]|] eqn:E; [|discriminate]. cbn [lift] in H. injection H as <- <-.
    apply receive_keeps in E. apply E.
  - apply handle_happened, happened_pub in H. apply H.
  - injection H as H. rewrite <- (upload_upd a u d), H. reflexivity.
  - destruct (handle_clients up None (d_sse d)) as [[s o]|]; [|discriminate]. cbn [lift] in H. injection H as <- <-. reflexivity.
Qed.
Lemma upd_iff : forall fuel sgn es d d' os, d_upd d = false -> drun fuel sgn es d = Done (d', os) ->
  (d_upd d' = true <-> just_updated (uploads es)).
Proof.
  intros fuel sgn es d. induction es as [|e es IH] using rev_ind; intros d' os Z0 H.
  - injection H as <- <-. rewrite Z0. split; [discriminate|]. intros (b & u & a & E & _). destruct b; discriminate.
  - apply drun_snoc in H. destruct H as (d1 & os1 & o & H1 & H2 & ->). specialize (IH _ _ Z0 H1).
    unfold uploads. rewrite flat_map_app. cbn [flat_map]. rewrite app_nil_r. fold (uploads es).
    rewrite (dstep_upd _ _ _ _ _ _ H2). destruct e; try (rewrite app_nil_r; exact IH). clear H2.
    assert (E : forall b v af, uploads es ++ [u] = b ++ v :: af -> (af = [] /\ b = uploads es /\ v = u) \/ exists af', af = af' ++ [u] /\ uploads es = b ++ v :: af').
    { intros b v af E. destruct af as [|x af] using rev_ind; [left|right].
      - apply app_inj_tail in E. destruct E as [-> ->]. auto.
      - rewrite app_comm_cons, app_assoc in E. apply app_inj_tail in E. destruct E as [-> ->]. eauto. }
    destruct (upload_over u) eqn:V.
    + split.
      * intros W. exists (uploads es), u, []. split; [reflexivity|]. split; [exact V|]. split; [destruct u; exact W|intros x []].
      * intros (b & v & af & X & Y & W & Q). destruct (E _ _ _ X) as [(-> & -> & ->)|(af' & -> & _)].
        -- destruct u; exact W.
        -- destruct (Q u) as (dt & en & ->); [apply in_or_app; right; left; reflexivity|]. discriminate.
    + destruct u as [n l ok en|dt ok en|en|en]; cbn [upload_over] in V; try discriminate V.
      * split; [discriminate|]. intros (b & v & af & X & Y & W & Q). destruct (E _ _ _ X) as [(-> & -> & ->)|(af' & -> & _)].
        -- cbn [upload_over] in Y. congruence.
        -- destruct (Q (UpStart n l ok en)) as (dt & en' & Z); [apply in_or_app; right; left; reflexivity|]. discriminate.
      * destruct ok; [|discriminate]. rewrite IH. split.
        -- intros (b & v & af & X & Y & W & Q). exists b, v, (af ++ [UpWrite dt true en]). split; [rewrite X, <- app_assoc; reflexivity|].
           split; [exact Y|]. split; [exact W|]. intros x I. apply in_app_or in I. destruct I as [I|[<-|[]]]; eauto.
        -- intros (b & v & af & X & Y & W & Q). destruct (E _ _ _ X) as [(-> & -> & ->)|(af' & -> & X')].
           ++ discriminate.
           ++ exists b, v, af'. split; [exact X'|]. split; [exact Y|]. split; [exact W|]. intros x I. apply Q. apply in_or_app. left. exact I.
Qed.

(** ** Labels: C34 *)
Lemma c34 : forall fuel a q d label, published_ti (ti_of d) ->
  q_accepts q (text Username (cfg_of d)) (text Password (cfg_of d)) = true ->
  q_uri q = 47 :: label -> ~ In 0 label -> no_such_page a q -> ~ In label [str "watt"; str "seconds"; str "timestamp"] ->
  (length (q_args q) < 256)%nat -> (256 <= fuel)%nat ->
  exists gs, carries (ti_of d) gs /\
    handle fuel a q d = Done (d, [match lookup label gs with
                                  | Some v => Reply 200 Text (trim_number v)
                                  | None => Reply 404 Text (not_found_text q)
                                  end]).
Proof.
  intros fuel a q d label P A U Z N S L F. destruct (published_facts _ P) as (gs & w & C & G & W & _ & V). exists gs. split; [exact C|].
  rewrite handle_unknown by exact N. unfold not_found. rewrite A, U. unfold after_slash. rewrite cstr_clean by (intros [X|X]; [discriminate|auto]).
  unfold tic_get_value.
  assert (Q : forall s, beq label s = true -> In s [str "watt"; str "seconds"; str "timestamp"] -> False).
  { intros s E I. apply beq_true in E. subst s. contradiction. }
  destruct (beq label (str "watt")) eqn:Q1; [exfalso; eapply Q; [exact Q1|cbn [In]; auto]|].
  destruct (beq label (str "seconds")) eqn:Q2; [exfalso; eapply Q; [exact Q2|cbn [In]; auto]|].
  destruct (beq label (str "timestamp")) eqn:Q3; [exfalso; eapply Q; [exact Q3|cbn [In]; auto]|].
  rewrite (proj2 (V label)). destruct (lookup label gs); cbn [option_map]; [reflexivity|].
  rewrite args_loop_all by auto. rewrite not_found_text_eq. reflexivity.
Qed.
Lemma c34_special : forall fuel a q d name, published_ti (ti_of d) ->
  q_accepts q (text Username (cfg_of d)) (text Password (cfg_of d)) = true ->
  In name [str "watt"; str "seconds"; str "timestamp"] -> q_uri q = 47 :: name -> no_such_page a q ->
  exists w, watt (ti_of d) 60 = Some w /\
    handle fuel a q d = Done (d, [Reply 200 Text
      (if beq name (str "watt") then dec w
       else if beq name (str "seconds") then seconds_text (t_ts (ti_of d))
       else iso (a_env a) (tv_sec (t_ts (ti_of d))))]).
Proof.
  intros fuel a q d name P A I U N. destruct (published_facts _ P) as (gs & w & C & G & W & _ & V). exists w. split; [exact W|].
  rewrite handle_unknown by exact N. unfold not_found. rewrite A, U. destruct I as [<-|[<-|[<-|[]]]].
  - change (after_slash (47 :: str "watt")) with (Some (str "watt")). cbn iota. unfold tic_get_value.
    change (beq (str "watt") (str "watt")) with true. cbn iota. rewrite W. reflexivity.
  - change (after_slash (47 :: str "seconds")) with (Some (str "seconds")). cbn iota. unfold tic_get_value.
    change (beq (str "seconds") (str "watt")) with false. change (beq (str "seconds") (str "seconds")) with true. cbn iota. reflexivity.
  - change (after_slash (47 :: str "timestamp")) with (Some (str "timestamp")). cbn iota. unfold tic_get_value.
    change (beq (str "timestamp") (str "watt")) with false. change (beq (str "timestamp") (str "seconds")) with false.
    change (beq (str "timestamp") (str "timestamp")) with true. cbn iota. reflexivity.
Qed.

(** ** From the bytes received to the page *)
Lemma boot_pub : forall b d0 acts, start_ok b -> boot b = Some (d0, acts) ->
  d_pub d0 = pub_init (b_g1 b) (b_g2 b) /\ d_sse d0 = sse_init /\ d_upd d0 = false /\ reachable (d_cs d0).
Proof.
  intros b d0 acts S E. destruct (boot_ok b S) as (d & acts' & E' & R & A & B & C & _). rewrite E in E'. injection E' as <- _. auto.
Qed.
Lemma heard_last : forall fuel sgn b d0 acts es d os, start_ok b -> boot b = Some (d0, acts) ->
  Forall is_byte (map snd (heard false es)) -> drun fuel sgn es d0 = Done (d, os) ->
  published_ti (ti_of d) /\
  exists r, last_valid (heard false es) r /\
    match r with
    | None => published (d_pub d) = []
    | Some (t0, bodies) => published (d_pub d) = content bodies /\ t_ts (ti_of d) = t0
    end.
Proof.
  intros fuel sgn b d0 acts es d os S E B H. destruct (boot_pub b d0 acts S E) as (P & _). destruct S as (_ & _ & _ & _ & _ & G1 & G2).
  assert (R := drun_pub _ _ _ _ _ _ H). rewrite P in R. rewrite <- fed_heard in B |- *.
  split; [exists sgn, (b_g1 b), (b_g2 b), (flat_map as_pub es), (d_pub d); auto|].
  destruct (published_last sgn (b_g1 b) (b_g2 b) (flat_map as_pub es) G1 G2 B) as (p & r & R' & L & M).
  rewrite R in R'. injection R' as <-. exists r. auto.
Qed.
