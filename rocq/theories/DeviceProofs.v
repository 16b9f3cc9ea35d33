(** Proofs about the whole module. *)
From Coq Require Import ZArith List Bool Lia.
From Verif Require Import Base BaseFacts Teleinfo TeleinfoSpec Publish HistorySpec PublishProofs Config ConfigSpec ConfigProofs ConfigMain ConfigHist Tic Pages PagesSpec Sse SseSpec SseProofs Cpu Web Wifi Device WebSpec WebProofs.
Import ListNotations.
Open Scope Z_scope.

(** ** What a request can do *)
Inductive happened (a : around) (q : hreq) (d d' : device) (os : list out) : Prop :=
| Nothing : d' = d -> (forall e, ~ In (Streaming e) os) -> happened a q d d' os
| Stream : In (q_uri q) [str "/sse/json"; str "/tic"] -> ~ refused q d ->
    d' = with_sse (fst (handle_sse_data (d_sse d))) d -> os = map sse_out (snd (handle_sse_data (d_sse d))) ->
    happened a q d d' os
| Formed : forall r s code, q_uri q = str "/config_form.json" -> get_auth (cfg_of d) q = (if r : bool then Restricted else Full) ->
    config_handle_form (a_flash a) r (q_args q) (d_cs d) = Some (s, code) ->
    d' = with_tm (tic_make_timers (a_now a) (c_cfg s) (d_tm d)) (with_cs s d) -> os = [Reply code Text (form_answer code)] ->
    happened a q d d' os
| Factory : forall s, q_uri q = str "/factory_reset" -> fully_allowed q d ->
    config_reset (chip_id (a_env a)) (a_flash a) (d_cs d) = Some s -> d' = with_cs s d ->
    os = [EraseSdk; Reply 200 Text (str "Reset"); RestartNow] -> happened a q d d' os.

Lemma find_route_uri : forall rs m uri h, find_route rs m uri = Some h -> exists w, In (w, uri, h) rs /\ method_fits w m = true.
Proof.
  induction rs as [|[[w u] k] rs IH]; intros m uri h H; [discriminate|]. cbn [find_route] in H.
  destruct (method_fits w m && beq u uri) eqn:E.
  - apply andb_true_iff in E. destruct E as [E1 E2]. apply beq_true in E2. injection H as <-. subst u. exists w. split; [left; reflexivity|auto].
  - destruct (IH _ _ _ H) as (w' & I & F). exists w'. split; [right; exact I|exact F].
Qed.
Lemma route_uri : forall m uri h, find_route routes m uri = Some h ->
  match h with
  | HStream => In uri [str "/sse/json"; str "/tic"]
  | HForm => uri = str "/config_form.json"
  | HFactory => uri = str "/factory_reset"
  | HReset => uri = str "/reset"
  | HUpdateDone => uri = str "/update" /\ m = POST
  | _ => True
  end.
Proof.
  intros m uri h H. apply find_route_uri in H. destruct H as (w & I & F). unfold routes in I.
  repeat (destruct I as [I|I]; [injection I as <- <- <-; cbn [In]; try tauto; try (destruct m; try discriminate; tauto)|]).
  destruct I.
Qed.
Lemma not_refused : forall q d, get_auth (cfg_of d) q <> NoAccess -> ~ refused q d.
Proof. intros q d H R. apply H. apply refused_no. exact R. Qed.

Lemma handle_read_file : forall site path o, handle_read site path = Some o -> exists p c, o = SendFile p c.
Proof.
  intros site path o H. unfold handle_read in H. destruct (site (path ++ str ".gz")); [injection H as <-; eauto|].
  destruct (site path); [injection H as <-; eauto|discriminate].
Qed.
Lemma handle_happened : forall fuel a q d d' os, handle fuel a q d = Done (d', os) -> happened a q d d' os.
Proof.
  intros fuel a q d d' os H. unfold handle in H. destruct (find_route routes (q_method q) (q_uri q)) as [h|] eqn:R.
  - apply route_uri in R. destruct h; cbn [serve] in H; unfold send_json, if_ok, if_full in H;
      (destruct (get_auth (cfg_of d) q) eqn:G;
       [try (injection H as <- <-; apply Nothing; [reflexivity|intros e [X|[]]; discriminate])| |]).
    all: try match type of H with lift ?x = _ => destruct x as [[d1 o1]|] eqn:L; [cbn [lift] in H; injection H as <- <-|discriminate] end.
    all: try match type of L with (match ?x with Some _ => _ | None => _ end) = _ => destruct x eqn:L1; [|discriminate]; injection L as <- <- end.
    all: try (apply Nothing; [reflexivity|intros e; cbn; intuition discriminate]).
    all: try (injection H as <- <-; apply Nothing; [reflexivity|intros e; cbn; intuition discriminate]).
    all: try (destruct (a_site a (str "/version")); injection H as <- <-; (apply Nothing; [reflexivity|intros e; cbn; intuition discriminate])).
    all: try (injection H as <- <-; apply Nothing; [reflexivity|intros e; destruct (d_upd d); cbn; intuition discriminate]).
    all: try (match type of H with context [handle_read ?x ?y] => destruct (handle_read x y) as [o|] eqn:L end;
       [apply handle_read_file in L; destruct L as (p & c & ->)|]; injection H as <- <-; apply Nothing; auto;
       intros e; cbn; intuition discriminate).
    all: try (unfold handle_sse in H; destruct (handle_sse_data (d_sse d)) as [s o] eqn:E; injection H as <- <-;
       apply Stream; [exact R|apply not_refused; congruence|rewrite E; reflexivity|rewrite E; reflexivity]).
    all: try (unfold handle_form in H;
       destruct (config_handle_form (a_flash a) _ (q_args q) (d_cs d)) as [[s code]|] eqn:E; [|discriminate];
       cbn [lift] in H; injection H as <- <-;
       first [eapply (Formed _ _ _ _ _ true); [exact R|exact G|exact E|reflexivity|reflexivity]
             |eapply (Formed _ _ _ _ _ false); [exact R|exact G|exact E|reflexivity|reflexivity]]).
    all: try (injection L as <- <-; apply Nothing; [reflexivity|intros e; cbn; intuition discriminate]).
            unfold factory_reset in H. destruct (config_reset (chip_id (a_env a)) (a_flash a) (d_cs d)) as [s|] eqn:E; [|discriminate].
    cbn [lift] in H. injection H as <- <-. eapply Factory; eauto. apply full_iff. exact G.
  - destruct (static_file a q) as [o|] eqn:S.
    + injection H as <- <-. apply Nothing; [reflexivity|]. intros e [X|[]]. subst o. unfold static_file in S.
      destruct (_ && _); [|discriminate]. destruct (a_site a (q_uri q)); [discriminate|].
      destruct (a_site a (q_uri q ++ str ".gz")); discriminate.
    + unfold not_found in H. destruct (if q_accepts _ _ _ then _ else _) as [[v|]|]; [| |discriminate].
      * injection H as <- <-. apply Nothing; [reflexivity|]. intros e [X|[]]; discriminate.
      * destruct (args_loop _ _ _ _); [|discriminate]. injection H as <- <-. apply Nothing; [reflexivity|]. intros e [X|[]]; discriminate.
Qed.

(** ** Runs *)
Lemma drun_app : forall fuel sgn es1 es2 d,
  drun fuel sgn (es1 ++ es2) d =
  match drun fuel sgn es1 d with
  | Done (d1, o1) => match drun fuel sgn es2 d1 with Done (d2, o2) => Done (d2, o1 ++ o2) | Undefined => Undefined | OutOfFuel => OutOfFuel end
  | Undefined => Undefined
  | OutOfFuel => OutOfFuel
  end.
Proof.
  intros fuel sgn. induction es1 as [|e es1 IH]; intros es2 d; cbn [app drun].
  - destruct (drun fuel sgn es2 d) as [[d2 o2]| |]; reflexivity.
  - destruct (dstep fuel sgn e d) as [[d1 o1]| |]; [|reflexivity|reflexivity]. rewrite IH.
    destruct (drun fuel sgn es1 d1) as [[d2 o2]| |]; [|reflexivity|reflexivity].
    destruct (drun fuel sgn es2 d2) as [[d3 o3]| |]; reflexivity.
Qed.
Lemma drun_snoc : forall fuel sgn es e d d' os, drun fuel sgn (es ++ [e]) d = Done (d', os) ->
  exists d1 os1 o, drun fuel sgn es d = Done (d1, os1) /\ dstep fuel sgn e d1 = Done (d', o) /\ os = os1 ++ [o].
Proof.
  intros fuel sgn es e d d' os H. rewrite drun_app in H. destruct (drun fuel sgn es d) as [[d1 os1]| |]; try discriminate.
  cbn [drun] in H. destruct (dstep fuel sgn e d1) as [[d2 o]| |] eqn:E; try discriminate. injection H as <- <-. exists d1, os1, o. repeat split; assumption || reflexivity.
Qed.
Lemma drun_length : forall fuel sgn es d d' os, drun fuel sgn es d = Done (d', os) -> length os = length es.
Proof.
  intros fuel sgn. induction es as [|e es IH]; intros d d' os H; cbn [drun] in H.
  - injection H as <- <-. reflexivity.
  - destruct (dstep fuel sgn e d) as [[d1 o]| |]; try discriminate.
    destruct (drun fuel sgn es d1) as [[d2 o2]| |] eqn:E; try discriminate. injection H as <- <-. cbn. erewrite IH; eauto.
Qed.

(** ** The receiver *)
Definition pauses (u : upload) : list pub_event :=
  if upload_over u then [Pause false] else match u with UpStart _ _ _ _ => [Pause true] | _ => [] end.
Definition as_pub (e : devent) : list pub_event :=
  match e with DByte _ _ tv c => [Byte tv c] | DUpload _ u => pauses u | _ => [] end.

Lemma effects_keep : forall up es d d' os, effects_out up es d = Some (d', os) ->
  d_pub d' = d_pub d /\ d_cs d' = d_cs d /\ d_upd d' = d_upd d /\ d_ns d' = d_ns d /\ d_tm d' = d_tm d.
Proof.
  intros up. induction es as [|e es IH]; intros d d' os H; cbn [effects_out] in H.
  - injection H as <- <-. auto 10.
  - destruct (effect_out up e d) as [[d1 o1]|] eqn:E; [|discriminate].
    destruct (effects_out up es d1) as [[d2 o2]|] eqn:E2; [|discriminate]. injection H as <- <-.
    destruct (IH _ _ _ E2) as (A & B & C & D & F). destruct e; cbn [effect_out] in E.
    + injection E as <- <-. auto 10.
    + destruct (handle_clients up (Some d0) (d_sse d)) as [[s o]|]; [|discriminate]. injection E as <- <-.
      cbn [with_sse d_pub d_cs d_upd d_ns d_tm] in *. auto 10.
Qed.
Lemma receive_keeps : forall sgn a up tv c d d' os, receive sgn a up tv c d = Some (d', os) ->
  (exists fresh, tic_decode sgn tv c (d_pub d) = Some (d_pub d', fresh)) /\ d_cs d' = d_cs d /\ d_upd d' = d_upd d.
Proof.
  intros sgn a up tv c d d' os H. unfold receive in H. destruct (tic_decode sgn tv c (d_pub d)) as [[p fresh]|]; [|discriminate].
  destruct fresh.
  - destruct (tic_notifs _ _ _ _ _ _ _) as [[[es n] t]|]; [|discriminate].
    destruct (effects_keep _ _ _ _ _ H) as (A & B & C & _). cbn [d_pub d_cs d_upd] in *. rewrite A, B, C. eauto.
  - injection H as <- <-. cbn. eauto.
Qed.
Lemma happened_pub : forall a q d d' os, happened a q d d' os -> d_pub d' = d_pub d /\ d_upd d' = d_upd d.
Proof. intros a q d d' os [-> _|_ _ -> _|r s code _ _ _ -> _|s _ _ _ -> _]; auto. Qed.

Lemma dstep_pub : forall fuel sgn e d d' os, dstep fuel sgn e d = Done (d', os) ->
  pub_run sgn (as_pub e) (d_pub d) = Some (d_pub d').
Proof.
  intros fuel sgn e d d' os H. destruct e; cbn [dstep as_pub] in *.
  - destruct (cpuload_loop _ _); [|discriminate]. cbn [lift] in H. injection H as <- <-. reflexivity.
  - destruct (receive sgn a up tv c d) as [[d1 o1]|] eqn:E; [|discriminate]. cbn [lift] in H. injection H as <- <-.
    apply receive_keeps in E. destruct E as ((fresh & E) & _). cbn [pub_run pub_step]. rewrite E. reflexivity.
  - apply handle_happened, happened_pub in H. destruct H as [-> _]. reflexivity.
  - injection H as H. destruct u as [name len [|] ended|data [|] ended|ended|ended]; cbn in H; injection H as <- <-;
      destruct d as [cs [dd ti pa] ns tm ss pf up]; reflexivity.
  - destruct (handle_clients up None (d_sse d)) as [[s o]|]; [|discriminate]. cbn [lift] in H. injection H as <- <-. reflexivity.
Qed.
Lemma pub_run_app : forall sgn es1 es2 p, pub_run sgn (es1 ++ es2) p = (p' <- pub_run sgn es1 p ;; pub_run sgn es2 p').
Proof. intros sgn. induction es1 as [|e es1 IH]; intros es2 p; cbn [app pub_run]; [reflexivity|]. destruct (pub_step sgn e p); auto. Qed.
Lemma drun_pub : forall fuel sgn es d d' os, drun fuel sgn es d = Done (d', os) ->
  pub_run sgn (flat_map as_pub es) (d_pub d) = Some (d_pub d').
Proof.
  intros fuel sgn. induction es as [|e es IH]; intros d d' os H; cbn [drun] in H.
  - injection H as <- <-. reflexivity.
  - destruct (dstep fuel sgn e d) as [[d1 o]| |] eqn:E; try discriminate.
    destruct (drun fuel sgn es d1) as [[d2 o2]| |] eqn:E2; try discriminate. injection H as <- <-.
    cbn [flat_map]. rewrite pub_run_app. rewrite (dstep_pub _ _ _ _ _ _ E). eauto.
Qed.
Lemma fed_heard : forall es off, fed off (flat_map as_pub es) = heard off es.
Proof.
  induction es as [|e es IH]; intros off; [reflexivity|]. destruct e; cbn [flat_map as_pub app fed heard]; auto.
  - destruct off; rewrite IH; reflexivity.
  - unfold pauses. destruct (upload_over u); [cbn [app fed]; apply IH|]. destruct u; cbn [app fed]; apply IH.
Qed.

(** ** Pauses: C51 *)
Lemma drun_pause : forall fuel sgn es d d' os, p_pause (d_pub d) = false -> drun fuel sgn es d = Done (d', os) ->
  (p_pause (d_pub d') = true <-> suspended (uploads es)).
Proof.
  intros fuel sgn es d. induction es as [|e es IH] using rev_ind; intros d' os P H.
  - injection H as <- <-. rewrite P. split; [discriminate|]. intros (b & n & l & en & a & E & _). destruct b; discriminate.
  - apply drun_snoc in H. destruct H as (d1 & os1 & o & H1 & H2 & ->). specialize (IH _ _ P H1).
    unfold uploads. rewrite flat_map_app. cbn [flat_map]. rewrite app_nil_r. fold (uploads es).
    assert (K : p_pause (d_pub d') = match e with DUpload _ u => if upload_over u then false else match u with UpStart _ _ _ _ => true | _ => p_pause (d_pub d1) end | _ => p_pause (d_pub d1) end).
    { assert (R := dstep_pub _ _ _ _ _ _ H2). destruct e; cbn [as_pub] in R.
      - injection R as <-. reflexivity.
      - cbn [pub_run pub_step] in R. destruct (tic_decode sgn tv c (d_pub d1)) as [[p f]|] eqn:T; [|discriminate].
        injection R as <-. unfold tic_decode in T. destruct (p_pause (d_pub d1)) eqn:Q.
        + injection T as <- <-. exact Q.
        + destruct (Teleinfo.put sgn tv c (p_dec (d_pub d1))) as [x|]; [|discriminate]. destruct (ready x).
          * destruct (copy_from _ _ _ _); [|discriminate]. injection T as <- <-. reflexivity.
          * injection T as <- <-. reflexivity.
      - injection R as <-. reflexivity.
      - unfold pauses in R. destruct (upload_over u); [cbn in R; injection R as <-; reflexivity|].
        destruct u; cbn in R; injection R as <-; reflexivity.
      - injection R as <-. reflexivity. }
    rewrite K. destruct e; try (rewrite app_nil_r; exact IH). clear K H2.
    destruct (upload_over u) eqn:V.
    + split; [discriminate|]. intros (b & n & l & en & af & E & F).
      destruct af as [|x af] using rev_ind.
      * apply app_inj_tail in E. destruct E as [_ ->]. discriminate.
      * rewrite app_comm_cons, app_assoc in E. apply app_inj_tail in E. destruct E as [_ ->].
        rewrite F in V; [discriminate|]. apply in_or_app. right. left. reflexivity.
    + destruct u as [n l ok en|dt ok en|en|en]; cbn [upload_over] in V; try discriminate V.
      * split; [|reflexivity]. intros _. destruct ok; [|discriminate]. exists (uploads es), n, l, en, []. split; [reflexivity|intros u []].
      * rewrite IH. split.
        -- intros (b & n & l & e0 & af & E & F). exists b, n, l, e0, (af ++ [UpWrite dt ok en]). split.
           ++ rewrite E, <- app_assoc. reflexivity.
           ++ intros u I. apply in_app_or in I. destruct I as [I|[<-|[]]]; auto.
        -- intros (b & n & l & e0 & af & E & F). destruct af as [|x af] using rev_ind.
           ++ apply app_inj_tail in E. destruct E as [_ E]. discriminate.
           ++ rewrite app_comm_cons, app_assoc in E. apply app_inj_tail in E. destruct E as [E _].
              exists b, n, l, e0, af. split; [exact E|]. intros u I. apply F. apply in_or_app. left. exact I.
Qed.
