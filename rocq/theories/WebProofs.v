(** Proofs about the web pages and the uploads. *)
From Coq Require Import ZArith List Bool Lia.
From Verif Require Import Base BaseFacts Teleinfo TeleinfoSpec Publish HistorySpec PublishProofs Config ConfigSpec Tic Pages PagesSpec Sse Web Device WebSpec.
Import ListNotations.
Open Scope Z_scope.

Lemma refused_no : forall q d, refused q d -> get_auth (cfg_of d) q = NoAccess.
Proof. intros q d [N A]. unfold get_auth. destruct (text Username (cfg_of d)); [congruence|]. rewrite A. reflexivity. Qed.
Lemma restricted_yes : forall q d, restricted q d -> get_auth (cfg_of d) q = Restricted.
Proof. intros q d (N & A & F). unfold get_auth. destruct (text Username (cfg_of d)); [congruence|]. rewrite A, F. reflexivity. Qed.
Lemma full_iff : forall q d, get_auth (cfg_of d) q = Full <-> fully_allowed q d.
Proof.
  intros q d. unfold get_auth, fully_allowed. destruct (text Username (cfg_of d)) as [|u r].
  - tauto.
  - destruct (q_accepts q (u :: r) (text Password (cfg_of d))); [destruct (q_forwarded q)|]; split; try discriminate; auto.
    + intros [H|[_ H]]; discriminate.
    + intros [H|[H _]]; discriminate.
Qed.

(** ** The not-found page *)
Lemma args_loop_rest : forall args k fuel m, (length args < 256)%nat -> (k <= length args)%nat -> (length args - k < fuel)%nat ->
  args_loop fuel (Z.of_nat k) args m = Some (m ++ concat (map arg_line (skipn k args))).
Proof.
  intros args k fuel. revert k. induction fuel as [|fuel IH]; intros k m L K F; [lia|].
  cbn [args_loop]. destruct (Z.ltb_spec (Z.of_nat k) (Z.of_nat (length args))) as [I|I].
  - replace (u8 (Z.of_nat k + 1)) with (Z.of_nat (S k)) by (unfold u8; rewrite Z.mod_small; lia).
    rewrite Nat2Z.id. rewrite IH by lia.
    assert (E : skipn k args = nth k args ([], []) :: skipn (S k) args).
    { assert (K' : (k < length args)%nat) by lia. clear - K'. revert args K'.
      induction k as [|k IH]; intros [|x args] K; cbn in K; try lia; [reflexivity|]. cbn [skipn nth]. apply IH. lia. }
    rewrite E. cbn [map concat]. rewrite <- app_assoc. reflexivity.
  - rewrite skipn_all2 by lia. cbn. rewrite app_nil_r. reflexivity.
Qed.
Lemma args_loop_all : forall args fuel m, (length args < 256)%nat -> (256 <= fuel)%nat ->
  args_loop fuel 0 args m = Some (m ++ concat (map arg_line args)).
Proof. intros args fuel m L F. change 0 with (Z.of_nat 0). rewrite args_loop_rest by lia. reflexivity. Qed.
(** 256 arguments or more: the counter never reaches the number of arguments. *)
Lemma args_loop_never : forall args fuel i m, (256 <= length args)%nat -> 0 <= i < 256 -> args_loop fuel i args m = None.
Proof.
  intros args fuel. induction fuel as [|fuel IH]; intros i m L I; [reflexivity|]. cbn [args_loop].
  destruct (Z.ltb_spec i (Z.of_nat (length args))) as [J|J]; [|lia]. apply IH; auto. apply Z.mod_pos_bound. lia.
Qed.
Lemma not_found_text_eq : forall q, not_found_head q ++ concat (map arg_line (q_args q)) = not_found_text q.
Proof.
  intros q. unfold not_found_head, not_found_text, method_name.
  replace (map arg_line (q_args q)) with (map (fun a => [32] ++ fst a ++ [58; 32] ++ snd a ++ [10]) (q_args q)).
  - repeat rewrite <- app_assoc. destruct (q_method q); reflexivity.
  - apply map_ext. intros a. unfold arg_line. reflexivity.
Qed.

(** Which handler is called. *)
Lemma beq_true : forall a b, beq a b = true -> a = b.
Proof. intros. apply beq_eq. auto. Qed.
Lemma find_route_none : forall m uri, ~ In uri page_uris -> find_route routes m uri = None.
Proof.
  intros m uri N.
  assert (forall rs, (forall w u h, In (w, u, h) rs -> In u page_uris) -> find_route rs m uri = None) as K.
  { induction rs as [|[[w u] h] rs IH]; intros H; [reflexivity|]. cbn [find_route].
    destruct (beq u uri) eqn:E.
    - apply beq_true in E. subst u. exfalso. apply N. eapply H. left. reflexivity.
    - rewrite andb_false_r. apply IH. intros w' u' h' I. eapply H. right. exact I. }
  apply K. intros w u h I. unfold routes in I. unfold page_uris.
  repeat (destruct I as [I|I]; [injection I as <- <- <-; cbn [In]; tauto|]). destruct I.
Qed.
Lemma static_none : forall a q, a_site a (q_uri q) = None -> a_site a (q_uri q ++ str ".gz") = None -> static_file a q = None.
Proof. intros a q N G. unfold static_file. rewrite N, G. destruct (_ && _); reflexivity. Qed.
Lemma handle_unknown : forall fuel a q d, no_such_page a q -> handle fuel a q d = not_found fuel a q d.
Proof. intros fuel a q d (N & F & G). unfold handle. rewrite find_route_none by auto. rewrite static_none; auto. Qed.

(** C35 *)
Lemma c35 : forall fuel a q d, no_such_page a q -> (length (q_args q) < 256)%nat -> (256 <= fuel)%nat ->
  q_accepts q (text Username (cfg_of d)) (text Password (cfg_of d)) = false ->
  handle fuel a q d = Done (d, [Reply 404 Text (not_found_text q)]).
Proof.
  intros fuel a q d N L F A. rewrite handle_unknown by auto. unfold not_found. rewrite A.
  rewrite args_loop_all by auto. rewrite not_found_text_eq. reflexivity.
Qed.
Lemma c35_never : forall fuel a q d, no_such_page a q -> (256 <= length (q_args q))%nat ->
  q_accepts q (text Username (cfg_of d)) (text Password (cfg_of d)) = false ->
  handle fuel a q d = OutOfFuel.
Proof.
  intros fuel a q d N L A. rewrite handle_unknown by auto. unfold not_found. rewrite A. rewrite args_loop_never by (auto; lia). reflexivity.
Qed.

(** ** C32 *)
Lemma c32 : forall fuel a1 a2 q d1 d2, refused q d1 -> refused q d2 -> same_site a1 a2 ->
  (length (q_args q) < 256)%nat -> (256 <= fuel)%nat ->
  exists os, handle fuel a1 q d1 = Done (d1, os) /\ handle fuel a2 q d2 = Done (d2, os) /\ Forall only_response os.
Proof.
  intros fuel a1 a2 q d1 d2 R1 R2 S L F.
  assert (N1 := refused_no _ _ R1). assert (N2 := refused_no _ _ R2). unfold handle.
  destruct (find_route routes (q_method q) (q_uri q)) as [h|].
  - assert (exists os, serve a1 q d1 h = Done (d1, os) /\ serve a2 q d2 h = Done (d2, os) /\ Forall only_response os); [|auto].
    destruct h; cbn [serve]; unfold send_json, if_ok, if_full; rewrite ?N1, ?N2;
      try (eexists; split; [reflexivity|]; split; [reflexivity|]; repeat constructor).
    rewrite <- S. eexists. split; [reflexivity|]. split; [reflexivity|]. constructor; [|constructor].
    destruct (a_site a1 (str "/version")); exact I.
  - assert (E : static_file a1 q = static_file a2 q) by (unfold static_file; rewrite !S; reflexivity). rewrite <- E.
    destruct (static_file a1 q) as [o|] eqn:G.
    + exists [o]. split; [reflexivity|]. split; [reflexivity|]. constructor; [|constructor].
      unfold static_file in G. destruct (_ && _); [|discriminate].
      destruct (a_site a1 (q_uri q)); [injection G as <-; exact I|].
      destruct (a_site a1 (q_uri q ++ str ".gz")); [injection G as <-; exact I|discriminate].
    + unfold not_found. rewrite (proj2 R1), (proj2 R2). rewrite args_loop_all by auto.
      eexists. split; [reflexivity|]. split; [reflexivity|]. repeat constructor.
Qed.

(** Any number of such requests: nothing changes. *)
Lemma c32_many : forall fuel sgn es d, (256 <= fuel)%nat ->
  Forall (fun e => exists a q, e = DHttp a q /\ refused q d /\ (length (q_args q) < 256)%nat) es ->
  exists os, drun fuel sgn es d = Done (d, os) /\ Forall (Forall only_response) os.
Proof.
  intros fuel sgn es d F. induction es as [|e es IH]; intros H.
  - exists []. split; [reflexivity|constructor].
  - apply Forall_cons_iff in H. destruct H as [(a & q & -> & R & L) H]. destruct (IH H) as (os & E & G).
    destruct (c32 fuel a a q d d R R (fun p => eq_refl) L F) as (o & E1 & _ & G1).
    exists (o :: os). cbn [drun dstep]. rewrite E1, E. split; [reflexivity|]. constructor; auto.
Qed.

(** ** C34 *)
Lemma cstr_clean : forall l, ~ In 0 l -> cstr l = l.
Proof.
  induction l as [|x l IH]; intros H; [reflexivity|]. cbn [cstr]. destruct (Z.eqb_spec x 0); [exfalso; apply H; left; auto|].
  rewrite IH; [reflexivity|]. intros I. apply H. right. exact I.
Qed.
Lemma cstr_slash : forall l, ~ In 0 l -> after_slash (47 :: l) = Some l.
Proof. intros l H. unfold after_slash. cbn [cstr Z.eqb]. rewrite cstr_clean by auto. reflexivity. Qed.

(** ** What a refused client receives *)
Ltac route := match goal with |- context [find_route routes ?m ?u] => let h := eval vm_compute in (find_route routes m u) in change (find_route routes m u) with h end.
Lemma c32_challenge : forall fuel a q d, refused q d -> In (q_uri q) protected_uris \/ q_uri q = str "/update" /\ q_method q <> OTHER ->
  handle fuel a q d = Done (d, [Reply 401 Html (str "Authentication Failed")]).
Proof.
  intros fuel a q d R U. apply refused_no in R. unfold handle. destruct U as [U|[U M]].
  - unfold protected_uris in U. cbn [In] in U.
    repeat (destruct U as [U|U]; [rewrite <- U; destruct (q_method q); route; cbn [serve]; unfold send_json, if_ok, if_full; rewrite R; reflexivity|]). destruct U.
  - rewrite U. destruct (q_method q); [| |congruence]; route; cbn [serve]; unfold if_full; rewrite R; reflexivity.
Qed.
