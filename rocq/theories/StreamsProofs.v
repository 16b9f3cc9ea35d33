(** Proofs for C97. *)
From Coq Require Import ZArith List Bool Lia.
From Verif Require Import Base Sse SseSpec SseProofs Streams StreamsSpec.
Import ListNotations.
Open Scope Z_scope.

Record Inv (w : world) : Prop := {
  i_sse : sse_ok (w_sse w);
  i_live : forall p id, w_page w p = Live id -> In id (sse_list (w_sse w)) /\ w_owner w id = p }.

Lemma put_same : forall A (f : nat -> A) n v, put f n v n = v.
Proof. intros. unfold put. now rewrite Nat.eqb_refl. Qed.
Lemma put_other : forall A (f : nat -> A) n v m, m <> n -> put f n v m = f m.
Proof. intros. unfold put. destruct (Nat.eqb_spec m n); congruence. Qed.

Lemma in_use_iff : forall w id, in_use w id = true <-> w_page w (w_owner w id) = Live id.
Proof.
  intros. unfold in_use. destruct (w_page w (w_owner w id)) as [| |i|]; split; try discriminate.
  - intros E. apply Nat.eqb_eq in E. now subst.
  - intros E. injection E as ->. apply Nat.eqb_refl.
Qed.

Lemma handled_eq : forall late data w, sse_ok (w_sse w) ->
  handled late data w = Some (mk_world (mk_sse (filter (up_of w late) (sse_list (w_sse w)))
      (keep (up_of w late) (sse_list (w_sse w)) (sse_heap (w_sse w))) (sse_next (w_sse w))) (w_page w) (w_owner w),
    received w (pass (up_of w late) data (sse_list (w_sse w)))).
Proof. intros late data w H. unfold handled. rewrite handle_clients_spec by exact H. reflexivity. Qed.

Lemma messages_app : forall p a b, messages p (a ++ b) = messages p a ++ messages p b.
Proof. intros. unfold messages. now rewrite filter_app, map_app. Qed.
Lemma received_app : forall w a b, received w (a ++ b) = received w a ++ received w b.
Proof. intros. apply flat_map_app. Qed.
Lemma received_none : forall w up l, received w (pass up None l) = [].
Proof.
  intros w up. induction l as [|x l IH]; auto. rewrite pass_cons, received_app, IH. destruct (up x); reflexivity.
Qed.
Lemma event_single : forall d, single_line d -> events_of (event_text d) = [d].
Proof.
  intros d H. pose proof (events_stream [d]) as E. cbn [map concat] in E. rewrite app_nil_r in E. apply E. constructor; auto.
Qed.

Definition got (w : world) (p : nat) (d : list Z) (l : list nat) : list (list Z) :=
  match w_page w p with Live id => if existsb (Nat.eqb id) l then [d] else [] | _ => [] end.
Lemma messages_pass : forall w late p d, Inv w -> single_line d -> forall l, NoDup l ->
  messages p (received w (pass (up_of w late) (Some d) l)) = got w p d l.
Proof.
  intros w late p d H S. induction l as [|x l IH]; intros N.
  - unfold got. destruct (w_page w p); reflexivity.
  - inversion N as [|? ? NI N']; subst. rewrite pass_cons, received_app, messages_app, IH by exact N'. clear IH.
    assert (G : messages p (received w (if up_of w late x then [SentTo x (event_text d)] else [Closed x])) =
                if in_use w x && Nat.eqb (w_owner w x) p then [d] else []).
    { unfold up_of. destruct (in_use w x) eqn:U; cbn [orb andb].
      - cbn [received flat_map]. rewrite U, event_single by exact S. cbn [map app messages filter fst].
        unfold messages. cbn [filter fst]. destruct (Nat.eqb (w_owner w x) p); reflexivity.
      - destruct (late x); cbn [received flat_map]; [rewrite U|]; reflexivity. }
    rewrite G. unfold got.
    destruct (in_use w x && Nat.eqb (w_owner w x) p) eqn:B.
    + apply andb_true_iff in B. destruct B as [U O]. apply Nat.eqb_eq in O. apply in_use_iff in U. rewrite O in U. rewrite U.
      cbn [existsb]. rewrite Nat.eqb_refl. cbn [orb].
      replace (existsb (Nat.eqb x) l) with false; [reflexivity|]. symmetry. apply inlist_out. exact NI.
    + destruct (w_page w p) as [| |id|] eqn:P; try reflexivity. cbn [existsb app].
      destruct (Nat.eqb_spec id x) as [->|X]; [|reflexivity].
      exfalso. destruct (i_live w H p x P) as [_ O]. rewrite O, Nat.eqb_refl, andb_true_r in B.
      assert (in_use w x = true) by (apply in_use_iff; rewrite O; exact P). congruence.
Qed.

(** ** One event *)
Lemma serve_inv : forall ask w, Inv w -> Inv (serve ask w).
Proof.
  intros [p|] w H; cbn [serve]; [|exact H].
  destruct (w_page w p) as [| |i|] eqn:P; try exact H.
  pose proof (ask_ok (w_sse w) (i_sse w H)) as K. unfold handle_sse_data in *.
  destruct (Nat.ltb_spec (length (sse_list (w_sse w))) 2); cbn [fst] in K.
  - constructor; cbn [w_sse w_page w_owner sse_list]; [exact K|].
    intros q id E. destruct (Nat.eq_dec q p) as [->|X].
    + rewrite put_same in E. injection E as <-. split; [apply in_or_app; right; left; reflexivity|apply put_same].
    + rewrite put_other in E by exact X. destruct (i_live w H q id E) as [I O]. split; [apply in_or_app; auto|].
      rewrite put_other; [exact O|]. intros ->. pose proof (so_next _ (i_sse w H) _ I). lia.
  - constructor; cbn [w_sse w_page w_owner]; [exact K|].
    intros q id E. destruct (Nat.eq_dec q p) as [->|X]; [rewrite put_same in E; discriminate|].
    rewrite put_other in E by exact X. exact (i_live w H q id E).
Qed.
Definition after_pass (late : nat -> bool) (w : world) : world :=
  mk_world (mk_sse (filter (up_of w late) (sse_list (w_sse w)))
      (keep (up_of w late) (sse_list (w_sse w)) (sse_heap (w_sse w))) (sse_next (w_sse w))) (w_page w) (w_owner w).
Lemma pass_inv : forall late w, Inv w -> Inv (after_pass late w).
Proof.
  intros late w H. constructor; cbn [after_pass w_sse w_page w_owner sse_list].
  - apply clients_ok, H.
  - intros p id E. destruct (i_live w H p id E) as [I O]. split; [|exact O]. apply filter_In. split; [exact I|].
    unfold up_of. replace (in_use w id) with true; [reflexivity|]. symmetry. apply in_use_iff. now rewrite O.
Qed.
Lemma got_live : forall w p d, Inv w -> got w p d (sse_list (w_sse w)) = match w_page w p with Live _ => [d] | _ => [] end.
Proof.
  intros w p d H. unfold got. destruct (w_page w p) as [| |id|] eqn:E; try reflexivity.
  replace (existsb (Nat.eqb id) (sse_list (w_sse w))) with true; [reflexivity|]. symmetry. apply inlist_in, (i_live w H p id E).
Qed.
Lemma turn_eq : forall ask late data w, Inv w -> exists w' o, happen (Turn ask late data) w = Some (w', o) /\ Inv w' /\
  (forall p, w_page w' p = w_page (serve ask w) p) /\ w_owner w' = w_owner (serve ask w) /\
  (forall id, In id (sse_list (w_sse w')) <-> In id (sse_list (w_sse (serve ask w))) /\ up_of (serve ask w) late id = true) /\
  (forall p, match data with
             | None => messages p o = []
             | Some d => single_line d -> messages p o = match w_page w' p with Live _ => [d] | _ => [] end
             end).
Proof.
  intros ask late data w H. apply (serve_inv ask) in H. set (v := serve ask w) in *.
  pose proof (pass_inv late v H) as H1. cbn [happen]. fold v. rewrite handled_eq by apply H. fold (after_pass late v). cbv beta iota zeta.
  rewrite received_none.
  destruct data as [d|].
  - rewrite handled_eq by apply H1. fold (after_pass late (after_pass late v)). cbv beta iota zeta.
    eexists _, _. split; [reflexivity|]. split; [apply pass_inv, H1|]. split; [reflexivity|]. split; [reflexivity|].
    split.
    + intros id. change (sse_list (w_sse (after_pass late (after_pass late v)))) with (filter (up_of v late) (filter (up_of v late) (sse_list (w_sse v)))).
      rewrite !filter_In. tauto.
    + intros p S. cbn [app]. rewrite messages_pass; [|exact H1|exact S|apply H1]. rewrite got_live by exact H1. reflexivity.
  - eexists _, _. split; [reflexivity|]. split; [exact H1|]. split; [reflexivity|]. split; [reflexivity|]. split.
    + intros id. change (sse_list (w_sse (after_pass late v))) with (filter (up_of v late) (sse_list (w_sse v))). apply filter_In.
    + reflexivity.
Qed.

(** The other events make no message. *)
Lemma put_inv : forall w p g, Inv w -> (forall id, g <> Live id) -> Inv (mk_world (w_sse w) (put (w_page w) p g) (w_owner w)).
Proof.
  intros w p g H G. constructor; cbn [w_sse w_page w_owner]; [apply H|]. intros q id E.
  destruct (Nat.eq_dec q p) as [->|X]; [rewrite put_same in E; congruence|]. rewrite put_other in E by exact X. exact (i_live w H q id E).
Qed.
Lemma step_inv : forall e w, Inv w -> exists w' o, happen e w = Some (w', o) /\ Inv w'.
Proof.
  intros e w H. destruct e as [p|p|p| |ask late data].
  - cbn [happen]. eexists _, _. split; [reflexivity|]. destruct (w_page w p); try exact H. apply put_inv; [exact H|discriminate].
  - cbn [happen]. eexists _, _. split; [reflexivity|]. apply put_inv; [exact H|discriminate].
  - cbn [happen]. eexists _, _. split; [reflexivity|]. destruct (w_page w p); try exact H. apply put_inv; [exact H|discriminate].
  - cbn [happen]. eexists _, _. split; [reflexivity|]. constructor; cbn [w_sse w_page w_owner].
    + constructor; cbn; try constructor; try tauto. lia.
    + intros p id E. destruct (w_page w p); discriminate.
  - destruct (turn_eq ask late data w H) as (w' & o & E & H' & _). eauto.
Qed.
Lemma run_inv : forall es w, Inv w -> exists w' o, happens es w = Some (w', o) /\ Inv w'.
Proof.
  induction es as [|e es IH]; intros w H; cbn [happens]; [eauto|].
  destruct (step_inv e w H) as (w1 & o1 & -> & H1). destruct (IH w1 H1) as (w2 & o2 & -> & H2). eauto.
Qed.
Lemma start_inv : Inv nothing_yet.
Proof. constructor; [apply init_ok|]. intros p id E. discriminate E. Qed.
Lemma lived_inv : forall es w o, lived es w o -> Inv w.
Proof. intros es w o L. destruct (run_inv es _ start_inv) as (w' & o' & E & H). unfold lived in L. rewrite E in L. congruence. Qed.

Lemma happens_cons : forall e es w w' o, happens (e :: es) w = Some (w', o) ->
  exists w1 o1 o2, happen e w = Some (w1, o1) /\ happens es w1 = Some (w', o2) /\ o = o1 ++ o2.
Proof.
  intros e es w w' o H. cbn [happens] in H. destruct (happen e w) as [[w1 o1]|]; [|discriminate].
  destruct (happens es w1) as [[w2 o2]|] eqn:E; [|discriminate]. assert (w2 = w' /\ o = o1 ++ o2) as [<- ->] by (split; congruence).
  exists w1, o1, o2. repeat split; auto.
Qed.
Lemma happens_app : forall a b w w1 o1 w2 o2, happens a w = Some (w1, o1) -> happens b w1 = Some (w2, o2) ->
  happens (a ++ b) w = Some (w2, o1 ++ o2).
Proof.
  induction a as [|e a IH]; intros b w w1 o1 w2 o2 A B.
  - cbn in A. injection A as <- <-. exact B.
  - apply happens_cons in A. destruct A as (v & x & y & E & A & ->). cbn [app happens]. rewrite E.
    rewrite (IH b v w1 y w2 o2 A B). cbv beta iota zeta. now rewrite app_assoc.
Qed.

(** ** At most two live pages *)
Lemma c97_total : forall es, exists w o, lived es w o.
Proof. intros es. destruct (run_inv es _ start_inv) as (w & o & E & _). exists w, o. exact E. Qed.
Lemma c97_two : forall es w o p q r i j k, lived es w o -> w_page w p = Live i -> w_page w q = Live j -> w_page w r = Live k ->
  p = q \/ p = r \/ q = r.
Proof.
  intros es w o p q r i j k L P Q R. apply lived_inv in L.
  destruct (i_live w L p i P) as [Ip Op], (i_live w L q j Q) as [Iq Oq], (i_live w L r k R) as [Ir Or].
  pose proof (so_two _ (i_sse w L)) as T. pose proof (so_list _ (i_sse w L)) as N.
  destruct (sse_list (w_sse w)) as [|a [|b [|c l]]]; cbn [In length] in *; try lia; try tauto.
  - assert (i = j) by intuition congruence. left. congruence.
  - destruct Ip as [Ip|[Ip|[]]], Iq as [Iq|[Iq|[]]], Ir as [Ir|[Ir|[]]]; subst; auto; try (left; congruence); try (right; left; congruence); right; right; congruence.
Qed.

Lemma broadcasts_cons : forall e es, broadcasts (e :: es) = broadcasts [e] ++ broadcasts es.
Proof. intros. exact (flat_map_app _ [e] es). Qed.
(** ** A live page *)
Lemma serve_live : forall ask w p id, w_page w p = Live id -> w_page (serve ask w) p = Live id.
Proof.
  intros [q|] w p id P; cbn [serve]; [|exact P]. destruct (w_page w q) as [| |i|] eqn:Q; try exact P.
  assert (p <> q) by congruence. unfold handle_sse_data. destruct (Nat.ltb _ 2); cbn [w_page]; rewrite put_other by assumption; exact P.
Qed.
Lemma live_run : forall es p id w w' o, Inv w -> w_page w p = Live id -> stays p es -> Forall single_line (broadcasts es) ->
  happens es w = Some (w', o) -> w_page w' p = Live id /\ messages p o = broadcasts es.
Proof.
  induction es as [|e es IH]; intros p id w w' o H P St SL R.
  - cbn in R. injection R as <- <-. auto.
  - apply happens_cons in R. destruct R as (w1 & o1 & o2 & E & R & ->).
    destruct (step_inv e w H) as (w1' & o1' & E' & H1). rewrite E in E'. assert (w1' = w1) as -> by congruence. clear E' o1'.
    assert (St' : stays p es) by (intros x I; apply St; right; exact I).
    rewrite broadcasts_cons in *. apply Forall_app in SL. destruct SL as [SL1 SL2].
    assert (G : w_page w1 p = Live id /\ messages p o1 = broadcasts [e]).
    { destruct (St e (or_introl eq_refl)) as (A & B & C). destruct e as [q|q|q| |ask late data].
      - cbn [happen] in E. injection E as <- <-. split; [|reflexivity]. destruct (w_page w q) eqn:Q; try exact P.
        cbn [w_page]. rewrite put_other; [exact P|congruence].
      - cbn [happen] in E. injection E as <- <-. split; [|reflexivity]. cbn [w_page]. rewrite put_other; [exact P|congruence].
      - cbn [happen] in E. injection E as <- <-. split; [|reflexivity]. destruct (w_page w q) eqn:Q; try exact P.
        cbn [w_page]. rewrite put_other; [exact P|congruence].
      - congruence.
      - destruct (turn_eq ask late data w H) as (w2 & o' & E2 & _ & Pg & _ & _ & M). rewrite E in E2.
        assert (w2 = w1 /\ o' = o1) as [-> ->] by (split; congruence). specialize (M p).
        assert (P1 : w_page w1 p = Live id) by (rewrite Pg; apply serve_live, P). split; [exact P1|].
        destruct data as [d|]; cbn [broadcasts flat_map app]; [|exact M]. rewrite P1 in M. apply M.
        cbn in SL1. inversion SL1; assumption. }
    destruct G as [P1 M1]. destruct (IH p id w1 w' o2 H1 P1 St' SL2 R) as [P2 M2]. split; [exact P2|]. now rewrite messages_app, M1, M2.
Qed.
Lemma c97_live : forall es0 w0 o0 es p id w o, lived es0 w0 o0 -> w_page w0 p = Live id -> stays p es -> Forall single_line (broadcasts es) ->
  happens es w0 = Some (w, o) -> w_page w p = Live id /\ messages p o = broadcasts es.
Proof. intros es0 w0 o0 es p id w o L. apply live_run, (lived_inv _ _ _ L). Qed.

(** ** A page that is not live *)
Lemma quiet_step : forall e p w w' o, Inv w -> (forall id, w_page w p <> Live id) -> (forall l d, e <> Turn (Some p) l d) ->
  Forall single_line (broadcasts [e]) -> happen e w = Some (w', o) -> (forall id, w_page w' p <> Live id) /\ messages p o = [].
Proof.
  intros e p w w' o H P A SL E. destruct e as [q|q|q| |ask late data].
  - cbn [happen] in E. injection E as <- <-. split; [|reflexivity]. intros id. destruct (w_page w q) eqn:Q; try apply P.
    cbn [w_page]. destruct (Nat.eq_dec p q) as [->|X]; [rewrite put_same; discriminate|rewrite put_other by exact X; apply P].
  - cbn [happen] in E. injection E as <- <-. split; [|reflexivity]. intros id. cbn [w_page].
    destruct (Nat.eq_dec p q) as [->|X]; [rewrite put_same; discriminate|rewrite put_other by exact X; apply P].
  - cbn [happen] in E. injection E as <- <-. split; [|reflexivity]. intros id. destruct (w_page w q) eqn:Q; try apply P.
    cbn [w_page]. destruct (Nat.eq_dec p q) as [->|X]; [rewrite put_same; discriminate|rewrite put_other by exact X; apply P].
  - cbn [happen] in E. injection E as <- <-. split; [|reflexivity]. intros id. cbn [w_page]. destruct (w_page w p); discriminate.
  - destruct (turn_eq ask late data w H) as (w2 & o' & E2 & _ & Pg & _ & _ & M). rewrite E in E2.
    assert (w2 = w' /\ o' = o) as [-> ->] by (split; congruence). specialize (M p).
    assert (P1 : forall id, w_page w' p <> Live id).
    { intros id. rewrite Pg. destruct ask as [q|]; cbn [serve]; [|apply P].
      assert (q <> p) by (intros ->; exact (A late data eq_refl)).
      destruct (w_page w q) eqn:Q; try apply P. unfold handle_sse_data. destruct (Nat.ltb _ 2); cbn [w_page]; rewrite put_other by congruence; apply P. }
    split; [exact P1|]. destruct data as [d|]; [|exact M].
    rewrite M by (cbn in SL; inversion SL; assumption). destruct (w_page w' p) as [| |i|] eqn:X; try reflexivity. destruct (P1 i eq_refl).
Qed.
Lemma c97_quiet : forall es0 w0 o0 es p w o, lived es0 w0 o0 -> (forall id, w_page w0 p <> Live id) ->
  (forall l d, ~ In (Turn (Some p) l d) es) -> Forall single_line (broadcasts es) -> happens es w0 = Some (w, o) -> messages p o = [].
Proof.
  intros es0 w0 o0 es p w o L P A SL R. apply lived_inv in L. revert w0 o0 w o L P A SL R.
  induction es as [|e es IH]; intros w0 o0 w o L P A SL R.
  - cbn in R. injection R as <- <-. reflexivity.
  - apply happens_cons in R. destruct R as (w1 & o1 & o2 & E & R & ->).
    destruct (step_inv e w0 L) as (w1' & o1' & E' & H1). rewrite E in E'. assert (w1' = w1) as -> by congruence.
    rewrite broadcasts_cons in *. apply Forall_app in SL. destruct SL as [SL1 SL2].
    destruct (quiet_step e p w0 w1 o1 L P ltac:(intros l d ->; apply (A l d); left; reflexivity) SL1 E) as [P1 M1].
    rewrite messages_app, M1. apply (IH w1 o0 w o2 H1 P1); [intros l d I; apply (A l d); right; exact I|exact SL2|exact R].
Qed.

(** ** A page that has given up *)
Lemma given_up_run : forall es p w w' o, Inv w -> w_page w p = GivenUp -> untouched p es -> Forall single_line (broadcasts es) ->
  happens es w = Some (w', o) -> w_page w' p = GivenUp /\ messages p o = [].
Proof.
  induction es as [|e es IH]; intros p w w' o H P U SL R.
  - cbn in R. injection R as <- <-. auto.
  - apply happens_cons in R. destruct R as (w1 & o1 & o2 & E & R & ->).
    destruct (step_inv e w H) as (w1' & o1' & E' & H1). rewrite E in E'. assert (w1' = w1) as -> by congruence. clear E' o1'.
    assert (U' : untouched p es) by (intros x I; apply U; right; exact I).
    rewrite broadcasts_cons in *. apply Forall_app in SL. destruct SL as [SL1 SL2].
    assert (G : w_page w1 p = GivenUp /\ messages p o1 = []).
    { pose proof (U e (or_introl eq_refl)) as A. destruct e as [q|q|q| |ask late data].
      - cbn [happen] in E. injection E as <- <-. split; [|reflexivity]. destruct (w_page w q) eqn:Q; try exact P.
        cbn [w_page]. rewrite put_other; [exact P|congruence].
      - cbn [happen] in E. injection E as <- <-. split; [|reflexivity]. cbn [w_page]. rewrite put_other; [exact P|congruence].
      - cbn [happen] in E. injection E as <- <-. split; [|reflexivity]. destruct (w_page w q) eqn:Q; try exact P.
        cbn [w_page]. rewrite put_other; [exact P|congruence].
      - cbn [happen] in E. injection E as <- <-. split; [|reflexivity]. cbn [w_page]. now rewrite P.
      - destruct (turn_eq ask late data w H) as (w2 & o' & E2 & _ & Pg & _ & _ & M). rewrite E in E2.
        assert (w2 = w1 /\ o' = o1) as [-> ->] by (split; congruence). specialize (M p).
        assert (P1 : w_page w1 p = GivenUp).
        { rewrite Pg. destruct ask as [q|]; cbn [serve]; [|exact P]. destruct (w_page w q) eqn:Q; try exact P.
          unfold handle_sse_data. destruct (Nat.ltb _ 2); cbn [w_page]; rewrite put_other by congruence; exact P. }
        split; [exact P1|]. destruct data as [d|]; [|exact M]. rewrite P1 in M. apply M. cbn in SL1. inversion SL1; assumption. }
    destruct G as [P1 M1]. destruct (IH p w1 w' o2 H1 P1 U' SL2 R) as [P2 M2]. split; [exact P2|]. now rewrite messages_app, M1, M2.
Qed.
Lemma c97_given_up : forall es0 w0 o0 es p w o, lived es0 w0 o0 -> w_page w0 p = GivenUp -> untouched p es ->
  Forall single_line (broadcasts es) -> happens es w0 = Some (w, o) -> w_page w p = GivenUp /\ messages p o = [].
Proof. intros es0 w0 o0 es p w o L. apply given_up_run, (lived_inv _ _ _ L). Qed.

(** ** Without hurry *)
Record CInv (pending : list nat) (w : world) : Prop := {
  k_inv : Inv w;
  k_used : forall id, In id (sse_list (w_sse w)) -> w_page w (w_owner w id) = Live id \/ In (w_owner w id) pending;
  k_one : forall a b, In a (sse_list (w_sse w)) -> In b (sse_list (w_sse w)) -> w_owner w a = w_owner w b -> a = b }.
Lemma serve_calm : forall pending p w, CInv pending w -> ~ In p pending -> w_page w p = Waiting ->
  (forall id, In id (sse_list (w_sse w)) -> w_owner w id <> p).
Proof. intros pending p w H N P id I E. destruct (k_used _ _ H id I) as [U|U]; [rewrite E in U; congruence|rewrite E in U; contradiction]. Qed.
Lemma serve_cinv : forall pending ask w, CInv pending w -> (forall p, ask = Some p -> ~ In p pending) -> CInv pending (serve ask w).
Proof.
  intros pending [p|] w H N; [|exact H]. pose proof (serve_inv (Some p) w (k_inv _ _ H)) as I1. cbn [serve] in *.
  destruct (w_page w p) as [| |i|] eqn:P; try exact H.
  pose proof (serve_calm _ p w H (N p eq_refl) P) as O. unfold handle_sse_data in *.
  destruct (Nat.ltb (length (sse_list (w_sse w))) 2); constructor; cbn [w_sse w_page w_owner sse_list] in *; try exact I1.
  - assert (L : forall id, In id (sse_list (w_sse w)) -> id <> sse_next (w_sse w)).
    { intros id I ->. pose proof (so_next _ (i_sse _ (k_inv _ _ H)) _ I). lia. }
    intros id I. apply in_app_or in I. destruct I as [I|[<-|[]]].
    + rewrite (put_other _ _ _ _ id) by (apply L, I). rewrite put_other by (apply O, I). apply (k_used _ _ H id I).
    + left. now rewrite !put_same.
  - assert (L : forall id, In id (sse_list (w_sse w)) -> id <> sse_next (w_sse w)).
    { intros id I ->. pose proof (so_next _ (i_sse _ (k_inv _ _ H)) _ I). lia. }
    intros a b A B E. apply in_app_or in A, B. destruct A as [A|[<-|[]]], B as [B|[<-|[]]]; auto.
    + rewrite !put_other in E by (apply L; assumption). apply (k_one _ _ H a b A B E).
    + rewrite put_same, put_other in E by (apply L; assumption). destruct (O a A E).
    + rewrite put_same, put_other in E by (apply L; assumption). symmetry in E. destruct (O b B E).
  - intros id I. rewrite put_other by (apply O, I). apply (k_used _ _ H id I).
  - apply (k_one _ _ H).
Qed.
Lemma turn_cinv : forall pending ask late data w w' o, CInv pending w -> (forall p, ask = Some p -> ~ In p pending) ->
  (forall id, late id = false) -> happen (Turn ask late data) w = Some (w', o) -> CInv [] w'.
Proof.
  intros pending ask late data w w' o H N L E. pose proof (serve_cinv _ _ _ H N) as K.
  destruct (turn_eq ask late data w (k_inv _ _ H)) as (w2 & o' & E2 & I2 & Pg & Ow & Ls & _). rewrite E in E2.
  assert (w2 = w') as -> by congruence.
  constructor; [exact I2| |].
  - intros id I. left. apply Ls in I. destruct I as [I U]. unfold up_of in U. rewrite L, orb_false_r in U. apply in_use_iff in U.
    rewrite Pg, Ow. exact U.
  - intros a b A B. apply Ls in A, B. rewrite Ow. apply (k_one _ _ K); tauto.
Qed.
Lemma cinv_put : forall pending w p g, CInv pending w -> (forall id, g <> Live id) -> In p pending \/ (forall id, w_page w p <> Live id) ->
  CInv pending (mk_world (w_sse w) (put (w_page w) p g) (w_owner w)).
Proof.
  intros pending w p g H G C. constructor; cbn [w_sse w_page w_owner]; [apply put_inv; [apply H|exact G]| |apply (k_one _ _ H)].
  intros id I. destruct (k_used _ _ H id I) as [U|U]; [|right; exact U].
  destruct (Nat.eq_dec (w_owner w id) p) as [X|X]; [|left; rewrite put_other by exact X; exact U].
  destruct C as [C|C]; [right; now rewrite X|]. rewrite X in U. destruct (C id U).
Qed.
Lemma cinv_more : forall pending w p, CInv pending w -> CInv (p :: pending) w.
Proof. intros pending w p H. constructor; try apply H. intros id I. destruct (k_used _ _ H id I); [left|right; right]; assumption. Qed.
Lemma calm_run : forall es pending w w' o, CInv pending w -> calm pending es -> happens es w = Some (w', o) -> CInv (just_left pending es) w'.
Proof.
  induction es as [|e es IH]; intros pending w w' o H C R.
  - cbn in R. injection R as <- <-. exact H.
  - apply happens_cons in R. destruct R as (w1 & o1 & o2 & E & R & ->).
    destruct e as [q|q|q| |ask late data]; cbn [calm just_left] in *.
    + cbn [happen] in E. injection E as <- <-. refine (IH _ _ _ _ _ C R). destruct (w_page w q) eqn:Q; try exact H.
      apply cinv_put; [exact H|discriminate|right; congruence].
    + cbn [happen] in E. injection E as <- <-. refine (IH _ _ _ _ _ C R). apply cinv_put; [apply cinv_more, H|discriminate|left; left; reflexivity].
    + cbn [happen] in E. injection E as <- <-. refine (IH _ _ _ _ _ C R).
      destruct (w_page w q) eqn:Q; try (apply cinv_more; exact H). apply cinv_put; [apply cinv_more, H|discriminate|left; left; reflexivity].
    + destruct (step_inv Restarts w (k_inv _ _ H)) as (v & x & E' & I'). rewrite E in E'. assert (v = w1) as -> by congruence.
      cbn [happen] in E. injection E as <- <-. refine (IH _ _ _ _ _ C R). constructor; [exact I'| |]; cbn [w_sse sse_list]; intros a; destruct 1.
    + destruct C as (L & N & C). refine (IH _ _ _ _ _ C R). exact (turn_cinv _ _ _ _ _ _ _ H N L E).
Qed.
Lemma start_cinv : CInv [] nothing_yet.
Proof. constructor; [exact start_inv| |]; cbn; intros; contradiction. Qed.

Lemma c97_answer : forall es w o p late data w' o', lived es w o -> calm [] (es ++ [Turn (Some p) late data]) -> w_page w p = Waiting ->
  happen (Turn (Some p) late data) w = Some (w', o') ->
  (exists id, w_page w' p = Live id) \/
  (w_page w' p = GivenUp /\ exists q r, q <> r /\ q <> p /\ r <> p /\ holds es w q /\ holds es w r).
Proof.
  intros es w o p late data w' o' L C P E.
  assert (D : forall a b pend, calm pend (a ++ b) -> calm pend a /\ calm (just_left pend a) b).
  { induction a as [|e a IHa]; intros b pend K; [split; [exact Logic.I|exact K]|].
    destruct e; cbn [app calm just_left] in *; try (apply IHa; exact K). destruct K as (K1 & K2 & K). destruct (IHa b [] K). repeat split; assumption. }
  apply D in C. destruct C as [C1 [C2 [C3 _]]]. specialize (C3 p eq_refl).
  pose proof (calm_run es [] _ w o start_cinv C1 L) as K.
  destruct (turn_eq (Some p) late data w (k_inv _ _ K)) as (w2 & x & E2 & _ & Pg & _). rewrite E in E2. assert (w2 = w') as -> by congruence.
  rewrite Pg. pose proof (serve_calm _ p w K C3 P) as O. cbn [serve]. rewrite P. unfold handle_sse_data.
  destruct (Nat.ltb_spec (length (sse_list (w_sse w))) 2) as [S|S]; cbn [w_page]; rewrite put_same; [left; eauto|right; split; [reflexivity|]].
  pose proof (so_list _ (i_sse _ (k_inv _ _ K))) as ND. pose proof (k_used _ _ K) as U. pose proof (k_one _ _ K) as One.
  destruct (sse_list (w_sse w)) as [|a [|b l]]; cbn [length] in S; try lia.
  exists (w_owner w a), (w_owner w b). split.
  { intros X. assert (a = b) by (apply One; [left; reflexivity|right; left; reflexivity|exact X]). inversion ND as [|? ? NI _]; subst. apply NI. left; reflexivity. }
  split; [apply O; left; reflexivity|]. split; [apply O; right; left; reflexivity|].
  split; [destruct (U a ltac:(left; reflexivity))|destruct (U b ltac:(right; left; reflexivity))]; unfold holds; eauto.
Qed.

(** ** Two pages *)
Record OInv (ps : list nat) (w : world) : Prop := {
  o_in : forall x, w_page w x <> Hidden -> In x ps;
  o_owner : forall id, In id (sse_list (w_sse w)) -> In (w_owner w id) ps;
  o_up : forall x, w_page w x <> GivenUp }.
Lemma three : forall (ps : list nat) p q r, (length ps <= 2)%nat -> In p ps -> In q ps -> In r ps -> q <> r -> q <> p -> r <> p -> False.
Proof.
  intros ps p q r L A B C X Y Z0. destruct ps as [|a [|b [|c l]]]; cbn [In length] in *; try lia; try tauto.
  all: repeat match goal with H : _ \/ _ |- _ => destruct H end; try contradiction; congruence.
Qed.
Lemma two_step : forall ps pending e w w' o, (length ps <= 2)%nat -> CInv pending w -> OInv ps w -> (forall p, e = Shows p -> In p ps) ->
  (forall p l d, e = Turn (Some p) l d -> ~ In p pending) -> happen e w = Some (w', o) -> OInv ps w'.
Proof.
  intros ps pending e w w' o Len K H S N E. destruct e as [q|q|q| |ask late data].
  - cbn [happen] in E. injection E as <- <-. destruct (w_page w q) eqn:Q; try exact H. constructor; cbn [w_sse w_page w_owner]; [|apply H|].
    + intros x X. destruct (Nat.eq_dec x q) as [->|Y]; [apply S; reflexivity|]. rewrite put_other in X by exact Y. apply (o_in _ _ H), X.
    + intros x X. destruct (Nat.eq_dec x q) as [->|Y]; [rewrite put_same in X; discriminate|]. rewrite put_other in X by exact Y. exact (o_up _ _ H x X).
  - cbn [happen] in E. injection E as <- <-. constructor; cbn [w_sse w_page w_owner]; [|apply H|].
    + intros x X. destruct (Nat.eq_dec x q) as [->|Y]; [rewrite put_same in X; congruence|]. rewrite put_other in X by exact Y. apply (o_in _ _ H), X.
    + intros x X. destruct (Nat.eq_dec x q) as [->|Y]; [rewrite put_same in X; discriminate|]. rewrite put_other in X by exact Y. exact (o_up _ _ H x X).
  - cbn [happen] in E. injection E as <- <-. destruct (w_page w q) eqn:Q; try exact H. constructor; cbn [w_sse w_page w_owner]; [|apply H|].
    + intros x X. destruct (Nat.eq_dec x q) as [->|Y]; [apply (o_in _ _ H); congruence|]. rewrite put_other in X by exact Y. apply (o_in _ _ H), X.
    + intros x X. destruct (Nat.eq_dec x q) as [->|Y]; [rewrite put_same in X; discriminate|]. rewrite put_other in X by exact Y. exact (o_up _ _ H x X).
  - cbn [happen] in E. injection E as <- <-. constructor; cbn [w_sse w_page w_owner sse_list]; [|intros id []|].
    + intros x X. apply (o_in _ _ H). destruct (w_page w x); congruence.
    + intros x X. pose proof (o_up _ _ H x). destruct (w_page w x); congruence.
  - assert (V : OInv ps (serve ask w)).
    { destruct ask as [p|]; cbn [serve]; [|exact H]. destruct (w_page w p) eqn:P; try exact H.
      assert (Ip : In p ps) by (apply (o_in _ _ H); congruence).
      pose proof (serve_calm _ p w K (N p late data eq_refl) P) as O. unfold handle_sse_data.
      destruct (Nat.ltb_spec (length (sse_list (w_sse w))) 2) as [T|T].
      - constructor; cbn [w_sse w_page w_owner sse_list].
        + intros x X. destruct (Nat.eq_dec x p) as [->|Y]; [exact Ip|]. rewrite put_other in X by exact Y. apply (o_in _ _ H), X.
        + intros id I. unfold put. destruct (Nat.eqb_spec id (sse_next (w_sse w))) as [_|Y]; [exact Ip|].
          apply in_app_or in I. destruct I as [I|[I|[]]]; [apply (o_owner _ _ H), I|congruence].
        + intros x X. destruct (Nat.eq_dec x p) as [->|Y]; [rewrite put_same in X; discriminate|]. rewrite put_other in X by exact Y. exact (o_up _ _ H x X).
      - exfalso. pose proof (so_list _ (i_sse _ (k_inv _ _ K))) as ND. pose proof (k_one _ _ K) as One. pose proof (o_owner _ _ H) as Ow.
        destruct (sse_list (w_sse w)) as [|a [|b l]]; cbn [length] in T; try lia.
        apply (three ps p (w_owner w a) (w_owner w b) Len Ip); try (apply Ow); try (apply O); try (left; reflexivity); try (right; left; reflexivity).
        intros X. assert (a = b) by (apply One; [left; reflexivity|right; left; reflexivity|exact X]). inversion ND as [|? ? NI _]; subst. apply NI. left; reflexivity. }
    destruct (turn_eq ask late data w (k_inv _ _ K)) as (w2 & x & E2 & _ & Pg & Ow & Ls & _). rewrite E in E2. assert (w2 = w') as -> by congruence.
    constructor.
    + intros y Y. rewrite Pg in Y. apply (o_in _ _ V), Y.
    + intros id I. rewrite Ow. apply (o_owner _ _ V). apply Ls in I. tauto.
    + intros y. rewrite Pg. apply (o_up _ _ V).
Qed.
Lemma two_run : forall ps es pending w w' o, (length ps <= 2)%nat -> CInv pending w -> OInv ps w -> calm pending es -> only ps es ->
  happens es w = Some (w', o) -> OInv ps w'.
Proof.
  intros ps. induction es as [|e es IH]; intros pending w w' o Len K H C S R.
  - cbn in R. injection R as <- <-. exact H.
  - apply happens_cons in R. destruct R as (w1 & o1 & o2 & E & R & ->).
    assert (K1 : CInv (just_left pending [e]) w1 /\ calm (just_left pending [e]) es).
    { split.
      - apply (calm_run [e] pending w w1 (o1 ++ [])); [exact K| |cbn [happens]; rewrite E; reflexivity].
        destruct e; cbn [calm] in *; tauto.
      - destruct e; cbn [calm just_left] in *; tauto. }
    destruct K1 as [K1 C1]. refine (IH _ w1 w' o2 Len K1 _ C1 _ R).
    + apply (two_step ps pending e w w1 o1 Len K H); [|intros p l d ->; apply C; reflexivity|exact E].
      intros p ->. apply S. left; reflexivity.
    + intros p I. apply S. right; exact I.
Qed.
Lemma c97_pair : forall ps es w o, (length ps <= 2)%nat -> only ps es -> calm [] es -> lived es w o -> forall p, w_page w p <> GivenUp.
Proof.
  intros ps es w o Len S C L. apply (o_up ps), (two_run ps es [] _ w o Len start_cinv); auto.
  constructor; cbn; [congruence|contradiction|discriminate].
Qed.
