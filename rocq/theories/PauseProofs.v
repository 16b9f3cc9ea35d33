(** Proofs about C50: where the bytes of the published frame come from. *)
From Coq Require Import ZArith List Bool Lia.
From Verif Require Import Base BaseFacts Teleinfo TeleinfoSpec Publish HistorySpec PublishProofs.
Import ListNotations.
Open Scope Z_scope.

Lemma fed_at : forall es off A x B, fed off es = A ++ x :: B ->
  exists e1 e2, es = e1 ++ Byte (fst x) (snd x) :: e2 /\ fed false e2 = B.
Proof.
  induction es as [|[now c|b] es IH]; intros off A x B H; cbn [fed] in H.
  - destruct A; discriminate H.
  - destruct off.
    + destruct (IH _ _ _ _ H) as (e1 & e2 & -> & F). exists (Byte now c :: e1), e2. auto.
    + destruct A as [|y A]; injection H as H1 H2.
      * subst x. exists [], es. auto.
      * destruct (IH _ _ _ _ H2) as (e1 & e2 & -> & F). exists (Byte now c :: e1), e2. auto.
  - destruct (IH _ _ _ _ H) as (e1 & e2 & -> & F). exists (Pause b :: e1), e2. auto.
Qed.
Lemma fed_take : forall es off A B, fed off es = A ++ B -> exists e1 e2, es = e1 ++ e2 /\ fed off e1 = A.
Proof.
  induction es as [|[now c|b] es IH]; intros off A B H; cbn [fed] in H.
  - destruct A; [|discriminate H]. exists [], []. auto.
  - destruct off.
    + destruct (IH _ _ _ H) as (e1 & e2 & -> & F). exists (Byte now c :: e1), e2. auto.
    + destruct A as [|y A]; [exists [], (Byte now c :: es); auto|]. injection H as <- H.
      destruct (IH _ _ _ H) as (e1 & e2 & -> & F). exists (Byte now c :: e1), e2. cbn [app fed]. rewrite F. auto.
  - destruct (IH _ _ _ H) as (e1 & e2 & -> & F). exists (Pause b :: e1), e2. auto.
Qed.
Lemma fed_received : forall es, (forall b, ~ In (Pause b) es) -> fed false es = received es.
Proof.
  induction es as [|[now c|b] es IH]; intros H; cbn [fed received]; [reflexivity| |].
  - rewrite IH; [reflexivity|]. intros b I. apply (H b). right. exact I.
  - destruct (H b). left. reflexivity.
Qed.

Lemma c50 : forall sgn g1 g2 es p, List.length g1 = 350%nat -> List.length g2 = 350%nat ->
  Forall is_byte (map snd (fed false es)) -> pub_run sgn es (pub_init g1 g2) = Some p -> published p <> [] ->
  exists e1 e2 e3 bodies, es = e1 ++ e2 ++ e3 /\ valid_frame bodies /\ published p = content bodies /\
    map snd (fed false e2) = frame_bytes bodies /\
    ((forall b, ~ In (Pause b) e2) -> map snd (received e2) = frame_bytes bodies).
Proof.
  intros sgn g1 g2 es p L1 L2 B R NE. destruct (published_last sgn g1 g2 es L1 L2 B) as (p' & r & R' & L & K).
  assert (p' = p) by congruence. subst p'. clear R'. destruct r as [[t0 bodies]|]; [|congruence]. destruct K as [K _].
  destruct L as (h1 & h2 & E & (pre & rest & -> & F) & V & _). rewrite <- app_assoc in E. cbn [app] in E.
  destruct (fed_at _ _ _ _ _ E) as (e1 & e2 & -> & F2). cbn [fst snd] in *. destruct (fed_take _ _ _ _ F2) as (e2a & e2b & -> & F3).
  exists e1, (Byte t0 2 :: e2a), e2b, bodies. split; [reflexivity|]. split; [exact V|]. split; [exact K|].
  assert (X : map snd (fed false (Byte t0 2 :: e2a)) = frame_bytes bodies) by (cbn [fed]; rewrite F3; exact F).
  split; [exact X|]. intros N. rewrite <- (fed_received _ N). exact X.
Qed.
