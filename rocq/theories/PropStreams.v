(** Property theorem C97: several pages with live gauges (src/sse.h, data_src/index.html:852-858, 894-916). Specification:
    StreamsSpec.v. *)
From Coq Require Import ZArith List Bool Lia.
From Verif Require Import Base Streams StreamsSpec StreamsProofs.
Import ListNotations.
Open Scope Z_scope.

(** C97. Whatever the pages, the network and the module do, at most two pages are live. *)
Theorem C97_two : forall es, exists w o, lived es w o /\
  forall p q r i j k, w_page w p = Live i -> w_page w q = Live j -> w_page w r = Live k -> p = q \/ p = r \/ q = r.
Proof.
  intros es. destruct (c97_total es) as (w & o & L). exists w, o. split; [exact L|]. intros p q r i j k. exact (c97_two es w o p q r i j k L).
Qed.
Print Assumptions C97_two.

(** C97. A live page receives every text broadcast, once, in order, and remains live, whatever the other pages do, until it
    leaves, its connection is lost or the module restarts. *)
Theorem C97_live : forall es0 w0 o0 es p id w o, lived es0 w0 o0 -> w_page w0 p = Live id -> stays p es ->
  Forall single_line (broadcasts es) -> happens es w0 = Some (w, o) -> w_page w p = Live id /\ messages p o = broadcasts es.
Proof. exact c97_live. Qed.
Print Assumptions C97_live.

(** C97. A page receives nothing before its request is handled. *)
Theorem C97_quiet : forall es0 w0 o0 es p w o, lived es0 w0 o0 -> (forall id, w_page w0 p <> Live id) ->
  (forall l d, ~ In (Turn (Some p) l d) es) -> Forall single_line (broadcasts es) -> happens es w0 = Some (w, o) -> messages p o = [].
Proof. exact c97_quiet. Qed.
Print Assumptions C97_quiet.

(** Two pages, then a third; the first one leaves and the module restarts. *)
Definition nobody : nat -> bool := fun _ => false.
Definition d1 : list Z := str "{1}".
Definition d2 : list Z := str "{2}".
Definition d3 : list Z := str "{3}".
Definition evening : list happening :=
  [Shows 1; Shows 2; Turn (Some 1%nat) nobody (Some d1); Turn (Some 2%nat) nobody (Some d2); Turn None nobody None].
Definition night : list happening :=
  [Shows 3; Turn (Some 3%nat) nobody (Some d3); Leaves 1; Turn None nobody (Some d1); Shows 4; Turn (Some 4%nat) nobody (Some d2)].
Example C97_live_case : exists w0 o0 w o, lived evening w0 o0 /\ w_page w0 2 = Live 1 /\ messages 1 o0 = [d1; d2] /\
  stays 2 night /\ Forall single_line (broadcasts night) /\ happens night w0 = Some (w, o) /\
  messages 2 o = [d3; d1; d2] /\ messages 1 o = [d3] /\ messages 3 o = [] /\ messages 4 o = [d2] /\
  w_page w 1 = Hidden /\ w_page w 3 = GivenUp /\ w_page w 4 = Live 2 /\
  (forall id, w_page w0 4 <> Live id) /\ (forall l d, ~ In (Turn (Some 4%nat) l d) (firstn 5 night)).
Proof.
  do 4 eexists. split; [vm_compute; reflexivity|]. split; [reflexivity|]. split; [reflexivity|].
  split. { intros e I. cbn in I. repeat (destruct I as [<-|I]; [repeat split; discriminate|]). destruct I. }
  split. { repeat constructor; discriminate. }
  split; [vm_compute; reflexivity|]. repeat (split; [reflexivity|]). split; [discriminate|].
  intros l d I. cbn in I. repeat (destruct I as [I|I]; [discriminate|]). destruct I.
Qed.

(** C97, who is refused. If nobody is in a hurry, a page that asks becomes live, or two other pages have the two streams. *)
Theorem C97_answer_partial : forall es w o p late data w' o', lived es w o -> calm [] (es ++ [Turn (Some p) late data]) ->
  w_page w p = Waiting -> happen (Turn (Some p) late data) w = Some (w', o') ->
  (exists id, w_page w' p = Live id) \/
  (w_page w' p = GivenUp /\ exists q r, q <> r /\ q <> p /\ r <> p /\ holds es w q /\ holds es w r).
Proof. exact c97_answer. Qed.
Print Assumptions C97_answer_partial.

(** C97, two screens. If only two pages ever show the gauges, and nobody is in a hurry, neither is ever refused, through any
    number of visits, lost connections and restarts of the module. Missing: hurry (C97_hurry_refuted). *)
Theorem C97_pair_partial : forall ps es w o, (length ps <= 2)%nat -> only ps es -> calm [] es -> lived es w o ->
  forall p, w_page w p <> GivenUp.
Proof. exact c97_pair. Qed.
Print Assumptions C97_pair_partial.

Definition week : list happening :=
  evening ++ [Breaks 1; Turn None nobody (Some d1); Turn (Some 1%nat) nobody (Some d2); Leaves 2; Shows 2; Turn None nobody None;
    Restarts; Turn (Some 1%nat) nobody (Some d3)].
Example C97_pair_case : exists w o w' o', lived week w o /\ only [1%nat; 2%nat] week /\
  calm [] (week ++ [Turn (Some 2%nat) nobody None]) /\ calm [] week /\ w_page w 2 = Waiting /\ w_page w 1 = Live 3 /\
  happen (Turn (Some 2%nat) nobody None) w = Some (w', o') /\ w_page w' 2 = Live 4.
Proof.
  do 4 eexists. split; [vm_compute; reflexivity|].
  split. { intros p I. cbn in I. repeat (destruct I as [I|I]; [try discriminate; injection I as <-; cbn; tauto|]). destruct I. }
  split. { cbn. repeat split; try reflexivity; try (intros p [= <-]; cbn; intuition discriminate); try (intros p [=]). }
  split. { cbn. repeat split; try reflexivity; try (intros p [= <-]; cbn; intuition discriminate); try (intros p [=]). }
  split; [reflexivity|]. split; [reflexivity|]. split; [vm_compute; reflexivity|reflexivity].
Qed.

(** A page that has been refused never becomes live again by itself: the two others may leave, the module may restart, the
    gauges stay as they are until the user leaves the tab and comes back. *)
Theorem C97_given_up_refuted : exists es0 w0 o0, lived es0 w0 o0 /\ w_page w0 3 = GivenUp /\ w_page w0 1 = Hidden /\ w_page w0 2 = Hidden /\
  forall es w o, untouched 3 es -> Forall single_line (broadcasts es) -> happens es w0 = Some (w, o) -> messages 3 o = [].
Proof.
  assert (X : exists w0 o0, lived (evening ++ [Shows 3; Turn (Some 3%nat) nobody None; Leaves 1; Leaves 2; Turn None nobody None]) w0 o0 /\
    w_page w0 3 = GivenUp /\ w_page w0 1 = Hidden /\ w_page w0 2 = Hidden).
  { do 2 eexists. split; [vm_compute; reflexivity|]. repeat split. }
  destruct X as (w0 & o0 & L & A & B & C). eexists _, w0, o0. split; [exact L|]. split; [exact A|]. split; [exact B|]. split; [exact C|].
  intros es w o U S R. exact (proj2 (c97_given_up _ _ _ es 3%nat w o L A U S R)).
Qed.
Print Assumptions C97_given_up_refuted.

(** Two pages only. The user of the first one goes to another tab and back before the loop has made a turn (a slow service holds
    it for seconds, C96): its new request is counted with its own old stream and refused for good. *)
Theorem C97_hurry_refuted : exists es w o, lived es w o /\ only [1%nat; 2%nat] es /\ (forall a l d id, In (Turn a l d) es -> l id = false) /\
  w_page w 1 = GivenUp /\ w_page w 2 = Live 1.
Proof.
  exists (evening ++ [Leaves 1; Shows 1; Turn (Some 1%nat) nobody (Some d3)]). do 2 eexists. split; [vm_compute; reflexivity|].
  split. { intros p I. cbn in I. repeat (destruct I as [I|I]; [try discriminate; injection I as <-; cbn; tauto|]). destruct I. }
  split. { intros a l d id I. cbn in I. repeat (destruct I as [I|I]; [try discriminate; injection I as <- <- <-; reflexivity|]). destruct I. }
  split; reflexivity.
Qed.
Print Assumptions C97_hurry_refuted.

(** Two phones leave the house: no page is open any more, but the module does not know. The next page is refused. *)
Theorem C97_vanished_refuted : exists es w o, lived es w o /\ w_page w 1 = Hidden /\ w_page w 2 = Hidden /\ w_page w 3 = GivenUp /\
  broadcasts (skipn 7 es) = [d1; d2; d3].
Proof.
  exists (evening ++ [Leaves 1; Leaves 2; Turn None (fun _ => true) (Some d1); Turn None (fun _ => true) (Some d2); Shows 3;
    Turn (Some 3%nat) (fun _ => true) (Some d3)]). do 2 eexists. split; [vm_compute; reflexivity|]. repeat split.
Qed.
Print Assumptions C97_vanished_refuted.
