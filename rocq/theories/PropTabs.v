(** Property theorem C94: the tabs of the home page (data_src/index.html:845-936, 1085-1105) and the requests they make. *)
From Coq Require Import ZArith List Bool Lia.
From Verif Require Import Tabs TabsSpec TabsProofs.
Import ListNotations.
Open Scope Z_scope.

(** C94, the stream. Whatever happens, the page holds exactly one event stream while the gauges are shown, and none otherwise. *)
Theorem C94_stream : forall hash es s o, lived hash es s o ->
  length (st_open s) = match chosen hash es with Some TabGauges => 1%nat | _ => 0%nat end.
Proof. exact c94_stream. Qed.
Print Assumptions C94_stream.

(** C94, the tables are kept up to date. As long as requests are answered, in any order and after any time, there is always, for
    the table of the tab last chosen, a request in progress or one to come within 5 s (1 s for the system). Missing: a
    tab must have been chosen (C94_first_tab_refuted) and no request may fail (C94_failure_refuted). *)
Theorem C94_up_to_date_partial : forall hash es s o t r, lived hash es s o -> all_answered es ->
  chosen hash es = Some t -> table_of_tab t = Some r ->
  In r (st_asked s) \/ exists x, In x (st_timers s) /\ tm_table x = r /\ tm_due x <= st_now s + pause r.
Proof. exact c94_fresh. Qed.
Print Assumptions C94_up_to_date_partial.

(** C94, the load on the module. If the button of the table was not used, and no tab was clicked while a request was in
    progress, then while the user leaves the page alone at most one request is in progress or to come, each one comes at least 5 s
    (1 s) after the one before, and a table that is not shown is not asked for. Missing: an address with #tab_tinfo makes
    two requests (C94_address_refuted), and the button (C94_button_refuted). *)
Theorem C94_load_partial : forall hash es0 s0 o0 r es s o,
  r = RTinfo \/ r = RSys -> (hash = Some TabTinfo -> r <> RTinfo) ->
  lived hash es0 s0 o0 -> no_button r es0 -> patient r es0 (fst (opened hash)) ->
  untouched es -> happens es s0 = (s, o) ->
  (in_progress r s + waits r s <= 1)%nat /\
  (forall b z, requests_for r o0 = b ++ [z] -> spaced (pause r) (z :: requests_for r o)) /\
  (chosen hash es0 <> Some (match r with RTinfo => TabTinfo | _ => TabSys end) -> requests_for r o = []).
Proof. exact c94_rate. Qed.
Print Assumptions C94_load_partial.

(** C94, a tab that is left. Without any condition on the past, at most the waits that were running give one request each. *)
Theorem C94_left : forall hash es0 s0 o0 r es s o, lived hash es0 s0 o0 ->
  (forall t, chosen hash es0 = Some t -> table_of_tab t <> Some r) -> untouched es -> happens es s0 = (s, o) ->
  (length (requests_for r o) <= waits r s0)%nat.
Proof. exact c94_left. Qed.
Print Assumptions C94_left.

(** C94, the exact number of loops: while a tab stays, each use of the button of its table adds one for good. *)
Theorem C94_loops : forall hash es0 s0 o0 t r es s o, lived hash es0 s0 o0 -> chosen hash es0 = Some t -> table_of_tab t = Some r ->
  all_answered es -> (forall u, ~ In (Clicks u) es) -> happens es s0 = (s, o) ->
  (in_progress r s + waits r s = in_progress r s0 + waits r s0 +
     length (filter (fun e => match e with Reloads x => res_eqb r x | _ => false end) es))%nat.
Proof. exact c94_loops. Qed.
Print Assumptions C94_loops.

(** C94, a tab that is chosen: the page asks at once, and once, for each thing that the tab shows; a click on the tab already
    chosen does nothing. *)
Theorem C94_opens : forall hash es s o t s' o', lived hash es s o -> happen (Clicks t) s = (s', o') ->
  o' = if match chosen hash es with Some u => tab_eqb u t | None => false end then [] else map (fun r => (st_now s, r)) (shown_in t).
Proof. exact c94_opens. Qed.
Print Assumptions C94_opens.
Example C94_ex_opens : exists s o s', lived None [Clicks TabGauges; Passes 70] s o /\ happen (Clicks TabCfg) s = (s', [(70, RConfig); (70, RScan)]).
Proof. do 3 eexists. split; [do 3 eexists; split; [vm_compute; reflexivity|split; [vm_compute; reflexivity|reflexivity]]|vm_compute; reflexivity]. Qed.

(** The system tab, the gauges, the system tab again: streams, waits and times of the requests. *)
Definition visit : list happening :=
  [Answered 0 true; Clicks TabSys; Passes 40; Answered 0 true; Passes 1000; Fires 0; Passes 30; Answered 0 true;
   Clicks TabGauges; Passes 5000; Clicks TabSys; Passes 50; Answered 0 true].
Example C94_case : exists s o, lived None visit s o /\ all_answered visit /\ no_button RSys visit /\
  patient RSys visit (fst (opened None)) /\ chosen None visit = Some TabSys /\ table_of_tab TabSys = Some RSys /\
  st_now s = 6120 /\ st_timers s = [mk_timer 3 RSys 7120] /\ requests_for RSys o = [0; 1040; 6070] /\ st_open s = [] /\
  untouched [Passes 1000; Fires 0; Answered 0 true] /\
  snd (happens [Passes 1000; Fires 0; Answered 0 true] s) = [(7120, RSys)].
Proof.
  do 2 eexists. split; [do 3 eexists; split; [vm_compute; reflexivity|split; [vm_compute; reflexivity|reflexivity]]|].
  split. { intros n H. cbn in H. intuition discriminate. }
  split. { intros H. cbn in H. intuition discriminate. }
  split. { vm_compute. repeat split; intros; intuition discriminate. }
  split; [reflexivity|]. split; [reflexivity|]. split; [reflexivity|]. split; [reflexivity|]. split; [reflexivity|]. split; [reflexivity|].
  split; [|reflexivity]. intros e [<-|[<-|[<-|[]]]]; exact Logic.I.
Qed.
Example C94_gauges_case : exists s o, lived None (visit ++ [Clicks TabGauges]) s o /\ st_open s = [4%nat] /\ chosen None (visit ++ [Clicks TabGauges]) = Some TabGauges /\
  waits RSys s = 0%nat.
Proof.
  do 2 eexists. split; [do 3 eexists; split; [vm_compute; reflexivity|split; [vm_compute; reflexivity|reflexivity]]|].
  split; [reflexivity|split; reflexivity].
Qed.

(** The page opened without # shows the tab of the system (class "active"), but never asks for its data, not even with its button,
    as long as no tab is clicked. *)
Theorem C94_first_tab_refuted : exists s0 o0, opened None = (s0, o0) /\ requests_for RSys o0 = [] /\
  forall es s o, (forall u, ~ In (Clicks u) es) -> happens es s0 = (s, o) -> requests_for RSys o = [].
Proof. exact c94_first. Qed.
Print Assumptions C94_first_tab_refuted.

(** One request fails: nothing is asked for any more, however long the tab stays. *)
Theorem C94_failure_refuted : exists es s o, lived None es s o /\ chosen None es = Some TabTinfo /\ st_asked s = [] /\ st_timers s = [].
Proof.
  exists [Answered 0 true; Clicks TabTinfo; Answered 0 true; Passes 5000; Fires 0; Answered 0 false]. do 2 eexists.
  split; [do 3 eexists; split; [vm_compute; reflexivity|split; [vm_compute; reflexivity|reflexivity]]|].
  split; [reflexivity|split; reflexivity].
Qed.
Print Assumptions C94_failure_refuted.

(** Three uses of the button, and the page is left alone: four requests in 300 ms, and so on every 5 s. *)
Theorem C94_button_refuted : exists es0 s0 o0 es s o, lived None es0 s0 o0 /\ patient RTinfo es0 (fst (opened None)) /\
  untouched es /\ happens es s0 = (s, o) /\ requests_for RTinfo o = [5050; 5150; 5250; 5350].
Proof.
  exists [Answered 0 true; Clicks TabTinfo; Passes 50; Answered 0 true; Passes 50; Reloads RTinfo; Passes 50; Answered 0 true;
    Passes 50; Reloads RTinfo; Passes 50; Answered 0 true; Passes 50; Reloads RTinfo; Passes 50; Answered 0 true]. do 2 eexists.
  exists [Passes 4700; Fires 0; Passes 100; Fires 0; Passes 100; Fires 0; Passes 100; Fires 0]. do 2 eexists.
  split; [do 3 eexists; split; [vm_compute; reflexivity|split; [vm_compute; reflexivity|reflexivity]]|].
  split. { vm_compute. repeat split; intros; intuition discriminate. }
  split. { intros e H. cbn in H. repeat (destruct H as [<-|H]; [exact Logic.I|]). destruct H. }
  split; [vm_compute; reflexivity|reflexivity].
Qed.
Print Assumptions C94_button_refuted.

(** The page opened with #tab_tinfo (as the browser does when it is reloaded) asks twice, and goes on with two loops. *)
Theorem C94_address_refuted : exists es s o, lived (Some TabTinfo) es s o /\ untouched es /\
  requests_for RTinfo o = [0; 0; 5040; 5060].
Proof.
  exists [Passes 40; Answered 0 true; Passes 20; Answered 0 true; Passes 4980; Fires 0; Passes 20; Fires 0]. do 2 eexists.
  split; [do 3 eexists; split; [vm_compute; reflexivity|split; [vm_compute; reflexivity|reflexivity]]|].
  split; [|reflexivity]. intros e H. cbn in H. repeat (destruct H as [<-|H]; [exact Logic.I|]). destruct H.
Qed.
Print Assumptions C94_address_refuted.
