(** C106: the texts built from the meter's data, and what the module keeps, never grow beyond fixed limits. *)
From Coq Require Import ZArith List Bool Lia.
From Verif Require Import Base BaseFacts Teleinfo TeleinfoSpec Publish HistorySpec Config ConfigSpec Tic TicSpec Sse Cpu Web Wifi Device WebSpec DeviceProofs
  ChainSpec ChainProofs Samples SamplesFacts TicSamples WebSamples ChainSamples BoundSpec BoundMain.
Import ListNotations.
Open Scope Z_scope.

(** Whatever the module meets, every request it sends by itself and every message of a stream is within the limits of
    BoundSpec; one event causes at most six requests and two messages. *)
Theorem C106_effects : forall fuel sgn b d0 acts es d os, start_ok b -> boot b = Some (d0, acts) -> Forall devent_ok es -> Forall timely es ->
  drun fuel sgn es d0 = Done (d, os) ->
  Forall (fun o => Forall effect_fits o /\ (count is_sent o <= 6)%nat /\ (count is_text_sent o <= 2)%nat) os.
Proof. exact c106_effects. Qed.
Print Assumptions C106_effects.

(** After any history, the pages made of the meter's data are within their limits. *)
Theorem C106_pages : forall fuel sgn b d0 acts es d os a q n d' o, start_ok b -> boot b = Some (d0, acts) -> Forall devent_ok es -> Forall timely es ->
  drun fuel sgn es d0 = Done (d, os) -> dated (a_env a) -> page_room (q_uri q) = Some n -> handle fuel a q d = Done (d', o) ->
  forall code kind body, In (Reply code kind body) o -> (length body <= n)%nat.
Proof. exact c106_pages. Qed.
Print Assumptions C106_pages.

(** After any history, what is kept has the size it had at the start. *)
Theorem C106_kept : forall fuel sgn b d0 acts es d os, start_ok b -> boot b = Some (d0, acts) -> Forall devent_ok es ->
  drun fuel sgn es d0 = Done (d, os) -> small d.
Proof. exact c106_kept. Qed.
Print Assumptions C106_kept.

(** The module of ChainSamples: frames, pages and an upload; eight requests are sent; the dictionary is then asked for. *)
Lemma timely1 : Forall timely history1.
Proof.
  unfold history1, bytes_at. rewrite !Forall_app, !Forall_map.
  assert (D : forall n, dated (a_env (at_ms n))) by (intros n; split; [intros s; vm_compute; lia|vm_compute; split; [discriminate|reflexivity]]).
  assert (R : readable now0) by (vm_compute; repeat split; try reflexivity; discriminate).
  repeat split; try (apply Forall_forall; intros x _; split; [apply D|exact R]); try (apply Forall_cons; [first [apply D|exact Logic.I]|apply Forall_nil]).
Qed.
Definition outs (r : res (device * list out)) : list out := match r with Done (_, o) => o | _ => [] end.
Lemma only_reply : forall r x, outs r = [x] -> exists d, r = Done (d, [x]).
Proof. intros [[d o]| |] x H; cbn in H; try discriminate. subst o. eauto. Qed.
Example C106_ex : exists d0 acts d os d' body, start_ok start1 /\ boot start1 = Some (d0, acts) /\ Forall devent_ok history1 /\ Forall timely history1 /\
  drun 256 true history1 d0 = Done (d, os) /\ count is_sent (concat os) = 8%nat /\
  page_room (q_uri (ask "/json")) = Some dict_room /\ handle 256 (at_ms 80000) (ask "/json") d = Done (d', [Reply 200 Json body]) /\ length body = 90%nat.
Proof.
  destruct boot1 as (v & ee & B). exists (dev_at v ee), [StationMode; AutoReconnect].
  assert (X : exists body, result (fun d os => (count is_sent (concat os), outs (handle 256 (at_ms 80000) (ask "/json") d)))
    (drun 256 true history1 (dev_at v ee)) = Some (8%nat, [Reply 200 Json body]) /\ length body = 90%nat).
  { eexists. split; [vm_compute; reflexivity|reflexivity]. }
  destruct X as (body & X & L). destruct (result_ok _ _ _ _ _ X) as (d & os & R & E). assert (E1 := f_equal fst E). assert (E2 := f_equal snd E). cbn [fst snd] in E1, E2. clear E X.
  destruct (only_reply _ _ E2) as (d' & H).
  exists d, os, d', body. split; [exact start1_ok|]. split; [exact B|]. split; [exact events1|]. split; [exact timely1|]. split; [exact R|].
  split; [exact E1|]. split; [reflexivity|]. split; [exact H|exact L].
Qed.

(** The limit of the user's own URL is of the right order: 75 times the same label of one letter, whose value has 330 characters. *)
Definition long_url : cfg := set HUrl (concat (repeat (str "$A") 75) ++ [0]) (set HHost (str "server" ++ repeat 0 27) zeroed).
Example C106_long_url : exists t, published_ti t /\ option_map (fun r => Z.of_nat (length (r_url r))) (http_notif env0 long_url t MAJ) = Some (75 * 330).
Proof.
  exists (shown (frame_of [(str "A", repeat 65 330)])). split; [apply shown_published; vm_compute; reflexivity|]. vm_compute. reflexivity.
Qed.
