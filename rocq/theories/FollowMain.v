(** What a server knows, for the histories of the module. *)
From Coq Require Import ZArith List Bool Lia.
From Verif Require Import Base BaseFacts Teleinfo TeleinfoSpec Publish HistorySpec Config ConfigSpec Tic TicSpec Web Wifi Device WebSpec DeviceProofs
  ChainSpec ChainProofs ChainMain FollowSpec FollowProofs.
Import ListNotations.
Open Scope Z_scope.

Section History.
Variables (fuel : nat) (sgn : bool) (b : start) (d0 : device) (acts : list wifi_act) (en : env) (es : list devent) (d : device) (os : list (list out)) (xs : list trial).
Hypothesis St : start_ok b.
Hypothesis Bo : boot b = Some (d0, acts).
Hypothesis By : Forall is_byte (map snd (heard false es)).
Hypothesis En : Forall (same_env en) es.
Hypothesis Ru : drun fuel sgn es d0 = Done (d, os).
Hypothesis NR : ~ In RestartNow (concat os).
Hypothesis Fr : frames fuel sgn d0 [] es (map fst xs).

Lemma all_watched : forall A trigger (look : list group -> A) ms, Forall (on trigger) ms -> map (watched trigger look) ms = map (fun m => Some (look (m_groups m))) ms.
Proof. intros A trigger look ms H. apply map_ext_in. intros m I. apply watched_on. rewrite Forall_forall in H. exact (H m I). Qed.

Lemma edges_ok : Forall (fun x => on s_adps (fst x)) xs ->
  map (fun m => (sends ADPS m, sends NORM m)) (map fst xs) = edges false (map (fun m => Some (in_overload m)) (map fst xs)).
Proof.
  intros H. rewrite (c99_overload fuel sgn b d0 acts en es d os (map fst xs) St Bo By En Ru NR Fr). f_equal. apply all_watched. rewrite Forall_map. exact H.
Qed.
Lemma c110_overload : Forall (fun x => on s_adps (fst x)) xs -> forall m, last_frame xs m ->
  Forall reached xs \/ (exists before x after, xs = before ++ x :: after /\ (got ADPS x = true \/ got NORM x = true) /\ Forall reached after) ->
  overload_known xs = in_overload m.
Proof.
  intros H m L [R|(bf & x & af & E & G & R)].
  - exact (overload_step xs false (edges_ok H) R m L).
  - exact (overload_from xs (edges_ok H) bf x af m E G R L).
Qed.
Lemma c110_overload_lost : Forall (fun x => on s_adps (fst x)) xs -> forall before m after, xs = before ++ (m, false) :: after ->
  Forall (fun x => in_overload (fst x) = in_overload m) after -> overload_known xs = overload_known before.
Proof. intros H. exact (overload_lost xs (edges_ok H)). Qed.

Lemma changes_ok : Forall (fun x => on s_ptec (fst x)) xs -> Forall short (map fst xs) ->
  map (sends PTEC) (map fst xs) = changes None (map (fun m => Some (period_of m)) (map fst xs)).
Proof.
  intros H S. rewrite (c99_tariff fuel sgn b d0 acts en es d os (map fst xs) St Bo By En Ru NR Fr). rewrite <- (changes_short _ None S Logic.I). f_equal.
  apply (all_watched _ s_ptec (lookup (str "PTEC"))). rewrite Forall_map. exact H.
Qed.
Lemma c110_period : Forall (fun x => on s_ptec (fst x)) xs -> Forall (fun x => short (fst x)) xs -> forall m, last_frame xs m ->
  (Forall reached xs -> period_known xs = period_of m \/ (period_known xs = None /\ forall x, In x xs -> period_of (fst x) = period_of m)) /\
  (forall before x after, xs = before ++ x :: after -> got PTEC x = true -> Forall reached after -> period_known xs = period_of m).
Proof.
  intros H S m L. rewrite <- Forall_map in S. split.
  - intros R. exact (tariff_all xs S (changes_ok H S) R m L).
  - intros bf x af E G R. exact (tariff_from xs S (changes_ok H S) bf x af m E G R L).
Qed.
Lemma c110_period_lost : Forall (fun x => on s_ptec (fst x)) xs -> Forall (fun x => short (fst x)) xs -> forall before m after, xs = before ++ (m, false) :: after ->
  Forall (fun x => period_of (fst x) = period_of m) after -> period_known xs = period_known before.
Proof. intros H S. rewrite <- Forall_map in S. exact (tariff_lost xs S (changes_ok H S)). Qed.

Lemma c110_power : forall low high, low < high ->
  Forall (fun x => on s_seuils (fst x) /\ power (m_groups (fst x)) <> 0 /\ s_seuil_bas (m_set (fst x)) = low /\ s_seuil_haut (m_set (fst x)) = high) xs ->
  forall m, last_frame xs m ->
  Forall reached xs \/ (exists before x after, xs = before ++ x :: after /\ (got HAUT x = true \/ got BAS x = true) /\ Forall reached after) ->
  (high_known xs = true -> low < power (m_groups m)) /\ (high_known xs = false -> power (m_groups m) < high).
Proof.
  intros low high LH S m L H. rewrite <- (Forall_map fst (fun m => on s_seuils m /\ power (m_groups m) <> 0 /\ s_seuil_bas (m_set m) = low /\ s_seuil_haut (m_set m) = high)) in S.
  pose proof (c99_thresholds fuel sgn b d0 acts en es d os (map fst xs) St Bo By En Ru NR Fr) as T.
  apply (high_says _ low high T LH S xs m eq_refl L). destruct H as [R|(bf & x & af & E & G & R)].
  - exact (high_all _ low high T LH S xs eq_refl R).
  - exact (high_from _ low high T LH S xs bf x af eq_refl E G R).
Qed.
Lemma c110_power_lost : forall low high, low < high ->
  Forall (fun x => on s_seuils (fst x) /\ power (m_groups (fst x)) <> 0 /\ s_seuil_bas (m_set (fst x)) = low /\ s_seuil_haut (m_set (fst x)) = high) xs ->
  forall before m after, xs = before ++ (m, false) :: after ->
  (sends HAUT m = true /\ Forall (fun x => low < power (m_groups (fst x))) after) \/ (sends BAS m = true /\ Forall (fun x => power (m_groups (fst x)) < high) after) ->
  high_known xs = high_known before.
Proof.
  intros low high LH S before m after E H. rewrite <- (Forall_map fst (fun m => on s_seuils m /\ power (m_groups m) <> 0 /\ s_seuil_bas (m_set m) = low /\ s_seuil_haut (m_set m) = high)) in S.
  pose proof (c99_thresholds fuel sgn b d0 acts en es d os (map fst xs) St Bo By En Ru NR Fr) as T.
  exact (high_lost _ low high T LH S xs before m after eq_refl E H).
Qed.
End History.
