(** Properties of the local time texts. *)
From Coq Require Import ZArith List Bool Lia.
From Verif Require Import Base Teleinfo TeleinfoSpec Publish HistorySpec Config ConfigSpec Json Tic TicSpec Pages PagesSpec
  Sse SseSpec Cpu Web Wifi WifiSpec Device WebSpec DeviceMain Clock ClockSpec ClockProofs ClockMain ClockOrder ClockPages
  Samples SamplesFacts TicSamples WebSamples PropWeb.
From Verif Require ConfigSamples.
Import ListNotations.
Open Scope Z_scope.

(** C79. The text of an instant fits the buffer, has 24 characters, and says that instant, in the legal time of France: two
    hours to the east in summer, one hour otherwise. [says], [summer]: ClockSpec.v. The last instant is two hours before the
    year 10000. *)
Theorem C79_timestamp : forall t, 0 <= t < 253402300800 - 7200 ->
  exists text o, iso8601 t = Some text /\ length text = 24%nat /\ says text o t /\ (summer t -> o = 2) /\ (~ summer t -> o = 1).
Proof. exact c79. Qed.
Print Assumptions C79_timestamp.
(** A text says one instant only; so that two instants never have the same text. *)
Theorem C79_one_instant : forall text o o' t t', says text o t -> says text o' t' -> o = o' /\ t = t'.
Proof. exact c79_reads. Qed.
Print Assumptions C79_one_instant.
Example C79_case :
  iso8601 1580000000 = Some (str "2020-01-26T01:53:20+0100") /\ iso8601 1616893199 = Some (str "2021-03-28T01:59:59+0100") /\
  iso8601 1616893200 = Some (str "2021-03-28T03:00:00+0200") /\ iso8601 1635641999 = Some (str "2021-10-31T02:59:59+0200") /\
  iso8601 1635642000 = Some (str "2021-10-31T02:00:00+0100") /\ iso8601 1709164800 = Some (str "2024-02-29T01:00:00+0100") /\
  iso8601 1735686000 = Some (str "2025-01-01T00:00:00+0100") /\ iso8601 4107538800 = Some (str "2100-03-01T00:00:00+0100").
Proof. repeat split; vm_compute; reflexivity. Qed.
Lemma day : forall z, 0 <= z -> date_of (Z.to_nat z) = civil1 z /\ weekday (Z.to_nat z) = (4 + z) mod 7.
Proof. intros z H. rewrite <- civil_date. unfold weekday. rewrite Z2Nat.id by exact H. auto. Qed.
Example C79_summer_case : summer 1616893200 /\ last_sunday 2021 3 (Z.to_nat 18714) /\ last_sunday 2021 10 (Z.to_nat 18931).
Proof.
  assert (A : last_sunday 2021 3 (Z.to_nat 18714)).
  { destruct (day 18714) as [D W]; [discriminate|]. split; [rewrite W; reflexivity | exists 28; rewrite D; split; reflexivity]. }
  assert (B : last_sunday 2021 10 (Z.to_nat 18931)).
  { destruct (day 18931) as [D W]; [discriminate|]. split; [rewrite W; reflexivity | exists 31; rewrite D; split; reflexivity]. }
  split; [|auto]. exists 2021, (Z.to_nat 18714), (Z.to_nat 18931). split; [exact A|]. split; [exact B|]. rewrite !Z2Nat.id by discriminate.
  split; [discriminate | reflexivity].
Qed.

(** The page /json with this clock, from the bytes: the time of the last valid frame, as the local text (C56 without its
    hypothesis on the text of the date). *)
Theorem C79_json_page : forall fuel sgn b d0 acts es d os a q chip, start_ok b -> boot b = Some (d0, acts) ->
  Forall is_byte (map snd (heard false es)) -> drun fuel sgn es d0 = Done (d, os) ->
  ~ refused q d -> q_uri q = str "/json" -> a_env a = clock_env chip ->
  exists r, last_valid (heard false es) r /\
    match r with
    | None => handle fuel a q d = Done (d, [Reply 200 Json (str "{}")])
    | Some (t0, bodies) => 0 <= tv_sec t0 < 253402300800 - 7200 -> Forall json_ready (pairs_of (content bodies)) ->
        exists body text o, handle fuel a q d = Done (d, [Reply 200 Json body]) /\
          json_of body = Some (JObj ((str "timestamp", JStr text) :: (str "seconds", JStr (seconds_text t0)) ::
            map (fun g => (fst g, json_value (snd g))) (pairs_of (content bodies)))) /\
          says text o (tv_sec t0) /\ (summer (tv_sec t0) -> o = 2) /\ (~ summer (tv_sec t0) -> o = 1)
    end.
Proof. exact c79_json. Qed.
Print Assumptions C79_json_page.
Example C79_json_page_case : exists d os, drun 256 true c51_history dev0 = Done (d, os) /\ ~ refused (ask "/json") d /\
  0 <= tv_sec now0 < 253402300800 - 7200 /\
  Forall json_ready (pairs_of (content [enc_group 32 (str "PAPP", str "00300")])) /\
  iso (clock_env 1) (tv_sec now0) = str "2020-01-26T01:53:20+0100".
Proof.
  destruct C56_case as (d & os & H1 & H2 & _ & H3 & _). exists d, os. split; [exact H1|]. split; [exact H2|].
  split; [split; [discriminate | reflexivity]|]. split; [exact H3 | vm_compute; reflexivity].
Qed.
(** What is broadcast is one line (C38 without its hypothesis on the text of the date). *)
Theorem C79_broadcast : forall chip t d, published_ti t -> 0 <= tv_sec (t_ts t) < 253402300800 - 7200 ->
  tic_get_json_dict (clock_env chip) t = Some d -> Forall (fun c => c <> 10 /\ c <> 13) d.
Proof. exact c79_broadcast. Qed.
Print Assumptions C79_broadcast.
Example C79_broadcast_case : published_ti (hp "00100") /\ tv_sec (t_ts (hp "00100")) = 1580000000 /\
  exists d, tic_get_json_dict (clock_env 1) (hp "00100") = Some d /\ length d = 110%nat.
Proof. split; [apply shown_published; vm_compute; reflexivity|]. split; [vm_compute; reflexivity|]. eexists. split; [vm_compute; reflexivity | reflexivity]. Qed.

(** C80. Sorting texts sorts instants, as long as the time to the east is the same. *)
Theorem C80_order_partial : forall a b o t t', says a o t -> says b o t' -> t < t' -> before a b.
Proof. exact c79_order. Qed.
Print Assumptions C80_order_partial.
Example C80_case : exists a b, iso8601 1580000000 = Some a /\ iso8601 1580083200 = Some b /\ says a 1 1580000000 /\ says b 1 1580083200 /\ before a b.
Proof.
  exists (str "2020-01-26T01:53:20+0100"), (str "2020-01-27T01:00:00+0100").
  split; [vm_compute; reflexivity|]. split; [vm_compute; reflexivity|].
  split; [|split].
  - exists (Z.to_nat 18287), 2020, 1, 26, 1, 53, 20. split; [reflexivity|]. rewrite (proj1 (day 18287 ltac:(lia))). rewrite Z2Nat.id by lia.
    split; [reflexivity|]. repeat split; lia.
  - exists (Z.to_nat 18288), 2020, 1, 27, 1, 0, 0. split; [reflexivity|]. rewrite (proj1 (day 18288 ltac:(lia))). rewrite Z2Nat.id by lia.
    split; [reflexivity|]. repeat split; lia.
  - exists (str "2020-01-2"), 54, 55, (str "T01:53:20+0100"), (str "T01:00:00+0100"). split; [reflexivity|]. split; [reflexivity | lia].
Qed.
(** Not across the end of summer time: one second later, one hour earlier. *)
Theorem C80_order_refuted : exists t a b, iso8601 t = Some a /\ iso8601 (t + 1) = Some b /\ before b a.
Proof.
  exists 1635641999, (str "2021-10-31T02:59:59+0200"), (str "2021-10-31T02:00:00+0100").
  split; [vm_compute; reflexivity|]. split; [vm_compute; reflexivity|].
  exists (str "2021-10-31T02:"), 48, 53, (str "0:00+0100"), (str "9:59+0200"). split; [reflexivity|]. split; [reflexivity | lia].
Qed.
Print Assumptions C80_order_refuted.

(** Exactly: the text of the earlier instant comes first, but when it is in summer time, the other one is not, and at most one hour later. Then it
    comes second. *)
Theorem C80_exactly : forall t t' a b, 0 <= t < t' -> t' < 253402300800 - 7200 -> iso8601 t = Some a -> iso8601 t' = Some b ->
  (before a b <-> ~ (summer t /\ ~ summer t' /\ t' - t <= 3600)) /\ (before a b \/ before b a).
Proof. exact c80_exactly. Qed.
Print Assumptions C80_exactly.
(** One hour later, the same time is printed with a smaller distance to Greenwich. *)
Example C80_exactly_case : iso8601 1635638400 = Some (str "2021-10-31T02:00:00+0200") /\ iso8601 1635642000 = Some (str "2021-10-31T02:00:00+0100") /\
  before (str "2021-10-31T02:00:00+0100") (str "2021-10-31T02:00:00+0200").
Proof.
  split; [vm_compute; reflexivity|]. split; [vm_compute; reflexivity|].
  exists (str "2021-10-31T02:00:00+0"), 49, 50, (str "00"), (str "00"). split; [reflexivity|]. split; [reflexivity | lia].
Qed.
