(** Property theorems C36 to C38 and C47: Server-sent Events clients, CPU load (src/sse.h, src/cpuload.cpp). *)
From Coq Require Import ZArith List Bool Lia.
From Verif Require Import Base BaseFacts Teleinfo TeleinfoSpec Publish HistorySpec Tic TicSpec Sse SseSpec SseProofs SseFrame
  Cpu CpuSpec CpuProofs CpuExact Samples SamplesFacts TicSamples.
Import ListNotations.
Open Scope Z_scope.

(** C36: whatever the order of requests, disconnections, polls and broadcasts, at most two streams are open (and as many
    client objects are allocated); the next request opens a stream if fewer than two are open and is refused otherwise. *)
Theorem C36_at_most_two_clients : forall es, exists s os, sse_run es sse_init = Some (s, os) /\
  0 <= open_streams 0 (concat os) <= 2 /\
  Z.of_nat (length (sse_heap s)) = open_streams 0 (concat os) /\
  sse_step Ask s = Some (handle_sse_data s) /\
  (open_streams 0 (concat os) < 2 -> exists id, snd (handle_sse_data s) = [Opened id]) /\
  (open_streams 0 (concat os) = 2 -> snd (handle_sse_data s) = [Refused]).
Proof. exact c36. Qed.
Print Assumptions C36_at_most_two_clients.
(** The first client leaves after a refusal: a slot is free again. *)
Definition leaves0 (id : nat) : bool := negb (Nat.eqb id 0).
Definition visits : list sse_event := [Ask; Ask; Ask; Broadcast (fun _ => true) (str "1"); Poll leaves0; Ask; Broadcast leaves0 (str "2")].
Example C36_case : exists s, sse_run visits sse_init = Some (s,
  [[Opened 0]; [Opened 1]; [Refused]; [SentTo 0 (event_text (str "1")); SentTo 1 (event_text (str "1"))]; [Closed 0]; [Opened 2];
   [SentTo 1 (event_text (str "2")); SentTo 2 (event_text (str "2"))]]%nat).
Proof. eexists. reflexivity. Qed.

(** C37: a stream receives, once and in order, the data of every broadcast made from its opening to the first poll or
    broadcast that finds it disconnected, and nothing else; it is then closed, exactly once. *)
Theorem C37_delivery : forall es1 es2 s os id, sse_run (es1 ++ Ask :: es2) sse_init = Some (s, os) ->
  nth_error os (length es1) = Some [Opened id] ->
  texts_to id (concat os) = map event_text (deliveries id es2) /\
  closings id (concat os) = (if lost id es2 then 1 else 0)%nat /\ openings id (concat os) = 1%nat.
Proof. exact c37. Qed.
Print Assumptions C37_delivery.
Theorem C37_only_opened_streams : forall es s os id, sse_run es sse_init = Some (s, os) -> openings id (concat os) = 0%nat ->
  texts_to id (concat os) = [] /\ closings id (concat os) = 0%nat.
Proof. exact c37_none. Qed.
Print Assumptions C37_only_opened_streams.
Example C37_case : exists s os, sse_run ([Ask] ++ Ask :: tl (tl visits)) sse_init = Some (s, os) /\
  nth_error os 1 = Some [Opened 1] /\ deliveries 1 (tl (tl visits)) = [str "1"; str "2"] /\ lost 1 (tl (tl visits)) = false /\
  openings 3 (concat os) = 0%nat /\ lost 0 (tl visits) = true.
Proof. do 2 eexists. split; [reflexivity|]. repeat split; vm_compute; reflexivity. Qed.

(** C38: what is broadcast for a frame (the dictionary page) has no end of line, provided the printed date has none; so
    that a browser gets the broadcasts of its stream one by one, unchanged ([events_of], SseSpec.v, is the reader of the
    HTML standard). *)
Theorem C38_no_end_of_line : forall e t d, published_ti t -> Forall (fun c => c <> 10 /\ c <> 13) (iso e (tv_sec (t_ts t))) ->
  tic_get_json_dict e t = Some d -> Forall (fun c => c <> 10 /\ c <> 13) d.
Proof. exact c38. Qed.
Print Assumptions C38_no_end_of_line.
Theorem C38_one_event_per_broadcast : forall es1 es2 s os id, sse_run (es1 ++ Ask :: es2) sse_init = Some (s, os) ->
  nth_error os (length es1) = Some [Opened id] ->
  Forall (fun e => match e with Broadcast _ d => Forall (fun c => c <> 10 /\ c <> 13) d | _ => True end) es2 ->
  events_of (concat (texts_to id (concat os))) = deliveries id es2.
Proof. exact c38_stream. Qed.
Print Assumptions C38_one_event_per_broadcast.
Example C38_case : published_ti (hp "00100") /\ exists d, tic_get_json_dict env0 (hp "00100") = Some d /\ length d = 110%nat /\
  iso env0 (tv_sec (t_ts (hp "00100"))) = str "2020-01-26T01:53:20+0100" /\
  events_of (concat (map event_text [d; str "1"])) = [d; str "1"].
Proof. split; [apply shown_published; vm_compute; reflexivity|]. eexists. split; [vm_compute; reflexivity|]. repeat split; vm_compute; reflexivity. Qed.

(** C47: if no second has more than 85000 iterations (the constant of the source), the load is the percentage of the
    missing iterations, averaged over ten seconds, and is between 0 and 100. [ds]: times of the iterations, in ms after the
    start, less than 49 days apart ([spaced]). *)
Theorem C47_load_partial : forall a ds, 0 <= a < 4294967296 -> spaced 1000 0 ds ->
  Forall (fun n => n <= 85000) (counted 0 (firings 1000 0 ds)) ->
  exists p, cpuload_run (times a ds) (perf_init a) = Some p /\
    cpuload_cpu p = 100 * (85000 - average (counted 0 (firings 1000 0 ds))) / 85000 /\ 0 <= cpuload_cpu p <= 100.
Proof. exact c47. Qed.
Print Assumptions C47_load_partial.
Definition half_seconds : list Z := map (fun i => 500 * Z.of_nat i) (seq 1 30).
Example C47_case : spaced 1000 0 half_seconds /\ counted 0 (firings 1000 0 half_seconds) = repeat 2 15 /\
  average (repeat 2 15) = 2.
Proof. split; [cbn; lia|]. split; reflexivity. Qed.
(** C47 fails when a second has more iterations (850010 here): the difference wraps around. *)
Theorem C47_more_iterations_refuted : exists a ds p, 0 <= a < 4294967296 /\ spaced 1000 0 ds /\
  cpuload_run (times a ds) (perf_init a) = Some p /\ cpuload_cpu p = 50529.
Proof. exact c47_refuted. Qed.
Print Assumptions C47_more_iterations_refuted.
(** Exactly: what counts is the average over ten seconds. Up to 85000 the load is a percentage; above, it is more than 3000. (A processor at 80 MHz
    makes less than 40 million iterations in a second.) *)
Theorem C47_exactly : forall a ds, 0 <= a < 4294967296 -> spaced 1000 0 ds ->
  Forall (fun n => n <= 40000000) (counted 0 (firings 1000 0 ds)) ->
  exists p, cpuload_run (times a ds) (perf_init a) = Some p /\
    let avg := average (counted 0 (firings 1000 0 ds)) in
    (avg <= 85000 -> cpuload_cpu p = 100 * (85000 - avg) / 85000 /\ 0 <= cpuload_cpu p <= 100) /\
    (85000 < avg -> cpuload_cpu p = (4294967296 - 100 * (avg - 85000)) / 85000 /\ 3000 < cpuload_cpu p).
Proof. exact c47_exactly. Qed.
Print Assumptions C47_exactly.
Example C47_exactly_case : spaced 1000 0 half_seconds /\ Forall (fun n => n <= 40000000) (counted 0 (firings 1000 0 half_seconds)) /\
  100 * (85000 - average (counted 0 (firings 1000 0 half_seconds))) / 85000 = 99.
Proof. split; [cbn; lia|]. split; [change (counted 0 (firings 1000 0 half_seconds)) with (repeat 2 15); repeat constructor; discriminate | reflexivity]. Qed.
