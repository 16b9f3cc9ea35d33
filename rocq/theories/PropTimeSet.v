(** Property theorems C93: the clock starts at a fixed date and jumps when a time server answers (src/timesync.cpp:144-162). *)
From Coq Require Import ZArith List Bool Lia Sorted.
From Verif Require Import Base BaseFacts Teleinfo TeleinfoSpec Publish HistorySpec WattSpec WattProofs WattSamples Clock Samples SamplesFacts
  TimeSetSpec TimeSetProofs.
Import ListNotations.
Open Scope Z_scope.

(** C93. The clock is set, by any amount and in any direction, between the frames [bef] and the frames [aft]: as soon as a
    frame is received after that, the power is the slope of the index over the frames received since, and the others
    have no part in it. Missing: the last frame before must not look recent modulo 2^32 ms (unless 48 frames came since),
    see C93_unlucky_date_refuted; and the condition on the index of C10. *)
Theorem C93_power_after_set_partial : forall sgn g1 g2 es bef aft n older periode,
  length g1 = 350%nat -> length g2 = 350%nat ->
  Forall is_byte (map snd (fed false es)) ->
  frames_in (fed false es) (bef ++ aft) -> set_between bef aft -> rev aft = n :: older -> 0 <= periode <= 2147483 ->
  (48 <= length aft)%nat \/ told_apart (periode * 1000) bef n ->
  let o := window_start (periode * 1000) n aft in
  wh n - wh o <= 1193 ->
  exists p, pub_run sgn es (pub_init g1 g2) = Some p /\ watt (p_ti p) periode = Some (slope o n).
Proof. exact c93. Qed.
Print Assumptions C93_power_after_set_partial.

(** The same from the start of the module, which believes it is 13 November 2017 until it knows the date: [d] is the real
    date of the start. *)
Theorem C93_from_start_partial : forall sgn g1 g2 es d cs1 cs2 n older, length g1 = 350%nat -> length g2 = 350%nat ->
  Forall is_byte (map snd (fed false es)) -> since_start d cs1 cs2 ->
  frames_in (fed false es) (map (kept (start_date * 1000000)) cs1 ++ map (kept d) cs2) ->
  rev cs2 = n :: older ->
  (48 <= length cs2)%nat \/ clear_jump 60000 d cs1 n ->
  let o := window_start 60000 (kept d n) (map (kept d) cs2) in
  index_of n - wh o <= 1193 ->
  exists p, pub_run sgn es (pub_init g1 g2) = Some p /\ watt (p_ti p) 60 = Some (slope o (kept d n)).
Proof. exact c93_start. Qed.
Print Assumptions C93_from_start_partial.

Definition came_at (s : Z) (hc : list Z) : came := (s * 1000000, snd (index_frame 0 0 hc)).

(** Two frames before, two after: 3600 W over the two last ones (1 Wh is counted per second). *)
Definition before4 : list came := [came_at 5 (str "000000100"); came_at 7 (str "000000140")].
Definition after4 : list came := [came_at 9 (str "000000142"); came_at 20 (str "000000153")].
Example C93_case :
  let fs := map (kept (start_date * 1000000)) before4 ++ map (kept 1600000000000000) after4 in
  Forall is_byte (map snd (concat (map sent fs))) /\ fed false (arrivals (concat (map sent fs))) = concat (map sent fs) /\
  frames_in (concat (map sent fs)) fs /\ since_start 1600000000000000 before4 after4 /\
  rev after4 = came_at 20 (str "000000153") :: [came_at 9 (str "000000142")] /\
  clear_jump 60000 1600000000000000 before4 (came_at 20 (str "000000153")) /\
  exists p, pub_run true (arrivals (concat (map sent fs))) (pub_init blank blank) = Some p /\ watt (p_ti p) 60 = Some 3600.
Proof.
  cbv zeta. split; [apply bytesb_spec; vm_compute; reflexivity|]. split; [apply fed_bytes|].
  split; [apply sent_frames; vm_compute; reflexivity|].
  split.
  { unfold since_start. split; [|split; [|split]].
    - unfold before4, after4. cbn [app]. repeat (constructor; [|repeat (constructor; [vm_compute; split; discriminate|]); constructor]). constructor.
    - intros c Hc. unfold before4, after4 in Hc. cbn [app In] in Hc.
      destruct Hc as [<-|[<-|[<-|[<-|[]]]]]; vm_compute; repeat split; discriminate.
    - intros a b Ha Hb. unfold after4 in Ha, Hb. cbn in Ha, Hb.
      destruct Ha as [<-|[<-|[]]], Hb as [<-|[<-|[]]]; reflexivity.
    - vm_compute. split; [discriminate|reflexivity]. }
  split; [reflexivity|]. split; [vm_compute; split; reflexivity|].
  eexists. split; [vm_compute; reflexivity|vm_compute; reflexivity].
Qed.
Example C93_case_set : set_between (map (kept (start_date * 1000000)) before4) (map (kept 1600000000000000) after4) /\
  told_apart 60000 (map (kept (start_date * 1000000)) before4) (kept 1600000000000000 (came_at 20 (str "000000153"))).
Proof.
  split; [apply set_since; [apply C93_case|discriminate]|]. apply clear_apart; [|apply C93_case].
  intros b [<-|[<-|[]]]; vm_compute; discriminate.
Qed.

(** A start on 13 January 2026 at the wrong moment (such a minute comes every 49.7 days): 10 Wh were used in the 20 s
    between the only frame before the clock was set and the only one after, that is 1800 W; the module says 18000 W. *)
Theorem C93_unlucky_date_refuted : exists d b n p,
  fst n - fst b = 20000000 /\ index_of n - index_of b = 10 /\ 1768262400000000 <= d < 1768348800000000 /\
  frames_in (concat (map sent [kept (start_date * 1000000) b; kept d n])) [kept (start_date * 1000000) b; kept d n] /\
  pub_run true (arrivals (concat (map sent [kept (start_date * 1000000) b; kept d n]))) (pub_init blank blank) = Some p /\
  watt (p_ti p) 60 = Some 18000.
Proof.
  exists (1510592825000000 + (60 * 4294967296 - 18000) * 1000), (came_at 5 (str "000000100")), (came_at 25 (str "000000110")). eexists.
  split; [reflexivity|]. split; [vm_compute; reflexivity|]. split; [vm_compute; split; [discriminate|reflexivity]|].
  split; [apply sent_frames; vm_compute; reflexivity|]. split; [vm_compute; reflexivity|vm_compute; reflexivity].
Qed.
Print Assumptions C93_unlucky_date_refuted.

(** Before that, the dates given with the data are those of November 2017, whatever the real date is: the module does not say that it
    does not know the date. *)
Theorem C93_date_refuted : exists c, 0 <= fst c /\
  iso8601 (tv_sec (fst (kept (start_date * 1000000) c))) = Some (str "2017-11-13T18:07:10+0100").
Proof. exists (came_at 5 (str "000000100")). split; [vm_compute; discriminate|vm_compute; reflexivity]. Qed.
Print Assumptions C93_date_refuted.
