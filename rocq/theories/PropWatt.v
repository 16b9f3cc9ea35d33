(** Property theorems C10: the power estimate (src/teleinfo.h:67-209). *)
From Coq Require Import ZArith List Bool Lia Sorted.
From Verif Require Import Base BaseFacts Teleinfo TeleinfoSpec Publish HistorySpec WattSpec WattProofs WattExact WattSamples Samples SamplesFacts.
Import ListNotations.
Open Scope Z_scope.

(** C10, safety: for every history and clock and every period up to 2147483 s (the code only uses 60), watt() neither
    divides by zero nor leaves its ring. *)
Theorem C10_watt_never_fails : forall sgn g1 g2 es periode,
  List.length g1 = 350%nat -> List.length g2 = 350%nat -> Forall is_byte (map snd (fed false es)) ->
  0 <= periode <= 2147483 ->
  exists p w, pub_run sgn es (pub_init g1 g2) = Some p /\ watt (p_ti p) periode = Some w.
Proof. exact c10_safe. Qed.
Print Assumptions C10_watt_never_fails.

(** C10, value. [fs] is the list of valid frames received, [n] the newest, [o] the oldest of the last 48 that is not more
    than the period before [n]. Missing with respect to the full claim: the clock and the meter must be in normal
    operation (see [normal]) and the index must not move by more than 1193 Wh in the window; the theorems below show
    that these conditions are needed. *)
Theorem C10_power_is_index_slope_partial : forall sgn g1 g2 es fs n older periode,
  List.length g1 = 350%nat -> List.length g2 = 350%nat ->
  Forall is_byte (map snd (fed false es)) ->
  frames_in (fed false es) fs -> normal fs -> rev fs = n :: older -> 0 <= periode <= 2147483 ->
  let o := window_start (periode * 1000) n fs in
  wh n - wh o <= 1193 ->
  exists p, pub_run sgn es (pub_init g1 g2) = Some p /\
   watt (p_ti p) periode = Some (if at_ms n =? at_ms o then 0 else 3600000 * (wh n - wh o) / (at_ms n - at_ms o)).
Proof. exact c10. Qed.
Print Assumptions C10_power_is_index_slope_partial.

(** C10, for any consumption: the product is taken modulo 2^32, and the power is the slope if and only if the index moved by at
    most 1193 Wh in the window. *)
Theorem C10_any_consumption : forall sgn g1 g2 es fs n older periode,
  List.length g1 = 350%nat -> List.length g2 = 350%nat ->
  Forall is_byte (map snd (fed false es)) ->
  frames_in (fed false es) fs -> normal fs -> rev fs = n :: older -> 0 <= periode <= 2147483 ->
  let o := window_start (periode * 1000) n fs in
  exists p w, pub_run sgn es (pub_init g1 g2) = Some p /\ watt (p_ti p) periode = Some w /\
    (at_ms n = at_ms o -> w = 0) /\
    (at_ms n <> at_ms o -> w = (3600000 * (wh n - wh o)) mod 4294967296 / (at_ms n - at_ms o) /\
       (w = 3600000 * (wh n - wh o) / (at_ms n - at_ms o) <-> wh n - wh o <= 1193)).
Proof. exact c10_any. Qed.
Print Assumptions C10_any_consumption.

(** The list of frames is a function of the bytes received. *)
Theorem C10_frames_are_determined : forall h fs1, frames_in h fs1 -> forall fs2, frames_in h fs2 -> fs1 = fs2.
Proof. exact frames_in_unique. Qed.
Print Assumptions C10_frames_are_determined.

(** Four frames; the first is out of the one-minute window: 3 Wh in 50.5 s. *)
Example C10_case :
  let fs := [index_frame 1580000000 0 (str "000000100"); index_frame 1580000020 500000 (str "000000101");
             index_frame 1580000040 0 (str "000000102"); index_frame 1580000071 0 (str "000000104")] in
  let n := index_frame 1580000071 0 (str "000000104") in
  Forall is_byte (map snd (concat (map sent fs))) /\
  fed false (arrivals (concat (map sent fs))) = concat (map sent fs) /\
  frames_in (concat (map sent fs)) fs /\ normal fs /\ rev fs = n :: tl (rev fs) /\
  window_start 60000 n fs = index_frame 1580000020 500000 (str "000000101") /\
  wh n - wh (window_start 60000 n fs) = 3 /\ at_ms n - at_ms (window_start 60000 n fs) = 50500 /\
  exists p, pub_run true (arrivals (concat (map sent fs))) (pub_init blank blank) = Some p /\ watt (p_ti p) 60 = Some 213.
Proof.
  cbv zeta. split; [apply bytesb_spec; vm_compute; reflexivity|]. split; [apply fed_bytes|].
  split; [apply sent_frames; vm_compute; reflexivity|].
  split; [apply normalb_spec; vm_compute; reflexivity|].
  split; [reflexivity|]. split; [vm_compute; reflexivity|]. split; [vm_compute; reflexivity|]. split; [vm_compute; reflexivity|].
  eexists. split; [vm_compute; reflexivity|vm_compute; reflexivity].
Qed.

(** 3600000 * 1194 does not fit 32 bits: 1194 Wh in 60 s (71640 W) is reported as 57 W. *)
Theorem C10_overflow_refuted : exists fs n p,
  frames_in (concat (map sent fs)) fs /\ rev fs = n :: tl (rev fs) /\
  wh n - wh (window_start 60000 n fs) = 1194 /\ at_ms n - at_ms (window_start 60000 n fs) = 60000 /\
  pub_run true (arrivals (concat (map sent fs))) (pub_init blank blank) = Some p /\
  watt (p_ti p) 60 = Some 57.
Proof.
  exists [index_frame 1580000000 0 (str "000001000"); index_frame 1580000060 0 (str "000002194")],
         (index_frame 1580000060 0 (str "000002194")). eexists.
  split; [apply sent_frames; vm_compute; reflexivity|].
  split; [reflexivity|]. split; [vm_compute; reflexivity|]. split; [vm_compute; reflexivity|]. split; [vm_compute; reflexivity|vm_compute; reflexivity].
Qed.
Print Assumptions C10_overflow_refuted.

(** First frame received during second 1 of the clock (no NTP yet): the base is taken again at the second frame, and the
    10 Wh in between are lost: 0 instead of 18000 W. *)
Theorem C10_start_at_second_one_refuted : exists fs n p,
  frames_in (concat (map sent fs)) fs /\ rev fs = n :: tl (rev fs) /\
  wh n - wh (window_start 60000 n fs) = 10 /\ at_ms n - at_ms (window_start 60000 n fs) = 2000 /\
  pub_run true (arrivals (concat (map sent fs))) (pub_init blank blank) = Some p /\
  watt (p_ti p) 60 = Some 0.
Proof.
  exists [index_frame 1 0 (str "000001000"); index_frame 3 0 (str "000001010")],
         (index_frame 3 0 (str "000001010")). eexists.
  split; [apply sent_frames; vm_compute; reflexivity|].
  split; [reflexivity|]. split; [vm_compute; reflexivity|]. split; [vm_compute; reflexivity|]. split; [vm_compute; reflexivity|vm_compute; reflexivity].
Qed.
Print Assumptions C10_start_at_second_one_refuted.

(** With an enormous period a clock set back by 1000 s divides by zero. *)
Theorem C10_huge_period_refuted : exists es p, pub_run true es (pub_init blank blank) = Some p /\
  watt (p_ti p) 4294967 = None.
Proof.
  exists (arrivals (concat (map sent [index_frame 1580002000 0 (str "000001000"); index_frame 1580001000 0 (str "000001010")]))).
  eexists. split; [vm_compute; reflexivity|vm_compute; reflexivity].
Qed.
Print Assumptions C10_huge_period_refuted.

(** A contract without HCHC/HCHP indexes (BASE, EJP, Tempo) always shows 0 W. *)
Theorem C10_other_contracts_always_zero : forall sgn g1 g2 es fs periode,
  List.length g1 = 350%nat -> List.length g2 = 350%nat ->
  Forall is_byte (map snd (fed false es)) -> frames_in (fed false es) fs ->
  (forall f, In f fs -> lookup (str "HCHC") (pairs_of (content (snd f))) = None /\ lookup (str "HCHP") (pairs_of (content (snd f))) = None) ->
  0 <= periode <= 2147483 ->
  exists p, pub_run sgn es (pub_init g1 g2) = Some p /\ watt (p_ti p) periode = Some 0.
Proof. exact c10_flat. Qed.
Print Assumptions C10_other_contracts_always_zero.

Example C10_other_contracts_case :
  let f := (now0, [enc_group 32 (str "BASE", str "012345678")]) in
  frames_in (sent f) [f] /\
  lookup (str "HCHC") (pairs_of (content (snd f))) = None /\ lookup (str "HCHP") (pairs_of (content (snd f))) = None.
Proof.
  cbv zeta. split; [|split; vm_compute; reflexivity].
  rewrite <- (app_nil_r (sent _)).
  exact (sent_frames [(now0, [enc_group 32 (str "BASE", str "012345678")])] eq_refl).
Qed.
