(** Property theorems C01-C09 and C50: frame decoding and access (src/teleinfo.h, src/tic.cpp:54-85). *)
From Coq Require Import ZArith List Bool Lia.
From Verif Require Import Base BaseFacts Teleinfo TeleinfoSpec Publish HistorySpec PublishProofs PauseProofs DumpProofs TeleinfoMain Samples SamplesFacts.
Import ListNotations.
Open Scope Z_scope.

(** C01. For every history [h] of received bytes (with their arrival times), every initial buffer content, either
    signedness of char: the decoder is ready exactly when [h] ends with a valid frame; what it then shows is the
    content of that frame, stamped with the time of its STX. *)
Theorem C01_ready_iff_valid_frame_just_ended : forall sgn garbage h,
  List.length garbage = 350%nat -> Forall is_byte (map snd h) ->
  exists d, run sgn h (dec_init garbage) = Some d /\
   (ready d = true <-> exists t0 bodies, frame_ends h t0 bodies /\ valid_frame bodies) /\
   (forall t0 bodies, frame_ends h t0 bodies -> valid_frame bodies ->
      d_ts d = t0 /\ firstn (d_size d) (d_frame d) = content bodies).
Proof. exact c01. Qed.
Print Assumptions C01_ready_iff_valid_frame_just_ended.

(** Non-trivial case: garbage, then an interrupted frame, then a complete one. *)
Example C01_case : let h := ev ([65; 13; 255; 2; 10; 65; 4] ++ meter_bytes) in
  List.length blank = 350%nat /\ Forall is_byte (map snd h) /\
  (exists t0, frame_ends h t0 (map enc_t meter)) /\ valid_frame (map enc_t meter) /\
  exists d, run true h (dec_init blank) = Some d /\ ready d = true.
Proof.
  cbv zeta. split; [reflexivity|]. split; [apply bytesb_spec; vm_compute; reflexivity|].
  split. { exists now0. exists (ev [65; 13; 255; 2; 10; 65; 4]), (ev (tl meter_bytes)). split; vm_compute; reflexivity. }
  split; [apply valid_frameb_spec; vm_compute; reflexivity|].
  eexists. split; [vm_compute; reflexivity|]. vm_compute. reflexivity.
Qed.

(** C02. Whatever came before, the labels and values sent by the meter are the ones read back, in order. *)
Theorem C02_round_trip : forall sgn garbage pre t0 rest gs,
  List.length garbage = 350%nat -> Forall is_byte (map snd pre) ->
  gs <> [] -> Forall good_t gs -> fits 0 (map enc_t gs) ->
  map snd ((t0, 2) :: rest) = frame_bytes (map enc_t gs) ->
  exists d, run sgn (pre ++ (t0, 2) :: rest) (dec_init garbage) = Some d /\ ready d = true /\ d_ts d = t0 /\
   all_pairs (d_frame d) (d_size d) = Some (map (fun x => shown (snd x)) gs).
Proof. exact c02. Qed.
Print Assumptions C02_round_trip.

(** A frame of at most 351 bytes on the line (STX and ETX included) always fits. *)
Theorem C02_short_frames_fit : forall gs, Forall good_t gs ->
  (List.length (frame_bytes (map enc_t gs)) <= 351)%nat -> fits 0 (map enc_t gs).
Proof. exact c02_short. Qed.
Print Assumptions C02_short_frames_fit.

Example C02_case : meter <> [] /\ Forall good_t meter /\ fits 0 (map enc_t meter) /\
  (List.length meter_bytes <= 351)%nat /\
  map (fun x => shown (snd x)) [nth 1 meter (0, ([], [])); nth 9 meter (0, ([], []))] =
   [(str "OPTARIF", str "HC"); (str "HHPHC", str "D")].
Proof.
  split; [discriminate|]. split; [apply goods_spec; vm_compute; reflexivity|].
  split; [apply fitsb_spec; vm_compute; reflexivity|]. split; [apply Nat.leb_le; vm_compute; reflexivity|]. vm_compute. reflexivity.
Qed.

(** C03. After any byte history no accessor leaves the buffer ([ask] is never [None]) and no answer depends on what the
    buffer contained before ([g1] against [g2]). [proper] is the caller's part: a destination of at least two bytes. *)
Theorem C03_accessors_safe_and_independent_of_stale_bytes : forall sgn g1 g2 h,
  List.length g1 = 350%nat -> List.length g2 = 350%nat -> Forall is_byte (map snd h) ->
  exists d1 d2, run sgn h (dec_init g1) = Some d1 /\ run sgn h (dec_init g2) = Some d2 /\
   List.length (d_frame d1) = 350%nat /\ ready d1 = ready d2 /\
   forall q, proper q ->
     ask (d_frame d1) (d_size d1) q <> None /\
     ask (d_frame d1) (d_size d1) q = ask (d_frame d2) (d_size d2) q.
Proof. exact c03. Qed.
Print Assumptions C03_accessors_safe_and_independent_of_stale_bytes.

Example C03_case : proper (AskAscii (repeat 7 40)) /\ proper (AskCopy now0 (ti_init blank)) /\
  (d <- run true (ev meter_bytes) (dec_init blank) ;; ask (d_frame d) (d_size d) (AskInt (str "PAPP") 7)) = Some (AInt 1890).
Proof.
  split; [cbn; lia|]. split; [apply ring_ok_init; reflexivity|]. vm_compute. reflexivity.
Qed.

(** The caller's obligation is needed: a one-byte destination is overrun (src/teleinfo.h:365, size - 2 wraps). *)
Theorem C03_one_byte_destination_refuted : exists h d, run false h (dec_init blank) = Some d /\
  ask (d_frame d) (d_size d) (AskAscii [7]) = None.
Proof. exists (ev meter_bytes). eexists. split; [vm_compute; reflexivity|]. vm_compute. reflexivity. Qed.
Print Assumptions C03_one_byte_destination_refuted.

(** C04. The full claim "one altered byte inside a group is always rejected" is false (next two theorems).
    What holds, exactly: the frame is published if and only if the alteration is not [detectable]. *)
Theorem C04_detectable_corruption_rejected_partial : forall sgn garbage pre bs1 p1 x p2 y bs2 h1 h2,
  List.length garbage = 350%nat -> Forall is_byte (map snd pre) ->
  valid_frame (bs1 ++ (p1 ++ x :: p2) :: bs2) -> is_byte y -> detectable x p2 y ->
  map snd (h1 ++ h2) = altered_frame bs1 p1 y p2 bs2 -> h1 <> [] ->
  exists d, run sgn (pre ++ h1) (dec_init garbage) = Some d /\ ready d = false.
Proof. exact c04_detected. Qed.
Print Assumptions C04_detectable_corruption_rejected_partial.

Theorem C04_undetectable_corruption_accepted : forall sgn garbage pre t0 rest bs1 p1 x p2 y bs2,
  List.length garbage = 350%nat -> Forall is_byte (map snd pre) ->
  valid_frame (bs1 ++ (p1 ++ x :: p2) :: bs2) -> is_byte y ->
  ~ detectable x p2 y -> fits 0 (bs1 ++ (p1 ++ y :: p2) :: bs2) ->
  map snd ((t0, 2) :: rest) = altered_frame bs1 p1 y p2 bs2 ->
  exists d, run sgn (pre ++ (t0, 2) :: rest) (dec_init garbage) = Some d /\ ready d = true /\
    firstn (d_size d) (d_frame d) = content (bs1 ++ (p1 ++ y :: p2) :: bs2).
Proof. exact c04_undetected. Qed.
Print Assumptions C04_undetectable_corruption_accepted.

(** "PAPP 01890": the digit 8 received as '9', and as a control character. *)
Example C04_case : let b := enc_group 32 (str "PAPP", str "01890") in
  b = str "PAPP 01" ++ 56 :: str "90 3" /\ valid_frame ([] ++ (str "PAPP 01" ++ 56 :: str "90 3") :: []) /\
  detectable 56 (str "90 3") 57 /\ detectable 56 (str "90 3") 3.
Proof.
  cbv zeta. split; [vm_compute; reflexivity|]. split; [apply valid_frameb_spec; vm_compute; reflexivity|].
  split; (split; [lia|]).
  - right. left. split; [cbn; lia|]. vm_compute. discriminate.
  - left. reflexivity.
Qed.

(** Bit 6 of a label character lost: "PAPP" is read as "PA" 0x10 "P", and the frame is published. *)
Theorem C04_bit6_refuted : exists bs1 p1 x p2 y bs2 d,
  valid_frame (bs1 ++ (p1 ++ x :: p2) :: bs2) /\ is_byte y /\ y <> x /\
  run true (ev (altered_frame bs1 p1 y p2 bs2)) (dec_init blank) = Some d /\ ready d = true /\
  all_pairs (d_frame d) (d_size d) = Some [([80; 65; 16; 80], str "01890")].
Proof.
  exists [], (str "PA"), 80, (str "P 01890 3"), 16, [].
  eexists. split; [apply valid_frameb_spec; vm_compute; reflexivity|]. split; [unfold is_byte; lia|]. split; [lia|].
  split; [vm_compute; reflexivity|]. split; vm_compute; reflexivity.
Qed.
Print Assumptions C04_bit6_refuted.

(** The second separator is not covered by the checksum: altered into '1', the label and value are not even split the
    way they were sent. *)
Theorem C04_second_separator_refuted : exists bs1 p1 x p2 y bs2 d,
  valid_frame (bs1 ++ (p1 ++ x :: p2) :: bs2) /\ is_byte y /\ y <> x /\
  run true (ev (altered_frame bs1 p1 y p2 bs2)) (dec_init blank) = Some d /\ ready d = true /\
  all_pairs (d_frame d) (d_size d) = Some [(str "PAPP 0", str "890")].
Proof.
  exists [], (str "PAPP 01890"), 32, (str "3"), 49, [].
  eexists. split; [apply valid_frameb_spec; vm_compute; reflexivity|]. split; [unfold is_byte; lia|]. split; [lia|].
  split; [vm_compute; reflexivity|]. split; vm_compute; reflexivity.
Qed.
Print Assumptions C04_second_separator_refuted.

(** C05. On the published data (after any sequence of bytes and pauses): get_value finds the first pair of the
    iteration whose label is exactly the one asked, and nothing if there is none. *)
Theorem C05_lookup_is_first_exact_match : forall sgn g1 g2 es p,
  List.length g1 = 350%nat -> List.length g2 = 350%nat ->
  Forall is_byte (map snd (fed false es)) -> pub_run sgn es (pub_init g1 g2) = Some p ->
  exists gs, all_pairs (t_frame (p_ti p)) (t_size (p_ti p)) = Some gs /\
   forall label,
    get_value (t_frame (p_ti p)) (t_size (p_ti p)) label false = Some (lookup label gs) /\
    get_value (t_frame (p_ti p)) (t_size (p_ti p)) label true = Some (option_map trim_number (lookup label gs)).
Proof. exact c05. Qed.
Print Assumptions C05_lookup_is_first_exact_match.

(** Two groups with the same label, and a label that is a prefix of another. *)
Example C05_case : let gs := [(32, (str "PAP", str "1")); (32, (str "PAPP", str "0002")); (32, (str "PAPP", str "3"))] in
  let es := feed (frame_bytes (map enc_t gs)) in
  Forall is_byte (map snd (fed false es)) /\
  exists p, pub_run true es (pub_init blank blank) = Some p /\
    get_value (t_frame (p_ti p)) (t_size (p_ti p)) (str "PAPP") true = Some (Some (str "2")) /\
    get_value (t_frame (p_ti p)) (t_size (p_ti p)) (str "PA") true = Some None.
Proof.
  cbv zeta. split; [apply bytesb_spec; vm_compute; reflexivity|].
  eexists. split; [vm_compute; reflexivity|]. split; vm_compute; reflexivity.
Qed.

(** C05, as "the group that was sent with that label": a group whose checksum is right but which has no separator
    between label and value is accepted and shifts all the following labels and values. *)
Theorem C05_group_without_separator_refuted : exists bodies d,
  valid_frame bodies /\ In (enc_group 32 (str "PAPP", str "01890")) bodies /\
  run true (ev (frame_bytes bodies)) (dec_init blank) = Some d /\ ready d = true /\
  get_value (d_frame d) (d_size d) (str "PAPP") true = Some None /\
  get_value (d_frame d) (d_size d) (str "AB") true = Some (Some (str "PAPP")).
Proof.
  exists [str "AB" ++ [32; checksum (str "AB")]; enc_group 32 (str "PAPP", str "01890")]. eexists.
  split; [apply valid_frameb_spec; vm_compute; reflexivity|]. split; [right; left; reflexivity|].
  split; [vm_compute; reflexivity|]. repeat split; vm_compute; reflexivity.
Qed.
Print Assumptions C05_group_without_separator_refuted.

(** C06. *)
Theorem C06_integer_of_value : forall sgn g1 g2 es p label default,
  List.length g1 = 350%nat -> List.length g2 = 350%nat ->
  Forall is_byte (map snd (fed false es)) -> pub_run sgn es (pub_init g1 g2) = Some p ->
  exists v, get_value (t_frame (p_ti p)) (t_size (p_ti p)) label false = Some v /\
   get_value_int (t_frame (p_ti p)) (t_size (p_ti p)) label default =
   Some match v with
        | Some s => if forallb isdigit s then dec_value s mod 4294967296 else default
        | None => default
        end.
Proof. exact c06_int. Qed.
Print Assumptions C06_integer_of_value.

Theorem C06_leading_zeros : forall v, v <> [] ->
  trim_number v <> [] /\
  (forallb isdigit v = true -> forallb isdigit (trim_number v) = true /\ dec_value (trim_number v) = dec_value v /\
     forall c r, trim_number v = c :: r -> r <> [] -> c <> 48) /\
  (forallb isdigit v = false -> trim_number v = v).
Proof. exact c06_trim. Qed.
Print Assumptions C06_leading_zeros.

Example C06_case : trim_number (str "0000") = str "0" /\ trim_number (str "00A") = str "00A" /\
  int_of 5 (Some (str "0052890470")) = 52890470 /\ int_of 5 (Some (str "5.2")) = 5 /\ int_of 5 (Some (str "4294967297")) = 1.
Proof. repeat split; vm_compute; reflexivity. Qed.

(** C07. What every reader sees is the last valid frame among all the bytes received so far; nothing before the first. *)
Theorem C07_published_is_last_valid_frame : forall sgn g1 g2 es,
  List.length g1 = 350%nat -> List.length g2 = 350%nat ->
  Forall is_byte (map snd (received es)) -> (forall b, ~ In (Pause b) es) ->
  exists p r, pub_run sgn es (pub_init g1 g2) = Some p /\ last_valid (received es) r /\
   match r with
   | None => published p = []
   | Some (t0, bodies) => published p = content bodies /\ t_ts (p_ti p) = t0
   end.
Proof. exact c07. Qed.
Print Assumptions C07_published_is_last_valid_frame.

(** The same with pauses (firmware upload): the last valid frame among the bytes received while not paused. *)
Theorem C07_published_with_pauses : forall sgn g1 g2 es,
  List.length g1 = 350%nat -> List.length g2 = 350%nat ->
  Forall is_byte (map snd (fed false es)) ->
  exists p r, pub_run sgn es (pub_init g1 g2) = Some p /\ last_valid (fed false es) r /\
   match r with
   | None => published p = []
   | Some (t0, bodies) => published p = content bodies /\ t_ts (p_ti p) = t0
   end.
Proof. exact published_last. Qed.
Print Assumptions C07_published_with_pauses.

Example C07_case : let es := feed (meter_bytes ++ [2; 10; 65; 32; 66; 32; 0; 13; 3] ++ [2; 10; 65; 4]) in
  Forall is_byte (map snd (received es)) /\ (forall b, ~ In (Pause b) es) /\
  exists p, pub_run false es (pub_init blank blank) = Some p /\ published p = content (map enc_t meter).
Proof.
  cbv zeta. split; [apply bytesb_spec; vm_compute; reflexivity|]. split.
  - intros b H. apply in_map_iff in H. destruct H as (x & Hx & _). discriminate.
  - eexists. split; vm_compute; reflexivity.
Qed.

(** C08. The decoder and the published data are the same for signed and unsigned char. *)
Theorem C08_char_signedness_irrelevant : forall garbage h,
  Forall is_byte garbage -> run true h (dec_init garbage) = run false h (dec_init garbage).
Proof. intros garbage h Hb. exact (run_sign h (dec_init garbage) Hb). Qed.
Print Assumptions C08_char_signedness_irrelevant.

Example C08_case : Forall is_byte blank /\ (d <- run true (ev (2 :: 10 :: [200; 32; 255; 32; checksum [200; 32; 255]] ++ [13; 3])) (dec_init blank) ;; Some (ready d)) = Some true.
Proof. split; [apply bytesb_spec; vm_compute; reflexivity|]. vm_compute. reflexivity. Qed.

(** C09. The dump never leaves its destination, is NUL-terminated, and shows only whole lines "LABEL VALUE". *)
Theorem C09_ascii_dump_whole_lines : forall sgn g1 g2 es p dst,
  List.length g1 = 350%nat -> List.length g2 = 350%nat ->
  Forall is_byte (map snd (fed false es)) -> pub_run sgn es (pub_init g1 g2) = Some p -> (2 <= List.length dst)%nat ->
  exists dst' j gs k, get_frame_ascii (t_frame (p_ti p)) (t_size (p_ti p)) dst = Some (dst', j) /\
    all_pairs (t_frame (p_ti p)) (t_size (p_ti p)) = Some gs /\
    List.length dst' = List.length dst /\ (j < List.length dst)%nat /\ nth j dst' 1 = 0 /\
    firstn j dst' = concat (firstn k (map (fun g => fst g ++ [32] ++ snd g ++ [10]) gs)).
Proof. exact c09. Qed.
Print Assumptions C09_ascii_dump_whole_lines.

(** Every line is shown when the destination is two bytes larger than the frame. *)
Theorem C09_ascii_dump_complete : forall gs R dst, gs <> [] -> Forall good_t gs -> fits 0 (map enc_t gs) ->
  (List.length (content (map enc_t gs)) + 2 <= List.length dst)%nat ->
  exists dst' j, get_frame_ascii (content (map enc_t gs) ++ R) (List.length (content (map enc_t gs))) dst = Some (dst', j) /\
   (j < List.length dst')%nat /\ nth j dst' 1 = 0 /\
   firstn j dst' = concat (map (fun x => line (shown (snd x))) gs).
Proof. exact c09_full. Qed.
Print Assumptions C09_ascii_dump_complete.

Example C09_case : let gs := [(32, (str "A", str "1")); (32, (str "BC", str "2.."))] in
  gs <> [] /\ Forall good_t gs /\ fits 0 (map enc_t gs) /\
  get_frame_ascii (content (map enc_t gs) ++ []) 9 (repeat 7 20) =
    Some (str "A 1" ++ 10 :: str "BC 2" ++ [10; 0] ++ repeat 7 10, 9%nat) /\
  (* destination of six bytes: the first line only fits when the cut falls exactly after it *)
  get_frame_ascii (content (map enc_t gs) ++ []) 9 (repeat 7 6) = Some (str "A 1" ++ [10; 0; 7], 4%nat) /\
  get_frame_ascii (content (map enc_t gs) ++ []) 9 (repeat 7 8) = Some (0 :: str " 1" ++ [10] ++ str "BC" ++ [7; 7], 0%nat).
Proof.
  cbv zeta. split; [discriminate|]. split; [apply goods_spec; vm_compute; reflexivity|].
  split; [apply fitsb_spec; vm_compute; reflexivity|]. repeat split; vm_compute; reflexivity.
Qed.

(** C50. The published frame is made of the bytes of a stretch [e2] of the history received while not paused; if decoding
    was not paused within that stretch, they were received consecutively. Missing: the case of a pause in the middle. *)
Theorem C50_pause_outside_the_frame_partial : forall sgn g1 g2 es p, List.length g1 = 350%nat -> List.length g2 = 350%nat ->
  Forall is_byte (map snd (fed false es)) -> pub_run sgn es (pub_init g1 g2) = Some p -> published p <> [] ->
  exists e1 e2 e3 bodies, es = e1 ++ e2 ++ e3 /\ valid_frame bodies /\ published p = content bodies /\
    map snd (fed false e2) = frame_bytes bodies /\
    ((forall b, ~ In (Pause b) e2) -> map snd (received e2) = frame_bytes bodies).
Proof. exact c50. Qed.
Print Assumptions C50_pause_outside_the_frame_partial.
(** A pause between two frames, in the middle of a third. *)
Example C50_case :
  let f := frame_bytes [enc_group 32 (str "PAPP", str "00100")] in let g := frame_bytes [enc_group 32 (str "PAPP", str "00200")] in
  let es := feed f ++ [Pause true] ++ feed (firstn 8 g) ++ [Pause false] ++ feed (skipn 8 g) in
  Forall is_byte (map snd (fed false es)) /\ exists p, pub_run true es (pub_init blank blank) = Some p /\
    published p = content [enc_group 32 (str "PAPP", str "00100")].
Proof. cbv zeta. split; [apply bytesb_spec; vm_compute; reflexivity|]. eexists. split; vm_compute; reflexivity. Qed.

(** C50. Without pauses the claim is C07. Across a pause it is false: the end of one frame can be joined to the start of
    another. Here the meter sends two valid frames, decoding is paused in the middle of the first and resumed in the
    middle of the second; the published text is not the text of any frame received. *)
Theorem C50_contiguous_frame_refuted : exists es p,
  Forall is_byte (map snd (received es)) /\
  pub_run true es (pub_init blank blank) = Some p /\
  all_pairs (t_frame (p_ti p)) (t_size (p_ti p)) = Some [(str "PAPP", str "00100"); (str "IINST", str "040")] /\
  forall k1 k2 t bs, received es = k1 ++ k2 -> frame_ends k1 t bs -> valid_frame bs -> content bs <> published p.
Proof.
  exists c50_events. eexists. split; [apply bytesb_spec; vm_compute; reflexivity|].
  split; [vm_compute; reflexivity|]. split; [vm_compute; reflexivity|].
  apply never_spec; [apply bytesb_spec; vm_compute; reflexivity|vm_compute; reflexivity].
Qed.
Print Assumptions C50_contiguous_frame_refuted.
