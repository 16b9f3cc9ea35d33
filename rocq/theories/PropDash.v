(** Properties of the tabs of the home page. *)
From Coq Require Import ZArith List Bool Lia.
From Verif Require Import Base BaseFacts Teleinfo TeleinfoSpec Publish HistorySpec Json Tic TicSpec Dash DashSpec DashProofs DashMain
  Samples SamplesFacts TicSamples.
Import ListNotations.
Open Scope Z_scope.

(** C81. From the published frame to the load bar: the width of the bar is the whole percentage of IINST over ISOUSC, its
    colour follows, the text gives both intensities, and the badge of the tab is the percentage. Missing: ISOUSC must be
    before IINST in the frame, and the percentage must not be 0 for the badge. *)
Theorem C81_load_partial : forall e t A B C si ii body w, published_ti t -> t_size t <> 0%nat ->
  let gs := A ++ (str "ISOUSC", si) :: B ++ (str "IINST", ii) :: C in
  carries t gs -> quotable (iso e (tv_sec (t_ts t))) = true -> Forall (fun g => quotable (fst g) = true /\ quotable (snd g) = true) gs ->
  ~ In (str "ISOUSC") (map fst B) -> ~ In (str "IINST") (map fst C) ->
  si <> [] -> forallb isdigit si = true -> ii <> [] -> forallb isdigit ii = true ->
  tic_get_json_array e t = Some body ->
  exists cells w', refresh body w = (Some cells, w') /\
    let i := dec_value ii in let s := dec_value si in let pe := if s =? 0 then 0 else i * 100 / s in
    bar_width w' = pe /\ bar_class w' = str "progress-bar progress-bar-" ++ colour pe /\
    charge w' = dec i ++ str "A / " ++ dec s ++ str "A" /\ (0 < pe -> badge w' = dec pe ++ str "%").
Proof. exact c81_page. Qed.
Print Assumptions C81_load_partial.
Definition load_frame (i : String.string) : teleinfo :=
  TicSamples.shown (frame_of [(str "ADCO", str "111111111111"); (str "ISOUSC", str "30"); (str "IINST", str i); (str "PAPP", str "01890")]).
Arguments load_frame _%string_scope.
Definition swapped_frame : teleinfo := TicSamples.shown (frame_of [(str "IINST", str "025"); (str "ISOUSC", str "30")]).
Definition page (t : teleinfo) : list Z := match tic_get_json_array env0 t with Some b => b | None => [] end.
Example C81_case : published_ti (load_frame "025") /\ t_size (load_frame "025") <> 0%nat /\
  carries (load_frame "025") ([(str "ADCO", str "111111111111")] ++ (str "ISOUSC", str "30") :: [] ++ (str "IINST", str "025") :: [(str "PAPP", str "01890")]) /\
  tic_get_json_array env0 (load_frame "025") <> None /\
  let w := snd (refresh (page (load_frame "025")) screen_init) in
  bar_width w = 83 /\ bar_class w = str "progress-bar progress-bar-warning" /\ charge w = str "25A / 30A" /\ badge w = str "83%".
Proof.
  split; [apply shown_published; vm_compute; reflexivity|]. split; [vm_compute; discriminate|].
  split; [vm_compute; reflexivity|]. split; [vm_compute; discriminate|]. vm_compute. repeat split; reflexivity.
Qed.
(** When the load falls to 0 %, the badge keeps the former percentage. *)
Theorem C81_badge_refuted : exists t1 t2, published_ti t1 /\ published_ti t2 /\
  ti_value t2 (str "IINST") false = Some (Some (str "000")) /\
  let w := snd (refresh (page t2) (snd (refresh (page t1) screen_init))) in
  bar_width w = 0 /\ charge w = str "0A / 30A" /\ badge w = str "83%".
Proof.
  exists (load_frame "025"), (load_frame "000"). split; [apply shown_published; vm_compute; reflexivity|].
  split; [apply shown_published; vm_compute; reflexivity|]. split; [vm_compute; reflexivity|]. vm_compute. repeat split; reflexivity.
Qed.
Print Assumptions C81_badge_refuted.
(** When IINST comes first, the first display shows no load. *)
Theorem C81_order_refuted : exists t, published_ti t /\
  carries t [(str "IINST", str "025"); (str "ISOUSC", str "30")] /\
  let w := snd (refresh (page t) screen_init) in bar_width w = 0 /\ charge w = [] /\ badge w = [].
Proof.
  exists swapped_frame. split; [apply shown_published; vm_compute; reflexivity|]. split; [vm_compute; reflexivity|].
  vm_compute. repeat split; reflexivity.
Qed.
Print Assumptions C81_order_refuted.

(** C82. The arrows, exactly: over any sequence of drawings of the table (the rows of all the drawings, one after the other),
    the cells shown for a group whose values are numbers of the same width are its values with the arrows of [arrows]
    (DashSpec.v), which depend only on these values. *)
Theorem C82_arrows : forall k na drawings cells w, draw (concat drawings) screen_init = (cells, w) ->
  Forall (of_kind k) (values_of na (concat drawings)) ->
  cells_of na (concat drawings) cells =
    map (fun x => with_arrow (fst x) (snd x))
      (combine (values_of na (concat drawings)) (arrows None (map value (values_of na (concat drawings))))).
Proof. intros k na drawings. exact (c82 k na (concat drawings)). Qed.
Print Assumptions C82_arrows.
(** An arrow tells the truth: up, the value is greater than at the previous drawing; down, it is smaller. *)
Theorem C82_truth : forall vs i a, nth_error (arrows None vs) i = Some a -> a <> NoArrow ->
  exists j p v, i = S j /\ nth_error vs j = Some p /\ nth_error vs i = Some v /\ (a = Up -> p < v) /\ (a = Down -> v < p).
Proof. exact c82_truth. Qed.
Print Assumptions C82_truth.
(** A change is shown by an arrow if the previous drawing had none. Missing: after an arrow, a change is not shown. *)
Theorem C82_change_partial : forall vs i p v, nth_error vs i = Some p -> nth_error vs (S i) = Some v -> p <> v ->
  nth_error (arrows None vs) i = Some NoArrow -> exists a, nth_error (arrows None vs) (S i) = Some a /\ a <> NoArrow.
Proof. intros vs. exact (arrows_missing vs None). Qed.
Print Assumptions C82_change_partial.
Definition rows_papp (v : String.string) : list (list Z * cell) := [(str "PTEC", Text (str "HP")); (str "PAPP", Text (str v))].
Arguments rows_papp _%string_scope.
Definition c82_drawings : list (list (list Z * cell)) := [rows_papp "00100"; rows_papp "00100"; rows_papp "00230"; rows_papp "00230"; rows_papp "00090"].
Example C82_case : exists cells w, draw (concat c82_drawings) screen_init = (cells, w) /\
  Forall (of_kind (Some 5%nat)) (values_of (str "PAPP") (concat c82_drawings)) /\
  arrows None (map value (values_of (str "PAPP") (concat c82_drawings))) = [NoArrow; NoArrow; Up; NoArrow; Down] /\
  cells_of (str "PAPP") (concat c82_drawings) cells =
    [Text (str "00100"); Text (str "00100"); Text (str "00230" ++ up_arrow); Text (str "00230"); Text (str "00090" ++ down_arrow)].
Proof.
  do 2 eexists. split; [vm_compute; reflexivity|]. split; [|split; vm_compute; reflexivity].
  vm_compute values_of. repeat (apply Forall_cons; [split; [reflexivity | split; [discriminate | reflexivity]]|]). apply Forall_nil.
Qed.
(** A value that rises twice in a row has one arrow only. *)
Theorem C82_missing_arrow_refuted : exists cells w,
  draw (rows_papp "00100" ++ rows_papp "00230" ++ rows_papp "00340") screen_init = (cells, w) /\
  cells_of (str "PAPP") (rows_papp "00100" ++ rows_papp "00230" ++ rows_papp "00340") cells =
    [Text (str "00100"); Text (str "00230" ++ up_arrow); Text (str "00340")].
Proof. do 2 eexists. split; vm_compute; reflexivity. Qed.
Print Assumptions C82_missing_arrow_refuted.
(** Texts of different widths are compared as texts: "9" then "10" gets a down arrow. *)
Theorem C82_width_refuted : exists cells w,
  draw (rows_papp "9" ++ rows_papp "10") screen_init = (cells, w) /\
  cells_of (str "PAPP") (rows_papp "9" ++ rows_papp "10") cells = [Text (str "9"); Text (str "10" ++ down_arrow)].
Proof. do 2 eexists. split; vm_compute; reflexivity. Qed.
Print Assumptions C82_width_refuted.

(** C83. A broadcast frame on the gauges: the two gauges and the two meters show its numbers (in kWh with three decimals), and
    the mark is on the off-peak meter exactly when PTEC is HC. Missing: the contracts other than peak / off-peak. *)
Theorem C83_gauges_partial : forall e t gs d g, published_ti t -> t_size t <> 0%nat -> carries t gs ->
  quotable (iso e (tv_sec (t_ts t))) = true -> Forall json_ready gs ->
  NoDup (map fst gs) -> tic_get_json_dict e t = Some d ->
  (forall v, In (str "PAPP", v) gs -> forallb isdigit v = true -> g_papp (on_message d g) = Some (dec_value v)) /\
  (forall v, In (str "IINST", v) gs -> forallb isdigit v = true -> g_iinst (on_message d g) = Some (dec_value v)) /\
  (forall v, In (str "HCHP", v) gs -> forallb isdigit v = true ->
     g_hchp (on_message d g) = dec (dec_value v / 1000) ++ str "." ++ pad0 3 (dec (dec_value v mod 1000))) /\
  (forall v, In (str "HCHC", v) gs -> forallb isdigit v = true ->
     g_hchc (on_message d g) = dec (dec_value v / 1000) ++ str "." ++ pad0 3 (dec (dec_value v mod 1000))) /\
  (forall v, In (str "PTEC", v) gs -> g_mark (on_message d g) = OffPeak <-> v = str "HC").
Proof. exact c83. Qed.
Print Assumptions C83_gauges_partial.
Definition hc_groups : list group :=
  [(str "HCHC", str "052890470"); (str "HCHP", str "049126043"); (str "PTEC", str "HC"); (str "IINST", str "008"); (str "PAPP", str "01890")].
Definition hc_frame : teleinfo := TicSamples.shown (frame_of hc_groups).
Definition message (t : teleinfo) : list Z := match tic_get_json_dict env0 t with Some b => b | None => [] end.
Definition gauges0 : gauges := mk_gauges None None [] [] Peak.
Example C83_case : published_ti hc_frame /\ t_size hc_frame <> 0%nat /\ carries hc_frame hc_groups /\ NoDup (map fst hc_groups) /\ Forall json_ready hc_groups /\
  on_message (message hc_frame) gauges0 = mk_gauges (Some 1890) (Some 8) (str "49126.043") (str "52890.470") OffPeak.
Proof.
  split; [apply shown_published; vm_compute; reflexivity|]. split; [vm_compute; discriminate|]. split; [vm_compute; reflexivity|].
  split. { vm_compute. repeat (apply NoDup_cons; [cbn; intuition discriminate|]). apply NoDup_nil. }
  split; [repeat constructor; vm_compute; discriminate|]. vm_compute. reflexivity.
Qed.
(** With a Tempo contract the off-peak periods (HCJB, HCJW, HCJR) are shown as peak; with a single tariff the meters are NaN. *)
Theorem C83_tempo_refuted : exists t, published_ti t /\ carries t [(str "PTEC", str "HCJB"); (str "PAPP", str "01890")] /\
  g_mark (on_message (message t) gauges0) = Peak.
Proof.
  exists (TicSamples.shown (frame_of [(str "PTEC", str "HCJB"); (str "PAPP", str "01890")])).
  split; [apply shown_published; vm_compute; reflexivity|]. split; vm_compute; reflexivity.
Qed.
Print Assumptions C83_tempo_refuted.
Theorem C83_single_tariff_refuted : exists t, published_ti t /\ carries t [(str "BASE", str "052890470"); (str "PTEC", str "TH"); (str "PAPP", str "01890")] /\
  g_hchp (on_message (message t) gauges0) = str "NaN" /\ g_hchc (on_message (message t) gauges0) = str "NaN".
Proof.
  exists (TicSamples.shown (frame_of [(str "BASE", str "052890470"); (str "PTEC", str "TH.."); (str "PAPP", str "01890")])).
  split; [apply shown_published; vm_compute; reflexivity|]. split; [vm_compute; reflexivity|]. split; vm_compute; reflexivity.
Qed.
Print Assumptions C83_single_tariff_refuted.
