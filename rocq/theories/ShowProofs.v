(** Proofs about the commands "config", "ls" and "get ver". *)
From Coq Require Import ZArith List Bool Lia.
From Verif Require Import Base BaseFacts Teleinfo Publish Config ConfigSpec JsonBuild JsonBuildFacts Tic Pages PagesProofs Sse Cpu Web Wifi Device Cli Life LifeSpec LifeProofs
  LifeMain LifeFinal FormMain ShowSpec.
Import ListNotations.
Open Scope Z_scope.

Lemma from_plain : forall d cur r, one_line d -> lines_from cur (d ++ r) = lines_from (rev d ++ cur) r.
Proof.
  induction d as [|c d IH]; intros cur r H; [reflexivity|]. inversion H as [|x y [A B] H2]; subst. cbn [app].
  assert (E : lines_from cur (c :: d ++ r) = lines_from (c :: cur) (d ++ r)).
  { cbn [lines_from]. apply Z.eqb_neq in A. apply Z.eqb_neq in B. rewrite A, B. cbn [orb].
    destruct c as [|p|p]; try reflexivity. destruct p as [p|p|]; try reflexivity. destruct p as [p|p|]; try reflexivity.
    destruct p as [p|p|]; try reflexivity. destruct p as [p|p|]; try reflexivity. discriminate B. }
  rewrite E, IH by auto. cbn [rev]. rewrite <- app_assoc. reflexivity.
Qed.
Lemma lines_eol : forall d r, one_line d -> lines_of (d ++ [13; 10] ++ r) = d :: lines_of r.
Proof. intros d r H. unfold lines_of. rewrite from_plain by exact H. rewrite app_nil_r. cbn [app lines_from]. rewrite rev_involutive. reflexivity. Qed.
Lemma lines_lf : forall d r, one_line d -> lines_of (d ++ [10] ++ r) = d :: lines_of r.
Proof. intros d r H. unfold lines_of. rewrite from_plain by exact H. rewrite app_nil_r. cbn [app lines_from Z.eqb Pos.eqb orb]. rewrite rev_involutive. reflexivity. Qed.
Lemma lines_concat : forall ls, Forall one_line ls -> lines_of (concat (map (fun l => l ++ eol) ls)) = ls.
Proof.
  induction ls as [|l ls IH]; intros H; [reflexivity|]. inversion H; subst. cbn [map concat]. rewrite <- app_assoc. unfold eol at 1.
  rewrite lines_eol, IH by assumption. reflexivity.
Qed.

Lemma plainb : forall d, forallb (fun c => negb (c =? 10) && negb (c =? 13)) d = true -> one_line d.
Proof.
  intros d H. apply Forall_forall. intros c I. rewrite forallb_forall in H. apply H in I. apply andb_true_iff in I. destruct I as [A B].
  apply negb_true_iff in A. apply negb_true_iff in B. apply Z.eqb_neq in A. apply Z.eqb_neq in B. auto.
Qed.
Lemma dec_line : forall n, one_line (dec n).
Proof.
  intros n. apply Forall_forall. intros c I. assert (D := dec_digits n). rewrite forallb_forall in D. apply D in I. unfold isdigit in I. lia.
Qed.
Lemma one_line_app : forall a b, one_line a -> one_line b -> one_line (a ++ b).
Proof. intros. apply Forall_app. auto. Qed.

Lemma config_lines : forall c, config_text c = concat (map (fun l => l ++ eol) (settings_lines (view c))).
Proof.
  intros c. unfold config_text, settings_lines, labelled, view. cbn [s_ssid s_psk s_host s_ap_psk s_ota_auth s_ota_port s_username s_password s_sse_freq s_led
    s_emon_host s_emon_key s_emon_url s_emon_port s_emon_node s_emon_freq s_jdom_host s_jdom_key s_jdom_url s_jdom_adco s_jdom_port s_jdom_freq
    s_http_host s_http_url s_http_port s_http_freq s_adps s_ptec s_seuils s_use_post s_seuil_haut s_seuil_bas].
  cbn [map concat fst snd]. rewrite <- ?app_assoc.
  change (str "url       : method    : ") with (str "url       : " ++ str "method    : "). rewrite <- ?app_assoc.
  change (str "") with (@nil Z). rewrite ?app_nil_r, ?app_nil_l. reflexivity.
Qed.
Lemma labelled_lines : forall s, Forall one_line (texts s) -> Forall one_line (settings_lines s).
Proof.
  intros s H. unfold texts in H. rewrite !Forall_cons_iff in H.
  destruct H as (H1 & H2 & H3 & H4 & H5 & H6 & H7 & H8 & H9 & H10 & H11 & H12 & H13 & H14 & H15 & H16 & _).
  unfold settings_lines. apply Forall_forall. intros l I. apply in_map_iff in I. destruct I as (p & <- & I).
  assert (X : one_line (fst p) /\ one_line (snd p)); [|apply one_line_app; tauto].
  revert p I. apply Forall_forall. unfold labelled.
  repeat (apply Forall_cons; [split; [apply plainb; vm_compute; reflexivity|]; cbn [snd]; first [assumption | apply dec_line | apply plainb; vm_compute; reflexivity | idtac]|]).
  all: cbn [snd].
  - destruct (s_led s); apply plainb; vm_compute; reflexivity.
  - destruct (s_use_post s); apply plainb; vm_compute; reflexivity.
  - destruct (s_ptec s), (s_adps s), (s_seuils s); apply plainb; vm_compute; reflexivity.
  - constructor.
Qed.
Lemma c88_lines : forall c, Forall one_line (texts (view c)) -> lines_of (config_text c) = settings_lines (view c).
Proof. intros c H. rewrite config_lines. apply lines_concat, labelled_lines, H. Qed.

Lemma same_labels : forall t1 t2 : list (list Z * list Z), map fst t1 = map fst t2 ->
  map (fun p => fst p ++ snd p) t1 = map (fun p => fst p ++ snd p) t2 -> map snd t1 = map snd t2.
Proof.
  induction t1 as [|[a x] t1 IH]; intros [|[b y] t2] A B; try discriminate; [reflexivity|]. cbn [map fst snd] in *.
  assert (A1 : a = b) by congruence. assert (A2 : map fst t1 = map fst t2) by congruence. subst b.
  assert (B1 := f_equal (hd []) B). assert (B2 := f_equal (@tl _) B). cbn [hd tl] in B1, B2. apply app_inv_head in B1. subst y. f_equal. auto.
Qed.
Lemma dec_inj : forall n m, 0 <= n -> 0 <= m -> dec n = dec m -> n = m.
Proof. intros n m A B E. rewrite <- (dec_value_dec n A), <- (dec_value_dec m B), E. reflexivity. Qed.
Definition numbers (s : settings) : list Z :=
  [s_ota_port s; s_sse_freq s; s_emon_port s; s_emon_node s; s_emon_freq s; s_jdom_port s; s_jdom_freq s; s_http_port s; s_http_freq s; s_seuil_haut s; s_seuil_bas s].
Lemma settings_lines_inj : forall s1 s2, Forall (fun n => 0 <= n) (numbers s1) -> Forall (fun n => 0 <= n) (numbers s2) ->
  settings_lines s1 = settings_lines s2 -> s1 = s2.
Proof.
  intros s1 s2 N1 N2 E. assert (V := same_labels (labelled s1) (labelled s2) eq_refl E). clear E.
  unfold numbers in N1, N2. rewrite !Forall_cons_iff in N1, N2.
  assert (K : forall k, nth k (map snd (labelled s1)) [] = nth k (map snd (labelled s2)) []) by (intros k; rewrite V; reflexivity). clear V.
  assert (E_ssid : s_ssid s1 = s_ssid s2) by exact (K 2%nat).
  assert (E_psk : s_psk s1 = s_psk s2) by exact (K 3%nat).
  assert (E_host : s_host s1 = s_host s2) by exact (K 4%nat).
  assert (E_ap_psk : s_ap_psk s1 = s_ap_psk s2) by exact (K 6%nat).
  assert (E_ota_auth : s_ota_auth s1 = s_ota_auth s2) by exact (K 7%nat).
  assert (E_ota_port : s_ota_port s1 = s_ota_port s2) by (apply dec_inj; [tauto|tauto|exact (K 8%nat)]).
  assert (E_username : s_username s1 = s_username s2) by exact (K 9%nat).
  assert (E_password : s_password s1 = s_password s2) by exact (K 10%nat).
  assert (E_sse_freq : s_sse_freq s1 = s_sse_freq s2) by (apply dec_inj; [tauto|tauto|exact (K 11%nat)]).
  assert (E_emon_host : s_emon_host s1 = s_emon_host s2) by exact (K 14%nat).
  assert (E_emon_key : s_emon_key s1 = s_emon_key s2) by exact (K 17%nat).
  assert (E_emon_url : s_emon_url s1 = s_emon_url s2) by exact (K 16%nat).
  assert (E_emon_port : s_emon_port s1 = s_emon_port s2) by (apply dec_inj; [tauto|tauto|exact (K 15%nat)]).
  assert (E_emon_node : s_emon_node s1 = s_emon_node s2) by (apply dec_inj; [tauto|tauto|exact (K 18%nat)]).
  assert (E_emon_freq : s_emon_freq s1 = s_emon_freq s2) by (apply dec_inj; [tauto|tauto|exact (K 19%nat)]).
  assert (E_jdom_host : s_jdom_host s1 = s_jdom_host s2) by exact (K 21%nat).
  assert (E_jdom_key : s_jdom_key s1 = s_jdom_key s2) by exact (K 24%nat).
  assert (E_jdom_url : s_jdom_url s1 = s_jdom_url s2) by exact (K 23%nat).
  assert (E_jdom_adco : s_jdom_adco s1 = s_jdom_adco s2) by exact (K 25%nat).
  assert (E_jdom_port : s_jdom_port s1 = s_jdom_port s2) by (apply dec_inj; [tauto|tauto|exact (K 22%nat)]).
  assert (E_jdom_freq : s_jdom_freq s1 = s_jdom_freq s2) by (apply dec_inj; [tauto|tauto|exact (K 26%nat)]).
  assert (E_http_host : s_http_host s1 = s_http_host s2) by exact (K 28%nat).
  assert (E_http_url : s_http_url s1 = s_http_url s2) by exact (K 31%nat).
  assert (E_http_port : s_http_port s1 = s_http_port s2) by (apply dec_inj; [tauto|tauto|exact (K 29%nat)]).
  assert (E_http_freq : s_http_freq s1 = s_http_freq s2) by (apply dec_inj; [tauto|tauto|exact (K 32%nat)]).
  assert (E_seuil_haut : s_seuil_haut s1 = s_seuil_haut s2) by (apply dec_inj; [tauto|tauto|exact (K 35%nat)]).
  assert (E_seuil_bas : s_seuil_bas s1 = s_seuil_bas s2) by (apply dec_inj; [tauto|tauto|exact (K 34%nat)]).
  assert (E_led : s_led s1 = s_led s2) by (assert (X := K 12%nat); unfold labelled in X; cbn [map nth snd] in X; destruct (s_led s1), (s_led s2); reflexivity || discriminate X).
  assert (E_use_post : s_use_post s1 = s_use_post s2) by (assert (X := K 30%nat); unfold labelled in X; cbn [map nth snd] in X; destruct (s_use_post s1), (s_use_post s2); reflexivity || discriminate X).
  assert (T : s_ptec s1 = s_ptec s2 /\ s_adps s1 = s_adps s2 /\ s_seuils s1 = s_seuils s2).
  { assert (X := K 33%nat); unfold labelled in X; cbn [map nth snd] in X; destruct (s_ptec s1), (s_ptec s2), (s_adps s1), (s_adps s2), (s_seuils s1), (s_seuils s2); vm_compute in X; auto; discriminate X. }
  destruct T as (E_ptec & E_adps & E_seuils). clear K N1 N2.
  destruct s1, s2. cbn in *. subst. reflexivity.
Qed.
Lemma c88_nothing_hidden : forall c1 c2, wf c1 -> wf c2 -> Forall one_line (texts (view c1)) -> Forall one_line (texts (view c2)) ->
  config_text c1 = config_text c2 -> view c1 = view c2.
Proof.
  intros c1 c2 W1 W2 O1 O2 E. apply settings_lines_inj.
  - repeat (apply Forall_cons; [apply num_nonneg, W1|]). constructor.
  - repeat (apply Forall_cons; [apply num_nonneg, W2|]). constructor.
  - rewrite <- (c88_lines c1 O1), <- (c88_lines c2 O2), E. reflexivity.
Qed.

(** From the line typed to the text printed *)
Lemma command_effect : forall fuel bd a up tv c raw d cl m l o, is_byte c -> lstep fuel bd (Event (DByte a up tv c) raw) (On d cl) = Done (m, Command l :: o) ->
  exists d', run_command a up raw (bd_parse bd l) d = Some (d', o).
Proof.
  intros fuel bd a up tv c raw d cl m l o B H. cbn [lstep] in H.
  destruct (serial_byte bd a up tv c raw d cl) as [[[d' cl'] o1]|] eqn:E; [|discriminate]. cbn [lift] in H. injection H as H.
  destruct (after_cases _ _ _ _ _ H) as (X & _). subst o1.
  destruct (serial_effect _ _ _ _ _ _ _ _ _ _ _ B E) as (r & line & _ & S). destruct line as [l'|].
  - destruct S as (_ & o' & X & R). injection X as <- <-. eauto.
  - destruct S as [(_ & _ & S)|(_ & o' & S & _)]; [discriminate|]. destruct o'; discriminate.
Qed.
Lemma c88_config : forall fuel bd a up tv c raw d cl m l o, is_byte c ->
  lstep fuel bd (Event (DByte a up tv c) raw) (On d cl) = Done (m, Command l :: o) -> bd_parse bd l = CConfig ->
  exists t, o = [Printed t] /\ (Forall one_line (texts (view (cfg_of d))) -> lines_of t = settings_lines (view (cfg_of d))).
Proof.
  intros fuel bd a up tv c raw d cl m l o B H P. destruct (command_effect _ _ _ _ _ _ _ _ _ _ _ _ B H) as (d' & R). rewrite P in R. cbn [run_command] in R.
  assert (E : o = [Printed (config_text (cfg_of d))]) by congruence. exists (config_text (cfg_of d)). split; [exact E|apply c88_lines].
Qed.

(** "ls" *)
Lemma pad_two : forall n, 0 <= n -> pad_space 2 (dec n) = two_columns n.
Proof.
  intros n H. unfold two_columns. destruct (n <? 10) eqn:E.
  - apply Z.ltb_lt in E. assert (X : n = 0 \/ n = 1 \/ n = 2 \/ n = 3 \/ n = 4 \/ n = 5 \/ n = 6 \/ n = 7 \/ n = 8 \/ n = 9) by lia.
    repeat (destruct X as [-> | X]; [reflexivity|]). subst n. reflexivity.
  - apply Z.ltb_ge in E. assert (V := dec_value_dec n H). assert (D := dec_digits n). unfold pad_space.
    destruct (dec n) as [|a [|b l]].
    + cbn in V. lia.
    + cbn in D. unfold isdigit in D. cbn in V. lia.
    + reflexivity.
Qed.
Lemma ls_lines : forall files i, 0 <= i -> Forall (fun f => one_line (cstr (fst f))) files ->
  forall k name size, nth_error files k = Some (name, size) ->
  nth_error (lines_of (ls_text i files)) k = Some (str "FS File: " ++ two_columns (i + 1 + Z.of_nat k) ++ str " " ++ cstr name ++ str ", size: " ++ dec size).
Proof.
  induction files as [|[n s] files IH]; intros i I F k name size E; [destruct k; discriminate|]. inversion F as [|x y F1 F2]; subst. cbn [fst] in F1.
  cbn [ls_text]. rewrite pad_two by lia.
  replace (str "FS File: " ++ two_columns (i + 1) ++ str " " ++ cstr n ++ str ", size: " ++ dec s ++ [10] ++ ls_text (i + 1) files)
    with ((str "FS File: " ++ two_columns (i + 1) ++ str " " ++ cstr n ++ str ", size: " ++ dec s) ++ [10] ++ ls_text (i + 1) files) by (rewrite <- ?app_assoc; reflexivity).
  rewrite lines_lf.
  - destruct k as [|k]; cbn [nth_error] in *.
    + injection E as -> ->. rewrite Z.add_0_r. reflexivity.
    + rewrite (IH (i + 1) ltac:(lia) F2 k name size E). replace (i + 1 + 1 + Z.of_nat k) with (i + 1 + Z.of_nat (Datatypes.S k)) by lia. reflexivity.
  - assert (T : one_line (two_columns (i + 1))).
    { unfold two_columns. destruct (i + 1 <? 10); [|apply dec_line]. constructor; [split; discriminate|apply dec_line]. }
    repeat apply one_line_app; try assumption; try apply dec_line; apply plainb; vm_compute; reflexivity.
Qed.
Lemma ls_count : forall files i, 0 <= i -> Forall (fun f => one_line (cstr (fst f))) files -> length (lines_of (ls_text i files)) = length files.
Proof.
  induction files as [|[n s] files IH]; intros i I F; [reflexivity|]. inversion F as [|x y F1 F2]; subst. cbn [fst] in F1.
  cbn [ls_text]. rewrite pad_two by lia.
  replace (str "FS File: " ++ two_columns (i + 1) ++ str " " ++ cstr n ++ str ", size: " ++ dec s ++ [10] ++ ls_text (i + 1) files)
    with ((str "FS File: " ++ two_columns (i + 1) ++ str " " ++ cstr n ++ str ", size: " ++ dec s) ++ [10] ++ ls_text (i + 1) files) by (rewrite <- ?app_assoc; reflexivity).
  rewrite lines_lf.
  - cbn [length]. rewrite (IH (i + 1)) by (assumption || lia). reflexivity.
  - assert (T : one_line (two_columns (i + 1))).
    { unfold two_columns. destruct (i + 1 <? 10); [|apply dec_line]. constructor; [split; discriminate|apply dec_line]. }
    repeat apply one_line_app; try assumption; try apply dec_line; apply plainb; vm_compute; reflexivity.
Qed.
Lemma c88_ls : forall fuel bd a up tv c raw d cl m l o, is_byte c ->
  lstep fuel bd (Event (DByte a up tv c) raw) (On d cl) = Done (m, Command l :: o) -> bd_parse bd l = CLs ->
  exists t, o = [Printed t] /\ (Forall (fun f => one_line (cstr (fst f))) (a_files a) ->
    length (lines_of t) = length (a_files a) /\
    forall k name size, nth_error (a_files a) k = Some (name, size) ->
      nth_error (lines_of t) k = Some (str "FS File: " ++ two_columns (1 + Z.of_nat k) ++ str " " ++ cstr name ++ str ", size: " ++ dec size)).
Proof.
  intros fuel bd a up tv c raw d cl m l o B H P. destruct (command_effect _ _ _ _ _ _ _ _ _ _ _ _ B H) as (d' & R). rewrite P in R. cbn [run_command] in R.
  assert (E : o = [Printed (ls_text 0 (a_files a))]) by congruence. exists (ls_text 0 (a_files a)). split; [exact E|]. intros F.
  split; [apply ls_count; [lia|exact F]|]. intros k name size N. exact (ls_lines (a_files a) 0 ltac:(lia) F k name size N).
Qed.

(** "get ver" *)
Lemma c88_version : forall fuel bd a up tv c raw d cl m l o what args v, is_byte c ->
  lstep fuel bd (Event (DByte a up tv c) raw) (On d cl) = Done (m, Command l :: o) -> bd_parse bd l = CGet ((str "ver" ++ what) :: args) ->
  a_site a (str "/version") = Some v -> Forall (fun x => x <> 0) v ->
  exists shown rest, v = shown ++ rest /\ (length shown <= 63)%nat /\ (rest <> [] -> length shown = 63%nat) /\
    o = [Printed (str "read " ++ dec (Z.of_nat (length shown)) ++ str ", version: '" ++ shown ++ str "'" ++ [10])].
Proof.
  intros fuel bd a up tv c raw d cl m l o what args v B H P V Z0. destruct (command_effect _ _ _ _ _ _ _ _ _ _ _ _ B H) as (d' & R). rewrite P in R. cbn [run_command] in R.
  replace (has_prefix (str "ver") (str "ver" ++ what)) with true in R
    by (unfold has_prefix; rewrite firstn_app, Nat.sub_diag, firstn_all; cbn [firstn]; rewrite app_nil_r; symmetry; apply beq_refl).
  assert (E : o = [Printed (version_text (a_site a))]) by congruence. unfold version_text in E. rewrite V in E.
  exists (firstn 63 v), (skipn 63 v). split; [symmetry; apply firstn_skipn|]. split; [rewrite firstn_length; lia|].
  split; [intros N; rewrite firstn_length; assert (X := skipn_length 63 v); destruct (skipn 63 v); [congruence|cbn [length] in X; lia]|].
  rewrite E. cbv zeta. do 2 f_equal. f_equal. f_equal. f_equal. f_equal.
  assert (G : forall w, Forall (fun x => x <> 0) w -> cstr w = w).
  { clear. induction w as [|x w IH]; intros H; [reflexivity|]. inversion H; subst. unfold cstr in *. cbn. destruct (x =? 0) eqn:Q; [apply Z.eqb_eq in Q; congruence|]. f_equal. auto. }
  apply G. rewrite <- (firstn_skipn 63 v) in Z0. apply Forall_app in Z0. apply Z0.
Qed.
