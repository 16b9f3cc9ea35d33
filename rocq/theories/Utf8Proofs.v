(** Proofs: the decoder accepts exactly UTF-8. *)
From Coq Require Import ZArith List Bool Lia ZifyBool.
From Verif Require Import Base BaseFacts Config ConfigSpec EepromTool ToolSpec ConfigProofs ConfigMain ConfigHist ToolProofs ToolMain JsonFacts Utf8Spec.
Import ListNotations.
Open Scope Z_scope.
Ltac Zify.zify_post_hook ::= Z.div_mod_to_equations.

Lemma utf8_point : forall n, code_point n -> is_utf8 (utf8_bytes n) = true.
Proof.
  intros n (R & S). unfold utf8_bytes, is_utf8. destruct (Z.ltb_spec n 128); [|destruct (Z.ltb_spec n 2048); [|destruct (Z.ltb_spec n 65536)]];
    cbn [length utf8]; unfold cont;
    repeat (match goal with |- context [if ?x then _ else _] => destruct x eqn:?; try (exfalso; lia) end); lia.
Qed.
Lemma utf8_points : forall ps, Forall code_point ps -> is_utf8 (concat (map utf8_bytes ps)) = true.
Proof.
  induction ps as [|p ps IH]; intros H; [reflexivity|]. apply Forall_cons_iff in H. destruct H as (H & Hs). cbn [map concat].
  apply utf8_app; [apply utf8_point; exact H|apply IH; exact Hs].
Qed.
Lemma text_cons : forall n b rest, code_point n -> b = utf8_bytes n -> utf8_text rest -> utf8_text (b ++ rest).
Proof. intros n b rest H -> (ps & F & ->). exists (n :: ps). split; [constructor; assumption|reflexivity]. Qed.
Lemma bytes1 : forall c, 0 <= c <= 127 -> utf8_bytes c = [c].
Proof. intros c H. unfold utf8_bytes. destruct (Z.ltb_spec c 128); [reflexivity|lia]. Qed.
Lemma bytes2 : forall c c1, 194 <= c <= 223 -> 128 <= c1 <= 191 -> let n := (c - 192) * 64 + (c1 - 128) in code_point n /\ utf8_bytes n = [c; c1].
Proof.
  intros c c1 H H1 n. unfold n, code_point, utf8_bytes. split; [lia|].
  destruct (Z.ltb_spec ((c - 192) * 64 + (c1 - 128)) 128); [lia|]. destruct (Z.ltb_spec ((c - 192) * 64 + (c1 - 128)) 2048); [|lia].
  f_equal; [lia|]. f_equal. lia.
Qed.
Lemma bytes3 : forall c c1 c2, 224 <= c <= 239 -> 128 <= c1 <= 191 -> 128 <= c2 <= 191 -> (c = 224 -> 160 <= c1) -> (c = 237 -> c1 <= 159) ->
  let n := (c - 224) * 4096 + (c1 - 128) * 64 + (c2 - 128) in code_point n /\ utf8_bytes n = [c; c1; c2].
Proof.
  intros c c1 c2 H H1 H2 A B n. assert (N : n = (c - 224) * 4096 + (c1 - 128) * 64 + (c2 - 128)) by reflexivity. clearbody n.
  unfold code_point, utf8_bytes. split; [lia|].
  destruct (Z.ltb_spec n 128); [lia|]. destruct (Z.ltb_spec n 2048); [lia|]. destruct (Z.ltb_spec n 65536); [|lia].
  f_equal; [lia|]. f_equal; [|f_equal]; lia.
Qed.
Lemma bytes4 : forall c c1 c2 c3, 240 <= c <= 244 -> 128 <= c1 <= 191 -> 128 <= c2 <= 191 -> 128 <= c3 <= 191 -> (c = 240 -> 144 <= c1) -> (c = 244 -> c1 <= 143) ->
  let n := (c - 240) * 262144 + (c1 - 128) * 4096 + (c2 - 128) * 64 + (c3 - 128) in code_point n /\ utf8_bytes n = [c; c1; c2; c3].
Proof.
  intros c c1 c2 c3 H H1 H2 H3 A B n. assert (N : n = (c - 240) * 262144 + (c1 - 128) * 4096 + (c2 - 128) * 64 + (c3 - 128)) by reflexivity. clearbody n.
  unfold code_point, utf8_bytes. split; [lia|].
  destruct (Z.ltb_spec n 128); [lia|]. destruct (Z.ltb_spec n 2048); [lia|]. destruct (Z.ltb_spec n 65536); [lia|].
  f_equal; [lia|]. f_equal; [lia|]. f_equal; [|f_equal]; lia.
Qed.
Lemma utf8_sound : forall f b, utf8 f b = true -> utf8_text b.
Proof.
  induction f as [|f IH]; intros b H; [discriminate|]. cbn [utf8] in H. destruct b as [|c t]; [exists []; split; [constructor|reflexivity]|].
  destruct ((0 <=? c) && (c <=? 127)) eqn:C0.
  { apply (text_cons c [c]); [unfold code_point; lia|symmetry; apply bytes1; lia|apply IH; exact H]. }
  destruct t as [|c1 t1]; [discriminate|]. destruct ((194 <=? c) && (c <=? 223)) eqn:C1.
  { apply andb_true_iff in H. destruct H as (H & R). unfold cont in H. destruct (bytes2 c c1) as (P & Q); [lia|lia|].
    change (c :: c1 :: t1) with ([c; c1] ++ t1). eapply text_cons; [exact P|symmetry; exact Q|apply IH; exact R]. }
  destruct t1 as [|c2 t2]; [discriminate|]. destruct ((224 <=? c) && (c <=? 239)) eqn:C2.
  { apply andb_true_iff in H. destruct H as (H & R). unfold cont in H. destruct (bytes3 c c1 c2) as (P & Q); [lia..|].
    change (c :: c1 :: c2 :: t2) with ([c; c1; c2] ++ t2). eapply text_cons; [exact P|symmetry; exact Q|apply IH; exact R]. }
  destruct t2 as [|c3 t3]; [discriminate|].
  apply andb_true_iff in H. destruct H as (H & R). unfold cont in H. destruct (bytes4 c c1 c2 c3) as (P & Q); [lia..|].
  change (c :: c1 :: c2 :: c3 :: t3) with ([c; c1; c2; c3] ++ t3). eapply text_cons; [exact P|symmetry; exact Q|apply IH; exact R].
Qed.
Lemma c31_utf8 : forall b, is_utf8 b = true <-> utf8_text b.
Proof. intros b. split; [apply utf8_sound|]. intros (ps & F & ->). apply utf8_points. exact F. Qed.

(** The tool reads an image exactly when its texts are UTF-8. *)
Lemma reads_utf8 : forall c r, tidy c -> tool_reads (fun f => get f c) = Some r -> texts_utf8 (view c).
Proof.
  intros c r Ht. unfold tool_reads. rewrite !rstrip_tidy by (apply Ht; reflexivity). unfold decode. intros H.
  unfold texts_utf8, texts, view. cbn [s_ssid s_psk s_host s_ap_psk s_ota_auth s_username s_password s_emon_host s_emon_key s_emon_url
    s_jdom_host s_jdom_key s_jdom_url s_jdom_adco s_http_host s_http_url]. unfold text.
  repeat match type of H with context [if is_utf8 ?x then _ else _] => destruct (is_utf8 x) eqn:?; [|discriminate H] end.
  repeat (constructor; [assumption|]). constructor.
Qed.
Lemma c31_read_exact : forall s, ordinarily_reachable s ->
  exists s', config_save Stored s = Some (s', true) /\
    ((exists r, read_eeprom (e_flash (c_ee s')) = Some r) <-> Forall (fun p => utf8_text (snd p)) (texts (view (c_cfg s)))).
Proof.
  intros s R. destruct (c31_read s R) as (s' & E & _ & X). exists s'. split; [exact E|].
  assert (Y : Forall (fun p => utf8_text (snd p)) (texts (view (c_cfg s))) <-> texts_utf8 (view (c_cfg s))).
  { unfold texts_utf8. rewrite !Forall_forall. split; intros H p I; apply c31_utf8, H; exact I. }
  rewrite Y. clear Y. split; [|intros H; eauto]. intros (r & H).
  destruct (ordinary_tidy s R) as ((Hw & Hter & Hee) & Ht & Hf).
  destruct (config_save_spec Stored s Hw Hee) as (s2 & E2 & Ec & _ & _ & _ & Hst & _). assert (s2 = s') by congruence. subst s2.
  rewrite (Hst eq_refl), read_image in H by (apply sealed_wf; auto). apply reads_utf8 in H; [|apply tidy_set_crc; auto].
  unfold sealed in H. rewrite view_set_crc in H. exact H.
Qed.
