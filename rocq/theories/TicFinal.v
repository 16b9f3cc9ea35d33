(** Remaining lemmas of the notification properties: histories, codes, counter-examples. *)
From Coq Require Import ZArith List Bool Lia ZifyBool.
From Verif Require Import Base BaseFacts Teleinfo TeleinfoSpec Publish HistorySpec Config ConfigSpec ConfigProofs
  ConfigMain ConfigHist ConfigFinal ToolSpec ToolMain Json JsonFacts JsonBuildFacts Tic TicSpec PageProofs TemplateProofs NotifMain RequestProofs
  Samples SamplesFacts TicSamples.
Import ListNotations.
Open Scope Z_scope.

(** ** C18 *)
Lemma safe_of_reachable : forall s, ordinarily_reachable s ->
  ~ (length (s_http_url (view (c_cfg s))) = 150%nat /\ unterminated (s_http_url (view (c_cfg s))) = true) -> url_safe (c_cfg s).
Proof.
  intros s R N. destruct (ordinary_tidy s R) as ((Hw & Hter & _) & Ht & _).
  split; [apply (Hter HUrl eq_refl)|].
  destruct (cstr_split (get HUrl (c_cfg s)) (Hter HUrl eq_refl)) as (tail & E & F).
  assert (L : length (get HUrl (c_cfg s)) = 151%nat) by (apply (get_len HUrl); auto).
  assert (D := tidy_tail _ _ _ E (Ht HUrl eq_refl)).
  change (s_http_url (view (c_cfg s))) with (cstr (get HUrl (c_cfg s))) in N. unfold text.
  set (url := cstr (get HUrl (c_cfg s))) in *. destruct (unterminated url) eqn:U; [right|auto].
  destruct D as [->|[tail' ->]].
  - exfalso. apply N. split; auto. rewrite E, app_length in L. cbn [length] in L. lia.
  - exists url, tail'. split; auto.
Qed.
(** The configuration of a module that was only configured by its own pages, with a closed notification URL. *)
Definition sound_config (c : cfg) : Prop :=
  exists s, c = c_cfg s /\ ordinarily_reachable s /\
    ~ (length (s_http_url (view c)) = 150%nat /\ unterminated (s_http_url (view c)) = true).
Lemma c18_history : forall e now c evs, frames_published evs -> sound_config c ->
  Forall (fun ev => match ev with Configure _ c' => sound_config c' | _ => True end) evs ->
  exists os st, tic_run e evs (tic_start now c) = Some (os, st).
Proof.
  intros e now c evs P (s & -> & R & N) F.
  destruct (run_some e evs (tic_start now (c_cfg s)) P) as [[os st] E].
  - apply safe_of_reachable; auto.
  - eapply Forall_impl; [|exact F]. intros [n c'|n k t]; auto. intros (s' & -> & R' & N'). apply safe_of_reachable; auto.
  - eauto.
Qed.
Lemma c18_refuted : exists s, ordinarily_reachable s /\ s_http_host (view (c_cfg s)) <> [] /\
  forall e t notif, published_ti t -> expand_url e t notif (get HUrl (c_cfg s)) = None.
Proof.
  exists posted4. split; [apply posted4_ordinary|]. split.
  - rewrite posted4_view. vm_compute. discriminate.
  - intros e t notif P. exact (proj2 (c18_field e t notif posted4 posted4_ordinary P) posted4_open).
Qed.

(** ** C21 *)
Lemma dec_some : forall n, 0 <= n -> dec n <> [].
Proof.
  intros n H. assert (D : n = 0 \/ 0 < n) by lia. destruct D as [->|D]; [discriminate|].
  destruct (dec_head n D) as (c & t & E & _). rewrite E. discriminate.
Qed.
Lemma code_digits : forall codes test, forallb (fun p => all_digit (str (snd p)) && negb (Nat.eqb (length (str (snd p))) 0)) codes = true ->
  let c := match find (fun p : String.string * String.string => test (str (fst p))) codes with Some p => str (snd p) | None => str "0" end in
  all_digit c = true /\ c <> [].
Proof.
  intros codes test H. cbv zeta. destruct (find _ codes) as [p|] eqn:E; [|split; [reflexivity|discriminate]].
  apply find_some in E. rewrite forallb_forall in H. destruct E as [I _]. specialize (H p I). apply andb_prop in H.
  destruct H as [A B]. split; auto. destruct (str (snd p)); [discriminate|congruence].
Qed.
Lemma trim_digits : forall v, v <> [] -> all_digit v = true -> all_digit (trim_number v) = true /\ trim_number v <> [].
Proof.
  intros v N D. unfold trim_number. rewrite D.
  assert (H : forall u, u <> [] -> all_digit u = true -> all_digit (no_leading_zeros u) = true /\ no_leading_zeros u <> []).
  { induction u as [|c u IH]; intros Nu Du; [congruence|]. cbn [no_leading_zeros]. destruct u as [|c2 u]; [auto|].
    assert (D2 : all_digit (c2 :: u) = true) by (unfold all_digit in *; cbn [forallb] in *; lia).
    destruct (c =? 48); [apply IH; congruence|]. split; congruence. }
  auto.
Qed.
Lemma c21_numeric : forall g, snd g <> [] ->
  fst g = str "OPTARIF" \/ fst g = str "PTEC" \/ fst g = str "HHPHC" /\ 0 <= hd 0 (snd g) \/ all_digit (snd g) = true ->
  all_digit (emon_code g) = true /\ emon_code g <> [].
Proof.
  intros g N H. unfold emon_code. destruct (beq (fst g) (str "OPTARIF")) eqn:E1; [apply (code_digits optarif_codes (fun w => is_prefix w (snd g))); reflexivity|].
  destruct (beq (fst g) (str "HHPHC")) eqn:E2.
  { assert (0 <= hd 0 (snd g)).
    { destruct H as [H|[H|[[_ H]|H]]]; auto.
      - rewrite H in E1. discriminate.
      - rewrite H in E2. discriminate.
      - destruct (snd g) as [|c v]; [congruence|]. cbn [hd]. unfold all_digit, isdigit in H. cbn [forallb] in H. lia. }
    unfold decs. replace (hd 0 (snd g) <? 0) with false by lia. split; [apply dec_digits|apply dec_some; auto]. }
  destruct (beq (fst g) (str "PTEC")) eqn:E3; [apply (code_digits ptec_codes (fun w => beq w (snd g))); reflexivity|].
  apply trim_digits; auto. destruct H as [H|[H|[[H _]|H]]]; auto; rewrite H in *; discriminate.
Qed.
Lemma c21_distinct : forall a b, In a (map fst ptec_codes) -> In b (map fst ptec_codes) ->
  emon_code (str "PTEC", str a) = emon_code (str "PTEC", str b) -> a = b.
Proof.
  intros a b Ha Hb. cbn [map fst ptec_codes In] in Ha, Hb.
  repeat (destruct Ha as [<-|Ha]); try tauto; repeat (destruct Hb as [<-|Hb]); try tauto; intros E; try reflexivity; exfalso; vm_compute in E; discriminate E.
Qed.
