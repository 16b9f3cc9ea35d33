(** Examples for the pages of Pages.v. *)
From Coq Require Import ZArith List Bool Lia.
From Verif Require Import Base BaseFacts Config ConfigSpec ConfigMain ConfigHist ToolSpec Json Pages PagesSpec PagesProofs TicSamples.
From Verif Require ConfigSamples.
Import ListNotations.
Open Scope Z_scope.

(** A key with a quote. *)
Definition form5 : form := [ (str "save", str "1"); (str "psk", [97; 34; 98]) ].
Definition posted5 : cstate := ConfigSamples.unwrap (cstep (Post Stored false form5) ConfigSamples.fresh).
Lemma form5_ok : form_bytes form5. Proof. apply ConfigSamples.form_ok. vm_compute. reflexivity. Qed.
Lemma posted5_view : view (c_cfg posted5) = after_form false form5 (factory ConfigSamples.chip1).
Proof. unfold posted5. exact (proj2 (proj2 (ConfigSamples.post_step Stored form5 form5_ok eq_refl))). Qed.
Lemma posted5_ordinary : ordinarily_reachable posted5.
Proof.
  apply (ConfigSamples.from_fresh_ordinary [Post Stored false form5]); [constructor; [apply form5_ok|constructor]| |].
  - constructor; [exact I|constructor].
  - unfold posted5. exact (proj1 (ConfigSamples.post_step Stored form5 form5_ok eq_refl)).
Qed.
Lemma c13_quote_refuted : exists s, ordinarily_reachable s /\ s_psk (view (c_cfg s)) = [97; 34; 98] /\
  json_of (config_get_json (c_cfg s) false) = None.
Proof.
  exists posted5. split; [apply posted5_ordinary|]. rewrite config_json_text, posted5_view. split; vm_compute; reflexivity.
Qed.
Lemma c13_reachable : forall s restricted, reachable s ->
  (forall f, is_text f = true -> restricted && secret f = false -> quotable (text f (c_cfg s)) = true) ->
  json_of (config_get_json (c_cfg s) restricted) =
  Some (JObj ((if restricted then [] else private_members (view (c_cfg s))) ++ public_members (view (c_cfg s)))).
Proof. intros s r R. apply c13. exact (proj1 (reachable_inv s R)). Qed.

Lemma ordinary_reachable : forall s, ordinarily_reachable s -> reachable s.
Proof.
  intros s (chip & o1 & o2 & mem & flash & s0 & es & A & B & C & _ & _ & _ & D & _ & E & F).
  exists chip, o1, o2, mem, flash, s0, es. auto 10.
Qed.
(** The texts of a configuration, from its settings. *)
Definition setting_texts (s : settings) : list (list Z) :=
  [s_ssid s; s_psk s; s_host s; s_ap_psk s; s_ota_auth s; s_username s; s_password s; s_emon_host s; s_emon_key s; s_emon_url s;
   s_jdom_host s; s_jdom_key s; s_jdom_url s; s_jdom_adco s; s_http_host s; s_http_url s].
Lemma quotable_config : forall c, forallb quotable (setting_texts (view c)) = true ->
  forall f, is_text f = true -> quotable (text f c) = true.
Proof. intros c H f T. rewrite forallb_forall in H. apply H. destruct f; try discriminate T; cbn; tauto. Qed.
Lemma posted4_quotable : forall f, is_text f = true -> quotable (text f (c_cfg posted4)) = true.
Proof. apply quotable_config. rewrite posted4_view. vm_compute. reflexivity. Qed.

Definition cfg_other : cfg := text_field Psk "another key" (text_field Username "me" (set OtaPort (le16 99) cfg0)).
Lemma other_public : same_public cfg0 cfg_other.
Proof. intros f S. destruct f; try discriminate S; reflexivity. Qed.

Definition net1 : network := mk_net (str "home") (-61) (str "00:11:22:33:44:55") 6 4.
Definition net2 : network := mk_net (str "caf" ++ e_acute) (-80) (str "00:11:22:33:44:56") 11 7.
Definition net_quote : network := mk_net [97; 34; 98] (-80) (str "00:11:22:33:44:56") 11 7.
Definition info1 : sysinfo :=
  mk_info 93784000000 (str "2020-01-26T01:53:20+0100") true (-61) (str "00:11:22:33:44:57") 2 (str "1.0") (str "Jan 26 2020")
    (str "-DDEBUG") (str "2.2.1") 1193046 4194304 412345 600000 30000 (Some 12) 1000000 250000 1 (str "10.0.0.3").
