(** Concrete configurations used by the examples and the counterexamples. *)
From Coq Require Import ZArith List Bool Lia ZifyBool.
From Verif Require Import Base BaseFacts Config ConfigSpec ConfigProofs ConfigMain ConfigHist EepromTool ToolSpec.
Import ListNotations.
Open Scope Z_scope.

Definition chip1 : Z := 1193046. (* 0x123456 *)
Definition blank : list Z := repeat 255 CFG_SIZE.
Definition nothing : cstate := mk_cs [] (mk_ee [] false []).
Definition unwrap (o : option cstate) : cstate := match o with Some s => s | None => nothing end.

(** A new module: blank flash. *)
Definition fresh : cstate := unwrap (config_setup chip1 Stored Stored zeroed blank).

(** The configuration form as filled by a user. The fields left out are posted empty or not at all. *)
Definition form1 : form :=
  [ (str "save", str "1"); (str "ssid", str "home"); (str "psk", str "secretacU0"); (str "host", str "wifinfo");
    (str "ota_port", str "8266"); (str "sse_freq", str "10");
    (str "emon_host", str "emoncms.org"); (str "emon_port", str "80"); (str "jdom_host", str "jeedom.local");
    (str "jdom_port", str "80"); (str "jdom_freq", str "99999"); (str "httpreq_host", str "10.0.0.2");
    (str "httpreq_port", str "8080"); (str "httpreq_trigger_ptec", str "on"); (str "httpreq_seuil_haut", str "5500");
    (str "httpreq_seuil_bas", str "4200") ].
Definition posted1 : cstate := unwrap (cstep (Post Stored false form1) fresh).
(** A key without a network. *)
Definition form2 : form := [ (str "save", str "1"); (str "psk", str "abcdef") ].
Definition posted2 : cstate := unwrap (cstep (Post Stored false form2) fresh).
(** A host name of 16 accented letters. *)
Definition form3 : form := [ (str "save", str "1"); (str "host", [120] ++ concat (repeat [195; 169] 16)) ].
Definition posted3 : cstate := unwrap (cstep (Post Stored false form3) fresh).

Lemma blank_ok : flash_ok blank.
Proof. apply repeat_ok. unfold is_byte. lia. Qed.
Lemma fresh_facts : config_setup chip1 Stored Stored zeroed blank = Some fresh /\ view (c_cfg fresh) = factory chip1 /\
  crc_of (e_flash (c_ee fresh)) = 0 /\ secured (of_image (e_flash (c_ee fresh))) = c_cfg fresh.
Proof.
  destruct (setup_bad chip1 Stored Stored zeroed blank blank_ok (proj1 blank_bad)) as (s & E & _ & V & S).
  unfold fresh. rewrite E. cbn [unwrap]. destruct (S eq_refl) as [S1 S2]. exact (conj eq_refl (conj V (conj S1 S2))).
Qed.
Lemma fresh_ok : config_setup chip1 Stored Stored zeroed blank = Some fresh.
Proof. exact (proj1 fresh_facts). Qed.
Lemma from_fresh : forall es s, Forall event_ok es -> csteps es fresh = Some s -> reachable s.
Proof.
  intros es s He E. exists chip1, Stored, Stored, zeroed, blank, fresh, es.
  split; [unfold chip1; lia|]. split; [apply zeroed_wf|]. split; [apply blank_ok|]. split; [auto|].
  split; [apply fresh_ok|auto].
Qed.
Lemma from_fresh_ordinary : forall es s, Forall event_ok es -> Forall ordinary es -> csteps es fresh = Some s ->
  ordinarily_reachable s.
Proof.
  intros es s He Ho E. exists chip1, Stored, Stored, zeroed, blank, fresh, es.
  split; [unfold chip1; lia|]. split; [apply zeroed_wf|]. split; [apply blank_ok|].
  split; [exact I|]. split; [exact I|]. split; [left; exact (proj1 blank_bad)|]. split; [auto|]. split; [auto|].
  split; [apply fresh_ok|auto].
Qed.

Definition byteb (l : list Z) : bool := forallb (fun c => (0 <=? c) && (c <? 256)) l.
Lemma byteb_ok : forall l, byteb l = true -> bytes l.
Proof.
  intros l H. unfold byteb in H. rewrite forallb_forall in H. apply Forall_forall. intros x Hx. specialize (H x Hx).
  unfold is_byte. lia.
Qed.
Lemma form_ok : forall fm, forallb (fun p => byteb (fst p) && byteb (snd p)) fm = true -> form_bytes fm.
Proof.
  intros fm H. rewrite forallb_forall in H. apply Forall_forall. intros x Hx. specialize (H x Hx).
  apply andb_true_iff in H. destruct H. split; apply byteb_ok; auto.
Qed.
Lemma form1_ok : form_bytes form1. Proof. apply form_ok. vm_compute. reflexivity. Qed.
Lemma form2_ok : form_bytes form2. Proof. apply form_ok. vm_compute. reflexivity. Qed.
Lemma form3_ok : form_bytes form3. Proof. apply form_ok. vm_compute. reflexivity. Qed.

Lemma fresh_reachable : reachable fresh.
Proof. apply (from_fresh []); auto. Qed.
Lemma post_step : forall o fm, form_bytes fm -> ticked fm "save" = true ->
  csteps [Post o false fm] fresh = Some (unwrap (cstep (Post o false fm) fresh)) /\
  config_handle_form o false fm fresh = Some (unwrap (cstep (Post o false fm) fresh), 200) /\
  view (c_cfg (unwrap (cstep (Post o false fm) fresh))) = after_form false fm (factory chip1).
Proof.
  intros o fm Hf Hs. cbn [cstep csteps].
  destruct (handle_form_spec o false fm fresh (reachable_inv _ fresh_reachable) Hf Hs) as (s' & E & _ & V & _).
  rewrite E. cbn [unwrap]. rewrite <- (proj1 (proj2 fresh_facts)). exact (conj eq_refl (conj eq_refl V)).
Qed.
Lemma posted1_step : csteps [Post Stored false form1] fresh = Some posted1.
Proof. unfold posted1. exact (proj1 (post_step Stored form1 form1_ok eq_refl)). Qed.
Lemma posted1_view : view (c_cfg posted1) = after_form false form1 (factory chip1).
Proof. unfold posted1. exact (proj2 (proj2 (post_step Stored form1 form1_ok eq_refl))). Qed.
Lemma posted1_reachable : reachable posted1.
Proof. apply (from_fresh _ _ (Forall_cons (P := event_ok) (Post Stored false form1) form1_ok (Forall_nil _)) posted1_step). Qed.
Lemma posted1_ordinary : ordinarily_reachable posted1.
Proof.
  apply (from_fresh_ordinary [Post Stored false form1]); [constructor; [apply form1_ok|constructor]| |apply posted1_step].
  constructor; [exact I|constructor].
Qed.
Lemma posted2_step : csteps [Post Stored false form2] fresh = Some posted2.
Proof. unfold posted2. exact (proj1 (post_step Stored form2 form2_ok eq_refl)). Qed.
Lemma posted2_reachable : reachable posted2.
Proof. apply (from_fresh _ _ (Forall_cons (P := event_ok) (Post Stored false form2) form2_ok (Forall_nil _)) posted2_step). Qed.
Lemma posted3_step : csteps [Post Stored false form3] fresh = Some posted3.
Proof. unfold posted3. exact (proj1 (post_step Stored form3 form3_ok eq_refl)). Qed.
Lemma posted3_ordinary : ordinarily_reachable posted3.
Proof.
  apply (from_fresh_ordinary [Post Stored false form3]); [constructor; [apply form3_ok|constructor]| |apply posted3_step].
  constructor; [exact I|constructor].
Qed.

(** The save of form1 interrupted after 512 bytes. *)
Definition torn1 : cstate := unwrap (cstep (Post (Torn 512) false form1) fresh).
Definition kept1 : cstate := unwrap (cstep (Post NotErased false form1) fresh).
Lemma torn1_step : config_handle_form (Torn 512) false form1 fresh = Some (torn1, 200).
Proof. unfold torn1. exact (proj1 (proj2 (post_step (Torn 512) form1 form1_ok eq_refl))). Qed.
Lemma torn1_view : view (c_cfg torn1) = after_form false form1 (factory chip1).
Proof. unfold torn1. exact (proj2 (proj2 (post_step (Torn 512) form1 form1_ok eq_refl))). Qed.
Lemma kept1_step : config_handle_form NotErased false form1 fresh = Some (kept1, 200).
Proof. unfold kept1. exact (proj1 (proj2 (post_step NotErased form1 form1_ok eq_refl))). Qed.

(** The only facts obtained by running the model on 1024-byte images; one computation each. *)
Definition torn_check (flash : list Z) : bool :=
  (crc_of flash =? 0) && beq (s_ssid (view (secured (of_image flash)))) (str "home") &&
  beq (s_jdom_host (view (secured (of_image flash)))) (str "je" ++ repeat 255 30).
Lemma torn1_check : torn_check (e_flash (c_ee torn1)) = true.
Proof. vm_compute. reflexivity. Qed.

(** Deciders for the conditions on settings. *)
Lemma texts_bytes_ok : forall s, forallb (fun p => byteb (snd p)) (texts s) = true -> texts_bytes s.
Proof. intros s H. rewrite forallb_forall in H. apply Forall_forall. intros x Hx. apply byteb_ok; auto. Qed.
Lemma fits_ok : forall s,
  forallb (fun p => negb (existsb (Z.eqb 0) (snd p)) && Nat.leb (List.length (snd p)) (fst p)) (texts s) = true -> fits s.
Proof.
  intros s H. rewrite forallb_forall in H. apply Forall_forall. intros x Hx. specialize (H x Hx).
  apply andb_true_iff in H. destruct H as [H1 H2]. split; [|apply Nat.leb_le; auto].
  intros Hin. apply negb_true_iff in H1. assert (existsb (Z.eqb 0) (snd x) = true); [|congruence].
  apply existsb_exists. exists 0. auto.
Qed.
Lemma utf8_ok : forall s, forallb (fun p => is_utf8 (snd p)) (texts s) = true -> texts_utf8 s.
Proof. intros s H. rewrite forallb_forall in H. apply Forall_forall. auto. Qed.
Definition numbersb (s : settings) : bool :=
  forallb (fun p => (0 <=? snd p) && (snd p <? fst p))
   [ (65536, s_ota_port s); (65536, s_sse_freq s); (65536, s_emon_port s); (256, s_emon_node s);
     (4294967296, s_emon_freq s); (65536, s_jdom_port s); (4294967296, s_jdom_freq s); (65536, s_http_port s);
     (4294967296, s_http_freq s); (65536, s_seuil_haut s); (65536, s_seuil_bas s) ].
Lemma numbers_ok : forall s, numbersb s = true -> numbers_fit s.
Proof.
  intros s H. unfold numbersb in H. cbn [forallb fst snd] in H. unfold numbers_fit. lia.
Qed.
