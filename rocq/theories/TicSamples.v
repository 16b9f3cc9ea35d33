(** Concrete frames and configurations for the examples and counter-examples on pages, notifications and requests. *)
From Coq Require Import ZArith List Bool Lia ZifyBool.
From Verif Require Import Base BaseFacts Teleinfo TeleinfoSpec Publish HistorySpec WattProofs Config ConfigSpec ConfigProofs
  ConfigMain ConfigHist ConfigFinal ToolSpec Json JsonFacts Tic TicSpec NotifMain RequestProofs Samples SamplesFacts.
From Verif Require ConfigSamples.
Import ListNotations.
Open Scope Z_scope.

Definition env0 : env := mk_env (fun _ => str "2020-01-26T01:53:20+0100") 1193046.

(** What is published after the reception of a frame. *)
Definition frame_of (gs : list group) : list Z := frame_bytes (map (enc_group 32) gs).
Definition shown (bytes : list Z) : teleinfo :=
  match pub_run true (feed bytes) (pub_init blank blank) with
  | Some p => p_ti p
  | None => p_ti (pub_init blank blank)
  end.
Lemma fed_feed : forall l, fed false (feed l) = map (fun c => (now0, c)) l.
Proof. induction l; cbn [feed map fed]; auto. unfold feed in IHl. now rewrite IHl. Qed.
Lemma shown_published : forall l, bytesb l = true -> published_ti (shown l).
Proof.
  intros l H. unfold published_ti, shown.
  destruct (c10_safe true blank blank (feed l) 60) as (p & w & E & _).
  - reflexivity.
  - reflexivity.
  - rewrite fed_feed, map_map. cbn [snd]. rewrite map_id. apply bytesb_spec. auto.
  - lia.
  - rewrite E. exists true, blank, blank, (feed l), p. repeat (split; [reflexivity|]).
    split; [rewrite fed_feed, map_map; cbn [snd]; rewrite map_id; apply bytesb_spec; auto|]. auto.
Qed.

(** Frames. *)
Definition hp (papp : String.string) : teleinfo :=
  shown (frame_of [(str "ADCO", str "111111111111"); (str "PTEC", str "HP.."); (str "PAPP", str papp)]).
Definition hc (papp : String.string) : teleinfo :=
  shown (frame_of [(str "PTEC", str "HC.."); (str "ADPS", str "031"); (str "PAPP", str papp)]).
Arguments hp _%string_scope.
Arguments hc _%string_scope.
Definition with_ptec (v : String.string) : teleinfo := shown (frame_of [(str "PTEC", str v)]).
Arguments with_ptec _%string_scope.
Definition quote_frame : teleinfo := shown (frame_of [(str "MOTDETAT", [34; 48; 48])]).
Definition dots_frame : teleinfo := shown (frame_of [(str "DEMAIN", str "----"); (str "OPTARIF", str "...."); (str "PAPP", str "00100")]).
Definition demain_frame : teleinfo := shown (frame_of [(str "PTEC", str "HPJB"); (str "DEMAIN", str "BLEU")]).

(** A configuration with the three services: notifications to 10.0.0.2:8080 with all triggers, every 60 s, by POST. *)
Definition text_field (f : fld) (s : String.string) : cfg -> cfg := set f (padded f (str s)).
Arguments text_field _ _%string_scope _.
Definition cfg0 : cfg :=
  text_field HHost "10.0.0.2" (text_field HUrl "/n?t=~type~&p=$PAPP,~~" (set HPort (le16 8080) (set HFreq (le32 60) (set HFlags [135]
  (set HSeuilHaut (le16 5500) (set HSeuilBas (le16 4200)
  (text_field JHost "jeedom" (text_field JUrl "/jee.php" (text_field JKey "k1" (text_field JAdco "42" (set JPort (le16 80) (set JFreq (le32 300)
  (text_field EHost "emoncms.org" (text_field EUrl "/input/post" (text_field EKey "k2" (set ENode [7] (set EPort (le16 80) (set EFreq (le32 30)
  (set SseFreq (le16 10) zeroed))))))))))))))))))).
Lemma cfg0_terminated : terminated cfg0.
Proof.
  assert (H : forallb (fun f => negb (is_text f) || existsb (Z.eqb 0) (get f cfg0)) fields = true) by (vm_compute; reflexivity).
  rewrite forallb_forall in H. intros f T. assert (I : In f fields) by (destruct f; cbn; tauto).
  specialize (H f I). rewrite T in H. cbn [negb orb] in H. apply existsb_exists in H. destruct H as (x & J & E).
  apply Z.eqb_eq in E. subst x. exact J.
Qed.

(** Evaluating a history. *)
Definition outcome {A} (f : list (list effect) -> A) (r : option (list (list effect) * tstate)) : option A :=
  match r with Some (os, _) => Some (f os) | None => None end.
Lemma outcome_ok : forall A (f : list (list effect) -> A) r x, outcome f r = Some x -> exists os st, r = Some (os, st) /\ f os = x.
Proof. intros A f [[os st]|] x H; [|discriminate]. injection H as H. eauto. Qed.

Definition history0 : list tevent :=
  [ Frame 1000 0 (hp "00100"); Frame 3000 1 (hc "06000"); Frame 12000 1 (hc "05000"); Frame 31000 0 (hp "04000");
    Frame 70000 1 (hp "00100") ].
Lemma history0_published : frames_published history0.
Proof. repeat constructor; apply shown_published; vm_compute; reflexivity. Qed.

(** A notification URL of 150 characters ending in an open label. *)
Definition form4 : form :=
  [ (str "save", str "1"); (str "httpreq_host", str "10.0.0.2"); (str "httpreq_port", str "80");
    (str "httpreq_url", repeat 97 147 ++ str "~PA"); (str "httpreq_trigger_ptec", str "on") ].
Definition posted4 : cstate := ConfigSamples.unwrap (cstep (Post Stored false form4) ConfigSamples.fresh).
Lemma form4_ok : form_bytes form4. Proof. apply ConfigSamples.form_ok. vm_compute. reflexivity. Qed.
Lemma posted4_view : view (c_cfg posted4) = after_form false form4 (factory ConfigSamples.chip1).
Proof. unfold posted4. exact (proj2 (proj2 (ConfigSamples.post_step Stored form4 form4_ok eq_refl))). Qed.
Lemma posted4_ordinary : ordinarily_reachable posted4.
Proof.
  apply (ConfigSamples.from_fresh_ordinary [Post Stored false form4]); [constructor; [apply form4_ok|constructor]| |].
  - constructor; [exact I|constructor].
  - unfold posted4. exact (proj1 (ConfigSamples.post_step Stored form4 form4_ok eq_refl)).
Qed.
Lemma posted4_open : length (s_http_url (view (c_cfg posted4))) = 150%nat /\ unterminated (s_http_url (view (c_cfg posted4))) = true.
Proof. rewrite posted4_view. vm_compute. auto. Qed.
