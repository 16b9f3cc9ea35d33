(** Property theorem C98: updates over the air (src/sys.cpp:356-376 and 405-440, with ENABLE_OTA). Specification: OtaSpec.v. *)
From Coq Require Import ZArith List Bool Lia.
From Verif Require Import Base Config Ota OtaSpec OtaProofs TicSamples WebSamples.
Import ListNotations.
Open Scope Z_scope.

(** C98. Whatever datagrams come, from anybody and at any time, an image is written only after an invitation that announced its
    size and its MD5, a challenge sent to the inviter, and as the next datagram the response of someone who knows the password
    that was in the settings at the last start. *)
Theorem C98_written : forall md5, digits32 md5 -> forall c0 es m os e m' o cmd image,
  run md5 es (boot md5 c0) = (m, os) -> step md5 e m = (m', o) -> In (Written cmd image) o ->
  e = Handles true true image /\ o = [Written cmd image; Restart] /\
  exists es1 p port nonce es2 q cn n es3,
    es = es1 ++ Comes p (Invite cmd port (Z.of_nat (length image)) (md5 image)) nonce ::
         es2 ++ Comes q (Answer cn (response md5 (password c0 (combine es os)) nonce cn)) n :: es3 /\
    nth (length es1) os [] = [Challenge p nonce] /\ no_datagram es2.
Proof. exact c98_written. Qed.
Print Assumptions C98_written.

(** C98. Someone who knows the password can send any firmware or file system. Missing: another datagram in between
    (C98_cancelled), and a transfer that fails. *)
Theorem C98_update_partial : forall md5, digits32 md5 -> forall c0 es m os cmd port image p q nonce cn n,
  run md5 es (boot md5 c0) = (m, os) -> o_state (m_ota m) = Idle -> cmd = 0 \/ cmd = 100 -> length cn = 32%nat ->
  exists m', run md5 [Comes p (Invite cmd port (Z.of_nat (length image)) (md5 image)) nonce;
                 Comes q (Answer cn (response md5 (password c0 (combine es os)) nonce cn)) n; Handles true true image] m =
             (m', [[Challenge p nonce]; []; [Written cmd image; Restart]]) /\ o_state (m_ota m') = Idle.
Proof. exact c98_update. Qed.
Print Assumptions C98_update_partial.

(** The port of the settings, or 8266. *)
Theorem C98_port : forall md5 c, o_port (m_ota (boot md5 c)) = if num OtaPort c =? 0 then 8266 else num OtaPort c.
Proof. reflexivity. Qed.
Print Assumptions C98_port.

(** For the examples: any function that gives 32 digits. *)
Definition toy (l : list Z) : list Z := firstn 32 (dec (fold_left (fun h c => (h * 31 + c) mod 1000003) l 7) ++ repeat 48 32).
Lemma toy32 : digits32 toy.
Proof.
  intros l. unfold toy. rewrite firstn_length, app_length. change (length (repeat 48 32)) with 32%nat.
  apply Nat.min_l. apply Nat.le_add_l.
Qed.
Definition cfg_ota : cfg := text_field OtaAuth "OTA_WifInfo" cfg_login.
Definition cfg_new : cfg := text_field OtaAuth "secret" cfg_login.
Definition firmware : list Z := [233; 1; 2; 3].
Definition nonce0 : list Z := str "n0".
Definition cnonce0 : list Z := repeat 99 32.
(** The password is changed; the module restarts; the new one is used. *)
Definition evening : list event :=
  [SetupDone; Saved cfg_new; Reboots; SetupDone; Comes 1 Noise []; Comes 1 (Invite 0 8000 4 (toy firmware)) nonce0;
   Comes 1 (Answer cnonce0 (response toy (str "secret") nonce0 cnonce0)) []].
Example C98_written_case : exists m os m', run toy evening (boot toy cfg_ota) = (m, os) /\
  step toy (Handles true true firmware) m = (m', [Written 0 firmware; Restart]) /\
  password cfg_ota (combine evening os) = str "secret" /\ text Username cfg_ota <> [] /\
  o_state (m_ota (fst (run toy (firstn 5 evening) (boot toy cfg_ota)))) = Idle /\ num OtaPort cfg_ota = 0.
Proof.
  do 3 eexists. split; [vm_compute; reflexivity|]. split; [vm_compute; reflexivity|]. split; [vm_compute; reflexivity|].
  split; [vm_compute; discriminate|]. split; vm_compute; reflexivity.
Qed.

(** The factory password is published with the program: as long as it has not been changed, anybody on the network can replace the
    firmware, even if the pages need a login. *)
Theorem C98_factory_refuted : exists c, text Username c <> [] /\ text OtaAuth c = str "OTA_WifInfo" /\
  forall md5 nonce image, digits32 md5 ->
    snd (run md5 [Comes 7 (Invite 0 8000 (Z.of_nat (length image)) (md5 image)) nonce;
                  Comes 7 (Answer cnonce0 (response md5 (str "OTA_WifInfo") nonce cnonce0)) []; Handles true true image] (boot md5 c)) =
    [[Challenge 7 nonce]; []; [Written 0 image; Restart]].
Proof.
  exists cfg_ota. split; [vm_compute; discriminate|]. split; [reflexivity|]. intros md5 nonce image H.
  destruct (c98_update md5 H cfg_ota [] _ _ 0 8000 image 7%nat 7%nat nonce cnonce0 [] eq_refl eq_refl (or_introl eq_refl) eq_refl) as (m' & E & _).
  change (password cfg_ota (combine [] [])) with (str "OTA_WifInfo") in E. rewrite E. reflexivity.
Qed.
Print Assumptions C98_factory_refuted.

(** A wrong password restarts the module: anybody on the network can do it, at any time when no other update is going on, with two
    datagrams (the same ones for every password and every module). *)
Theorem C98_stranger_refuted : exists sum cn guess, forall md5 c0 es m os p port nonce n,
  run md5 es (boot md5 c0) = (m, os) -> o_calls (m_ota m) = true -> o_state (m_ota m) = Idle ->
  In Restart (concat (snd (run md5 [Comes p (Invite 0 port 1 sum) nonce; Comes p (Answer cn guess) n; Handles true false []] m))).
Proof.
  exists cnonce0, cnonce0, cnonce0. intros md5 c0 es m os p port nonce n R C S.
  exact (c98_stranger md5 c0 es m os p R C S nonce n port cnonce0 cnonce0 cnonce0 eq_refl eq_refl eq_refl).
Qed.
Print Assumptions C98_stranger_refuted.
Example C98_stranger_case : exists m os, run toy (firstn 5 evening) (boot toy cfg_ota) = (m, os) /\ o_calls (m_ota m) = true /\ o_state (m_ota m) = Idle.
Proof. do 2 eexists. split; [vm_compute; reflexivity|]. split; reflexivity. Qed.

(** A new password is in force only after a restart: until then the old one is accepted, and the new one restarts the module. *)
Theorem C98_old_password_refuted : exists es m os, run toy es (boot toy cfg_ota) = (m, os) /\ In (Saved cfg_new) es /\
  text OtaAuth (m_cfg m) = str "secret" /\
  (forall md5, digits32 md5 -> password cfg_ota (combine es (snd (run md5 es (boot md5 cfg_ota)))) = str "OTA_WifInfo") /\
  concat (snd (run toy [Comes 1 (Invite 0 8000 4 (toy firmware)) nonce0;
     Comes 1 (Answer cnonce0 (response toy (str "secret") nonce0 cnonce0)) []] m)) = [Challenge 1 nonce0; Failed 1; Restart].
Proof.
  exists [SetupDone; Saved cfg_new]. do 2 eexists. split; [reflexivity|]. split; [right; left; reflexivity|].
  split; [vm_compute; reflexivity|]. split; [intros md5 H; reflexivity|]. vm_compute. reflexivity.
Qed.
Print Assumptions C98_old_password_refuted.

(** Any datagram that comes while the administrator is being asked for the password cancels the update. *)
Theorem C98_cancelled : forall md5 c0 es m os, run md5 es (boot md5 c0) = (m, os) -> o_state (m_ota m) = WaitAuth ->
  forall p d nonce, (forall cn r, d <> Answer cn r) -> exists m', step md5 (Comes p d nonce) m = (m', []) /\ o_state (m_ota m') = Idle.
Proof.
  intros md5 c0 es m os _ S p d nonce X. cbn [step]. unfold on_rx. rewrite S.
  destruct d as [? ? ? ?|cn r|]; try (eexists; split; reflexivity). destruct (X cn r eq_refl).
Qed.
Print Assumptions C98_cancelled.
Example C98_cancelled_case : o_state (m_ota (fst (run toy (firstn 6 evening) (boot toy cfg_ota)))) = WaitAuth.
Proof. vm_compute. reflexivity. Qed.

(** Malformed datagrams (a sum, a nonce or an answer that has not 32 characters) have no visible effect and start nothing. *)
Theorem C98_malformed : forall md5 m p d nonce,
  match d with Invite _ _ _ sum => length sum <> 32%nat | Answer cn r => length cn <> 32%nat \/ length r <> 32%nat | _ => False end ->
  exists m', step md5 (Comes p d nonce) m = (m', []) /\ m_cfg m' = m_cfg m /\ (o_state (m_ota m') <> o_state (m_ota m) -> o_state (m_ota m') = Idle) /\
    (o_state (m_ota m) = Idle -> m' = m).
Proof. exact c98_malformed. Qed.
Print Assumptions C98_malformed.
Example C98_malformed_case : o_state (m_ota (fst (run toy (firstn 6 evening) (boot toy cfg_ota)))) = WaitAuth /\
  o_state (m_ota (fst (step toy (Comes 1 (Answer (str "short") cnonce0) []) (fst (run toy (firstn 6 evening) (boot toy cfg_ota)))))) = Idle.
Proof. split; vm_compute; reflexivity. Qed.
