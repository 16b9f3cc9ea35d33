(** A login keeps strangers out, across the life of the module. *)
From Coq Require Import ZArith List Bool Lia.
From Verif Require Import Base Config ConfigSpec TicSpec Web Device WebSpec WebSamples DeviceProofs Cli Life LifeSpec LifeProofs LifeMain LifeFinal LifeSamples LoginSpec LoginProofs LoginSamples LoginAny LoginAnySamples.
From Verif Require ConfigSamples.
Import ListNotations.
Open Scope Z_scope.

(** C104. The settings in use are those stored, they have a login and a network. From then on, whatever comes - restarts and
    power cuts at any time, requests of strangers, frames, typed commands that do not write the settings, requests of the
    owner that do not write them - the flash stays as it is and the module demands this login whenever it runs.
    Missing: uploads by strangers (C33), saves that fail; settings without a network, where a start may write (next theorems). *)
Theorem C104_strangers_partial : forall fuel bd flash es1 d cl os1 es2 m os2, (256 <= fuel)%nat -> build_ok bd -> flash_ok flash ->
  Forall ordinary_life (es1 ++ es2) -> lrun fuel bd es1 (Off flash) = Done (On d cl, os1) ->
  let s := view (cfg_of d) in (forall chip, settings_at_start chip (flash_of (On d cl)) s) -> s_username s <> [] -> s_ssid s <> [] ->
  Forall (nobody_changes (s_username s) (s_password s)) es2 -> lrun fuel bd es2 (On d cl) = Done (m, os2) ->
  (forall line, In (Command line) (concat os2) -> ~ writer (bd_parse bd line)) ->
  flash_of m = flash_of (On d cl) /\ demands fuel bd (s_username s) (s_password s) m.
Proof. exact c104_strangers. Qed.
Print Assumptions C104_strangers_partial.
Example C104_ex_strangers : exists d cl os1 os2,
  lrun 256 talkative owner_story (Off ConfigSamples.blank) = Done (On d cl, os1) /\
  Forall ordinary_life (owner_story ++ [Event (DHttp around0 (ask "/factory_reset")) raw0]) /\
  let s := view (cfg_of d) in (forall chip, settings_at_start chip (flash_of (On d cl)) s) /\
  s_username s = str "me" /\ s_password s = str "pw" /\ s_ssid s = str "home" /\
  Forall (nobody_changes (s_username s) (s_password s)) [Event (DHttp around0 (ask "/factory_reset")) raw0] /\
  lrun 256 talkative [Event (DHttp around0 (ask "/factory_reset")) raw0] (On d cl) = Done (On d cl, os2) /\
  os2 = [[Did (Reply 401 Html (str "Authentication Failed"))]].
Proof.
  destruct owner_done as (d & cl & os & E & M & S & V). exists d, cl, os.
  assert (X : demands 256 talkative (text Username (cfg_of d)) (text Password (cfg_of d)) (On d cl)).
  { apply demanded; [apply le_n|]. destruct (view_texts _ _ V) as (_ & -> & _). discriminate. }
  destruct (view_texts _ _ V) as (V1 & V2 & _ & _ & _ & V3). exists [[Did (Reply 401 Html (str "Authentication Failed"))]].
  assert (O : ordinary_life (Event (DHttp around0 (ask "/factory_reset")) raw0)) by (apply ask_ordinary; [constructor|cbn; lia|discriminate]).
  split; [exact E|]. split; [apply Forall_app; split; [exact story_ordinary|constructor; [exact O|constructor]]|]. cbv zeta.
  split; [exact S|]. split; [exact V2|]. split; [exact V3|]. split; [exact V1|]. split; [constructor; [left; reflexivity|constructor]|].
  split; [|reflexivity]. destruct (proj1 X around0 (ask "/factory_reset") raw0 eq_refl (proj1 O)) as (o & L & _ & C & _).
  rewrite C in L by (left; unfold protected_uris; cbn [In q_uri ask]; tauto). exact (one_step _ _ _ _ _ _ L).
Qed.
(** A login saved in the page by a client with full access is demanded at once, and ever after under the same conditions. *)
Theorem C104_saved_login : forall fuel bd flash es1 d cl os1 a q raw es2 m o os2 u p, (256 <= fuel)%nat -> build_ok bd -> flash_ok flash ->
  Forall ordinary_life (es1 ++ Event (DHttp a q) raw :: es2) -> lrun fuel bd es1 (Off flash) = Done (On d cl, os1) ->
  q_uri q = str "/config_form.json" -> fully_allowed q d -> ticked (q_args q) "save" = true -> a_flash a = Stored ->
  ConfigSpec.posted (q_args q) "username" = u -> ConfigSpec.posted (q_args q) "password" = p -> u <> [] ->
  Forall (fun c => c <> 0) (u ++ p) -> (length u <= 31)%nat -> (length p <= 31)%nat ->
  cstr (ConfigSpec.posted (q_args q) "ssid") <> [] ->
  lrun fuel bd (Event (DHttp a q) raw :: es2) (On d cl) = Done (m, o :: os2) ->
  Forall (nobody_changes u p) es2 -> (forall line, In (Command line) (concat os2) -> ~ writer (bd_parse bd line)) ->
  o = [Did (Reply 200 Text (str "OK"))] /\ demands fuel bd u p m.
Proof. exact c104_saved. Qed.
Print Assumptions C104_saved_login.
Example C104_ex_saved : exists d cl o os2, lrun 256 talkative [PowerOn start0] (Off ConfigSamples.blank) = Done (On dev0 cli_init, [map Radio acts0]) /\
  Forall ordinary_life ([PowerOn start0] ++ Event (DHttp around0 post_form) raw0 :: owner_restarts) /\ fully_allowed post_form dev0 /\
  ConfigSpec.posted (q_args post_form) "username" = str "me" /\ ConfigSpec.posted (q_args post_form) "password" = str "pw" /\
  cstr (ConfigSpec.posted (q_args post_form) "ssid") = str "home" /\
  lrun 256 talkative (Event (DHttp around0 post_form) raw0 :: owner_restarts) (On dev0 cli_init) = Done (On d cl, o :: os2) /\
  Forall (nobody_changes (str "me") (str "pw")) owner_restarts /\ (forall line, In (Command line) (concat os2) -> ~ writer (bd_parse talkative line)).
Proof.
  assert (T : unterminated (text HUrl (cfg_of dev0)) = false).
  { assert (D := dev0_cs). unfold cfg_of. rewrite D. apply fresh_texts. }
  destruct (owner_life dev0 cli_init dev0_ok (Forall_nil _) dev0_login T) as (d' & cl' & o & os2 & R & L & _).
  exists d', cl', o, os2. split; [exact (one_step _ _ _ _ _ _ (first_start _ _))|]. split; [exact story_ordinary|].
  split; [left; exact dev0_login|]. split; [reflexivity|]. split; [reflexivity|]. split; [reflexivity|]. split; [exact R|]. split.
  - constructor; [right; split; discriminate|]. repeat constructor.
  - intros line J. apply in_concat in J. destruct J as (x & J1 & J2). clear - L J1 J2. revert J1. induction L as [|e y es os (_ & H) L IH]; intros J1; [destruct J1|].
    destruct J1 as [->|J1]; [exact (H line J2)|exact (IH J1)].
Qed.
(** The power is cut while the owner saves another setting: after the next start the module has no login any more, and a
    stranger can restart it. *)
Theorem C104_cut_refuted : exists bd flash es d cl os a q raw b d' cl' os' stranger o, build_ok bd /\ flash_ok flash /\ Forall ordinary_life es /\
  lrun 256 bd es (Off flash) = Done (On d cl, os) /\ (forall chip, settings_at_start chip (flash_of (On d cl)) (view (cfg_of d))) /\
  refused stranger d /\ q_uri stranger = str "/reset" /\ fully_allowed q d /\ q_uri q = str "/config_form.json" /\
  ConfigSpec.posted (q_args q) "username" = text Username (cfg_of d) /\ ConfigSpec.posted (q_args q) "password" = text Password (cfg_of d) /\
  lrun 256 bd [Event (DHttp a q) raw; PowerOn b] (On d cl) = Done (On d' cl', os') /\
  lstep 256 bd (Event (DHttp a stranger) raw) (On d' cl') = Done (Off (flash_of (On d' cl')), o) /\ In (Did RestartNow) o.
Proof.
  destruct owner_done as (d & cl & os & E & M & S & V). destruct (cut_opens d cl M S V) as (os' & C).
  destruct (view_texts _ _ V) as (_ & V1 & _ & _ & _ & V2). destruct (owner_settings (view (cfg_of dev0)) false eq_refl) as (_ & W1 & W2 & _).
  rewrite W1 in V1. rewrite W2 in V2. clear V W1 W2.
  exists talkative, ConfigSamples.blank, owner_story, d, cl, os, failing, post_again, raw0, start0, dev0, cli_init, os', (ask "/reset"), [Did (Reply 200 Text (str "Restart")); Did RestartNow].
  split; [exact talkative_ok|]. split; [exact ConfigSamples.blank_ok|].
  split; [exact story_ordinary|]. split; [exact E|]. split; [exact S|].
  split; [split; [rewrite V1; discriminate|reflexivity]|]. split; [reflexivity|]. split; [right; rewrite V1, V2; split; reflexivity|]. split; [reflexivity|].
  split; [rewrite V1; reflexivity|]. split; [rewrite V2; reflexivity|]. split; [exact C|]. split; [exact open_restart|]. right. left. reflexivity.
Qed.
Print Assumptions C104_cut_refuted.

(** The same for settings without a network, where a start takes over the network known by the SDK and writes it: the login is
    demanded all the same, if no power failure cuts such a write. *)
Theorem C104_any_settings : forall fuel bd flash es1 d cl os1 es2 m os2, (256 <= fuel)%nat -> build_ok bd -> flash_ok flash ->
  Forall ordinary_life (es1 ++ es2) -> lrun fuel bd es1 (Off flash) = Done (On d cl, os1) ->
  let s := view (cfg_of d) in (forall chip, settings_at_start chip (flash_of (On d cl)) s) -> s_username s <> [] ->
  Forall (nobody_changes (s_username s) (s_password s)) es2 -> Forall start_uncut es2 -> lrun fuel bd es2 (On d cl) = Done (m, os2) ->
  (forall line, In (Command line) (concat os2) -> ~ writer (bd_parse bd line)) ->
  demands fuel bd (s_username s) (s_password s) m.
Proof. exact c104_any. Qed.
Print Assumptions C104_any_settings.
Example C104_ex_any : exists d cl os1 d' cl' os2,
  lrun 256 talkative n_story (Off ConfigSamples.blank) = Done (On d cl, os1) /\ Forall ordinary_life (n_story ++ [PowerOn (start_lan Stored)]) /\
  let s := view (cfg_of d) in (forall chip, settings_at_start chip (flash_of (On d cl)) s) /\ s_username s = str "me" /\ s_ssid s = [] /\
  Forall (nobody_changes (s_username s) (s_password s)) [PowerOn (start_lan Stored)] /\ Forall start_uncut [PowerOn (start_lan Stored)] /\
  lrun 256 talkative [PowerOn (start_lan Stored)] (On d cl) = Done (On d' cl', os2) /\ (forall line, ~ In (Command line) (concat os2)) /\
  text Ssid (cfg_of d') = str "lan".
Proof.
  destruct n_done as (d & cl & os & E & M & S & V1 & V2 & V3). assert (U : s_username (view (cfg_of d)) <> []) by (rewrite V2; discriminate).
  destruct (takes_lan d cl M S V1 U Stored) as (d' & o & E2 & C & _ & T). exists d, cl, os, d', cli_init, [o].
  split; [exact E|]. split; [apply Forall_app; split; [exact n_ordinary|constructor; [exact (start_lan_ok Stored)|constructor]]|]. cbv zeta.
  split; [exact S|]. split; [exact V2|]. split; [exact V1|]. split; [constructor; [exact I|constructor]|].
  split; [constructor; [intros n; discriminate|constructor]|]. split; [exact (one_step _ _ _ _ _ _ E2)|]. split; [|exact T].
  intros line. cbn [concat]. rewrite app_nil_r. apply C.
Qed.
(** A login saved without a network is demanded at once, and ever after under the same conditions. *)
Theorem C104_saved_any : forall fuel bd flash es1 d cl os1 a q raw es2 m o os2 u p, (256 <= fuel)%nat -> build_ok bd -> flash_ok flash ->
  Forall ordinary_life (es1 ++ Event (DHttp a q) raw :: es2) -> lrun fuel bd es1 (Off flash) = Done (On d cl, os1) ->
  q_uri q = str "/config_form.json" -> fully_allowed q d -> ticked (q_args q) "save" = true -> a_flash a = Stored ->
  ConfigSpec.posted (q_args q) "username" = u -> ConfigSpec.posted (q_args q) "password" = p -> u <> [] ->
  Forall (fun c => c <> 0) (u ++ p) -> (length u <= 31)%nat -> (length p <= 31)%nat ->
  lrun fuel bd (Event (DHttp a q) raw :: es2) (On d cl) = Done (m, o :: os2) ->
  Forall (nobody_changes u p) es2 -> Forall start_uncut es2 -> (forall line, In (Command line) (concat os2) -> ~ writer (bd_parse bd line)) ->
  o = [Did (Reply 200 Text (str "OK"))] /\ demands fuel bd u p m.
Proof. exact c104_saved_any. Qed.
Print Assumptions C104_saved_any.
Example C104_ex_saved_any : exists d cl o d' os2, lrun 256 talkative [PowerOn start0] (Off ConfigSamples.blank) = Done (On dev0 cli_init, [map Radio acts0]) /\
  Forall ordinary_life ([PowerOn start0] ++ Event (DHttp around0 post_n) raw0 :: [PowerOn (start_lan Stored)]) /\ fully_allowed post_n dev0 /\
  ConfigSpec.posted (q_args post_n) "username" = str "me" /\ ConfigSpec.posted (q_args post_n) "password" = str "pw" /\
  ConfigSpec.posted (q_args post_n) "ssid" = [] /\
  lstep 256 talkative (Event (DHttp around0 post_n) raw0) (On dev0 cli_init) = Done (On d cl, o) /\
  lrun 256 talkative (Event (DHttp around0 post_n) raw0 :: [PowerOn (start_lan Stored)]) (On dev0 cli_init) = Done (On d' cli_init, o :: os2) /\
  Forall (nobody_changes (str "me") (str "pw")) [PowerOn (start_lan Stored)] /\ Forall start_uncut [PowerOn (start_lan Stored)] /\
  (forall line, ~ In (Command line) (concat os2)).
Proof.
  assert (T : unterminated (text HUrl (cfg_of dev0)) = false).
  { assert (D := dev0_cs). unfold cfg_of. rewrite D. apply fresh_texts. }
  destruct (protects dev0 cli_init dev0_ok (Forall_nil _) dev0_login T) as (d & cl & o & E & M & S & V1 & V2 & V3).
  assert (U : s_username (view (cfg_of d)) <> []) by (rewrite V2; discriminate).
  destruct (takes_lan d cl M S V1 U Stored) as (d' & o2 & E2 & C & _). exists d, cl, o, d', [o2].
  split; [exact (one_step _ _ _ _ _ _ (first_start _ _))|].
  split; [apply Forall_app; split; [constructor; [exact start0_ok|constructor]|constructor; [exact post_n_ordinary|constructor; [exact (start_lan_ok Stored)|constructor]]]|].
  split; [left; exact dev0_login|]. split; [reflexivity|]. split; [reflexivity|]. split; [reflexivity|]. split; [exact E|].
  split; [exact (two_events _ _ _ _ _ _ _ _ _ E E2)|]. split; [constructor; [exact I|constructor]|].
  split; [constructor; [intros n; discriminate|constructor]|]. intros line. cbn [concat]. rewrite app_nil_r. apply C.
Qed.
(** Nobody does anything: the module just starts, takes over the network of the SDK, and the power fails while it writes it.
    After the next start it has no login any more, and a stranger can restart it. *)
Theorem C104_start_refuted : exists bd flash es d cl os b1 b2 d' cl' os' a stranger raw o, build_ok bd /\ flash_ok flash /\
  Forall ordinary_life (es ++ [PowerOn b1; PowerOn b2]) /\ lrun 256 bd es (Off flash) = Done (On d cl, os) /\
  (forall chip, settings_at_start chip (flash_of (On d cl)) (view (cfg_of d))) /\ refused stranger d /\ q_uri stranger = str "/reset" /\
  lrun 256 bd [PowerOn b1; PowerOn b2] (On d cl) = Done (On d' cl', os') /\
  lstep 256 bd (Event (DHttp a stranger) raw) (On d' cl') = Done (Off (flash_of (On d' cl')), o) /\ In (Did RestartNow) o.
Proof.
  destruct n_done as (d & cl & os & E & M & S & V1 & V2 & V3). assert (U : s_username (view (cfg_of d)) <> []) by (rewrite V2; discriminate).
  destruct (start_cut_opens d cl M S V1 U) as (os' & C).
  exists talkative, ConfigSamples.blank, n_story, d, cl, os, (start_lan (Torn 0)), start0, dev0, cli_init, os', failing, (ask "/reset"), raw0, [Did (Reply 200 Text (str "Restart")); Did RestartNow].
  split; [exact talkative_ok|]. split; [exact ConfigSamples.blank_ok|].
  split; [apply Forall_app; split; [exact n_ordinary|constructor; [exact (start_lan_ok (Torn 0))|constructor; [exact start0_ok|constructor]]]|]. split; [exact E|].
  split; [exact S|]. split; [split; [exact U|reflexivity]|]. split; [reflexivity|]. split; [exact C|]. split; [exact open_restart|]. right. left. reflexivity.
Qed.
Print Assumptions C104_start_refuted.
