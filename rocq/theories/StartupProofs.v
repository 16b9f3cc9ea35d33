(** Proofs about the start. *)
From Coq Require Import ZArith List Bool Lia.
From Verif Require Import Base BaseFacts Config ConfigSpec ConfigProofs ConfigMain Tic Web WebSpec Device DeviceMain Wifi WifiSpec WifiProofs Startup StartupSpec.
Import ListNotations.
Open Scope Z_scope.

Lemma seen_app : forall a b x, seen x (a ++ b) = (fst (seen x a) ++ fst (seen (snd (seen x a)) b), snd (seen (snd (seen x a)) b)).
Proof.
  induction a as [|m a IH]; intros b x; cbn [app seen].
  - cbn [fst snd app]. destruct (seen x b); reflexivity.
  - destruct m as [on|ms|r|]; try apply IH. specialize (IH b x). rewrite IH. destruct (seen x a) as [s e]. reflexivity.
Qed.
Lemma spent_app : forall a b, spent (a ++ b) = spent a + spent b.
Proof. induction a as [|m a IH]; intros b; [reflexivity|]. unfold spent in *. cbn [app fold_right]. rewrite IH. destruct m; lia. Qed.
Lemma orders_app : forall a b, orders (a ++ b) = orders a ++ orders b.
Proof. intros a b. unfold orders. apply flat_map_app. Qed.
Lemma services_app : forall a b, services (a ++ b) = (services a + services b)%nat.
Proof. intros a b. unfold services. rewrite filter_app, app_length. reflexivity. Qed.

(** The waits, then the turns of OTA *)
Lemma waits_facts : forall w x, let l := flat_map moments (repeat Wait200 w) in
  seen x l = (flashes w 50 150, match w with O => x | _ => false end) /\ spent l = 200 * Z.of_nat w /\ orders l = [] /\ services l = 0%nat.
Proof.
  induction w as [|w IH]; intros x; [repeat split|]. cbv zeta. cbn [repeat flat_map]. destruct (IH false) as (A & B & C & D). cbv zeta in *.
  split; [|split; [|split]].
  - rewrite seen_app. cbn [moments seen fst snd app]. rewrite A. cbn [fst snd app flashes]. destruct w; reflexivity.
  - rewrite spent_app, B. cbn [moments spent fold_right]. lia.
  - rewrite orders_app, C. reflexivity.
  - rewrite services_app, D. reflexivity.
Qed.
Lemma turns_facts : forall n x, let l := ota_turns n in
  seen x l = (flashes n 100 200, match n with O => x | _ => false end) /\ spent l = 300 * Z.of_nat n /\ orders l = [] /\ services l = n.
Proof.
  induction n as [|n IH]; intros x; [repeat split|]. cbv zeta. cbn [ota_turns]. destruct (IH false) as (A & B & C & D). cbv zeta in *.
  split; [|split; [|split]].
  - cbn [seen]. rewrite A. cbn [flashes]. destruct n; reflexivity.
  - unfold spent in *. cbn [fold_right]. rewrite B. lia.
  - unfold orders in *. cbn [flat_map app]. exact C.
  - unfold services in *. cbn [filter length]. rewrite D. reflexivity.
Qed.
Lemma plain_facts : forall l x, Forall (fun a => a <> Wait200) l ->
  seen x (flat_map moments l) = ([], x) /\ spent (flat_map moments l) = 0 /\ orders (flat_map moments l) = l /\ services (flat_map moments l) = 0%nat.
Proof.
  intros l x F. induction F as [|a l A F (B & C & D & E)]; [repeat split|]. cbn [flat_map].
  assert (M : moments a = [Radio a]) by (destruct a; try reflexivity; congruence). rewrite M. cbn [app seen].
  split; [exact B|]. split; [exact C|]. split; [unfold orders in *; cbn [flat_map app]; rewrite D; reflexivity|exact E].
Qed.

Lemma setup_boot : forall ota b d acts, boot b = Some (d, acts) ->
  setup ota b = Some (d, Lamp true :: Delay 100 :: flat_map moments acts ++ (if ota then ota_turns 11 else []) ++ [Lamp false]).
Proof. intros ota b d acts H. unfold setup. rewrite H. reflexivity. Qed.
Lemma boot_plan : forall b, start_ok b -> exists d acts w connected, boot b = Some (d, acts) /\ acts = radio_plan (cfg_of d) w connected /\
  (if match text Ssid (cfg_of d) with [] => true | _ => false end then w = 0%nat /\ connected = (b_status b 0%nat =? 3) else waited (b_status b) w connected).
Proof.
  intros b O. pose proof O as (A & B & C & D & E & _). unfold boot.
  destruct (setup_inv (b_chip b) (b_o1 b) (b_o2 b) (b_mem b) (b_flash b) C) as (s & S & I). rewrite S.
  assert (R : reachable s) by (exists (b_chip b), (b_o1 b), (b_o2 b), (b_mem b), (b_flash b), s, []; repeat split; auto; try apply A; try apply B; try apply C; constructor).
  destruct (c48 (b_o3 b) (b_status b) (b_ssid b) (b_psk b) s R D E) as (s1 & acts1 & ret & W & _ & waits & connected & P & Q). rewrite W.
  cbv beta iota. do 2 eexists.
  remember (text Ssid (c_cfg s1)) as t eqn:T. destruct t as [|x t].
  - exists 0%nat, connected. split; [reflexivity|]. unfold cfg_of. cbn [d_cs]. rewrite <- T. split; [|split; [reflexivity|exact Q]].
    rewrite P. unfold radio_plan. rewrite <- T. reflexivity.
  - exists waits, connected. split; [reflexivity|]. unfold cfg_of. cbn [d_cs]. rewrite <- T. split; [exact P|exact Q].
Qed.
Lemma plan_split : forall c w k, radio_plan c w k =
  match text Ssid c with [] => [] | _ => [Join (text Ssid c) (match text Psk c with [] => None | x => Some x end)] end ++
  match text Ssid c with [] => [] | _ => repeat Wait200 w end ++
  (if k then [StationMode] else [Leave; OpenAp (firstn 31 (text Host c)) (match text ApPsk c with [] => None | x => Some x end); ApStationMode]) ++ [AutoReconnect].
Proof. intros c w k. unfold radio_plan. destruct (text Ssid c), (text Psk c), (text ApPsk c); reflexivity. Qed.

Lemma c114_start : forall ota b, start_ok b -> exists d ms w connected, setup ota b = Some (d, ms) /\ (w <= 50)%nat /\
  (if match text Ssid (cfg_of d) with [] => true | _ => false end then w = 0%nat /\ connected = (b_status b 0%nat =? 3) else waited (b_status b) w connected) /\
  (forall x, seen x ms = ((true, 100) :: flashes w 50 150 ++ (if ota then flashes 11 100 200 else []), false)) /\
  spent ms = 100 + 200 * Z.of_nat w + (if ota then 3300 else 0) /\ orders ms = radio_plan (cfg_of d) 0 connected /\
  services ms = if ota then 11%nat else 0%nat.
Proof.
  intros ota b O. destruct (boot_plan b O) as (d & acts & w & k & B & P & Q). exists d. eexists. exists w, k. split; [apply setup_boot; exact B|].
  split. { destruct (text Ssid (cfg_of d)); [destruct Q; lia|]. destruct Q as (Q & _). exact Q. }
  split; [exact Q|]. clear B.
  set (last := (if k then [StationMode] else [Leave; OpenAp (firstn 31 (text Host (cfg_of d))) (match text ApPsk (cfg_of d) with [] => None | x => Some x end); ApStationMode]) ++ [AutoReconnect]).
  set (joins := match text Ssid (cfg_of d) with [] => [] | _ => [Join (text Ssid (cfg_of d)) (match text Psk (cfg_of d) with [] => None | x => Some x end)] end).
  assert (E : acts = joins ++ repeat Wait200 w ++ last).
  { rewrite P, plan_split. unfold joins, last. destruct (text Ssid (cfg_of d)); [destruct Q as [-> _]; reflexivity|reflexivity]. }
  assert (F1 : Forall (fun a => a <> Wait200) joins) by (unfold joins; destruct (text Ssid (cfg_of d)); repeat constructor; discriminate).
  assert (F2 : Forall (fun a => a <> Wait200) last) by (unfold last; destruct k; repeat constructor; discriminate).
  assert (RP : radio_plan (cfg_of d) 0 k = joins ++ last) by (rewrite plan_split; unfold joins, last; destruct (text Ssid (cfg_of d)); reflexivity).
  clearbody joins last. rewrite E, RP. clear P E RP Q. rewrite !flat_map_app.
  set (tail := if ota then ota_turns 11 else []).
  assert (T : forall x, fst (seen x tail) = (if ota then flashes 11 100 200 else [])) by (intros x; unfold tail; destruct ota; [rewrite (proj1 (turns_facts 11 x))|]; reflexivity).
  assert (T2 : spent tail = (if ota then 3300 else 0) /\ orders tail = [] /\ services tail = (if ota then 11%nat else 0%nat)) by (unfold tail; destruct ota; repeat split).
  clearbody tail. destruct T2 as (T2 & T3 & T4).
  destruct (waits_facts w true) as (W1 & W2 & W3 & W4). cbv zeta in *.
  destruct (plain_facts joins true F1) as (J1 & J2 & J3 & J4).
  split; [|split; [|split]].
  - intros x. change (Lamp true :: Delay 100 :: ?r) with ([Lamp true; Delay 100] ++ r). rewrite !seen_app. cbn [seen fst snd app]. rewrite J1. cbn [fst snd]. rewrite W1. cbn [fst snd].
    set (y := match w with O => true | _ => false end). destruct (plain_facts last y F2) as (L1 & _). rewrite L1. cbn [fst snd]. rewrite T. cbn [seen fst snd app]. rewrite !app_nil_r. reflexivity.
  - destruct (plain_facts last true F2) as (_ & L2 & _). change (Lamp true :: Delay 100 :: ?r) with ([Lamp true; Delay 100] ++ r). rewrite !spent_app, J2, W2, L2, T2. unfold spent. cbn [fold_right]. lia.
  - destruct (plain_facts last true F2) as (_ & _ & L3 & _). change (Lamp true :: Delay 100 :: ?r) with ([Lamp true; Delay 100] ++ r). rewrite !orders_app, J3, W3, L3, T3. cbn [orders flat_map app]. rewrite !app_nil_r. reflexivity.
  - destruct (plain_facts last true F2) as (_ & _ & _ & L4). change (Lamp true :: Delay 100 :: ?r) with ([Lamp true; Delay 100] ++ r). rewrite !services_app, J4, W4, L4, T4. cbn. lia.
Qed.
Lemma c114_alone : forall ota b d ms, start_ok b -> setup ota b = Some (d, ms) -> text Ssid (cfg_of d) <> [] -> (forall k, b_status b k <> 3) ->
  spent ms = 10100 + (if ota then 3300 else 0) /\
  exists key, orders ms = [Join (text Ssid (cfg_of d)) (match text Psk (cfg_of d) with [] => None | x => Some x end); Leave; OpenAp (firstn 31 (text Host (cfg_of d))) key; ApStationMode; AutoReconnect].
Proof.
  intros ota b d ms O S T N. destruct (c114_start ota b O) as (d' & ms' & w & k & S' & _ & Q & _ & B & C & _). rewrite S in S'. injection S' as <- <-.
  destruct (text Ssid (cfg_of d)) as [|x t] eqn:E; [congruence|]. destruct Q as (_ & _ & Q). destruct k; [destruct (N _ Q)|]. destruct Q as [-> _].
  split; [rewrite B; reflexivity|]. rewrite C. unfold radio_plan. rewrite E. cbn [repeat app]. destruct (text Psk (cfg_of d)); eexists; reflexivity.
Qed.
