(** Proofs about the Wi-Fi start-up. *)
From Coq Require Import ZArith List Bool Lia.
From Verif Require Import Base BaseFacts Config ConfigSpec ConfigProofs ConfigMain ConfigHist Wifi WifiSpec DeviceMain.
Import ListNotations.
Open Scope Z_scope.

Lemma wait_spec : forall st t k, exists n (b : bool),
  wait_loop t st k = (st (k + n)%nat, S (k + n), repeat Wait200 n) /\ (n <= t)%nat /\
  (forall j, (j < n)%nat -> st (k + j)%nat <> 3) /\ (if b then st (k + n)%nat = 3 else n = t /\ st (k + t)%nat <> 3).
Proof.
  intros st. induction t; intros k; cbn [wait_loop]; unfold WL_CONNECTED; destruct (st k =? 3) eqn:E.
  - exists 0%nat, true. rewrite Nat.add_0_r. repeat split; auto; lia.
  - exists 0%nat, false. rewrite Nat.add_0_r. repeat split; auto; lia.
  - exists 0%nat, true. rewrite Nat.add_0_r. repeat split; auto; lia.
  - destruct (IHt (S k)) as (n & b & W & L & N & B). exists (S n), b. rewrite W.
    replace (S k + n)%nat with (k + S n)%nat in * by lia. split; [reflexivity|]. split; [lia|]. split.
    + intros [|j] J; [rewrite Nat.add_0_r; lia|]. replace (k + S j)%nat with (S k + j)%nat by lia. apply N. lia.
    + destruct b; [exact B|]. destruct B as [-> B]. split; [reflexivity|]. now replace (k + S t)%nat with (S k + t)%nat by lia.
Qed.

Lemma adopt_spec : forall o ssid psk s, Inv s -> bytes ssid -> bytes psk -> text Ssid (c_cfg s) = [] -> cstr ssid <> [] ->
  exists s', adopt_sdk o ssid psk s = Some s' /\ Inv s' /\ adopted ssid psk (c_cfg s) (c_cfg s') /\
    (o = Stored -> crc_of (e_flash (c_ee s')) = 0 /\ secured (of_image (e_flash (c_ee s'))) = c_cfg s').
Proof.
  intros o ssid psk s (Hw & Ht & He) B1 B2 T N. unfold adopt_sdk. rewrite T. destruct (cstr ssid) eqn:C; [congruence|]. rewrite <- C in *. clear N.
  destruct (is_strncpy (c_cfg s) _ Ssid ssid 32 (is_refl (c_cfg s) Hw) eq_refl B1) as (c1 & -> & I1). assert (W1 := proj1 I1).
  assert (exists c2 v, (match cstr psk with [] => zero_at Psk 0 c1 | _ => strncpy_s Psk psk 32 c1 end) = Some c2 /\ In 0 v /\ cstr v = cut 32 psk /\
    Is c2 (over Psk v (over Ssid (strncpy_bytes ssid 32 ++ [0]) (fun f => get f (c_cfg s))))) as (c2 & v & -> & V0 & V & I2).
  { destruct (cstr psk) as [|y u] eqn:P.
    - unfold zero_at. rewrite upd_lt by (rewrite get_len by auto; cbn; lia). cbn iota beta.
      exists (set Psk (firstn 0 (get Psk c1) ++ 0 :: skipn 1 (get Psk c1)) c1), (firstn 0 (get Psk c1) ++ 0 :: skipn 1 (get Psk c1)). split; [reflexivity|].
      split; [apply in_or_app; right; left; reflexivity|]. split; [unfold cut; rewrite P; reflexivity|].
      apply is_set; auto.
      + rewrite app_length, firstn_length. cbn [length]. rewrite skipn_length, get_len by auto. cbn [fsize]. lia.
      + apply Forall_app. split; [apply firstn_bytes, get_bytes; auto|].
        constructor; [unfold is_byte; lia|apply skipn_bytes, get_bytes; auto].
    - unfold strncpy_s. rewrite app_length, strncpy_length, get_len by auto.
      cbn [length fsize Nat.leb Nat.add].
      exists (set Psk ((strncpy_bytes psk 32 ++ [0]) ++ skipn 33 (get Psk c1)) c1), ((strncpy_bytes psk 32 ++ [0]) ++ skipn 33 (get Psk c1)). split; [reflexivity|]. split; [apply in_or_app; left; apply strncpy_term|].
      split; [|apply is_set; auto].
      + rewrite <- app_assoc. change ([0] ++ ?x) with (0 :: x). rewrite cstr_app_nul, <- cstr_strncpy, cstr_app_nul. reflexivity.
      + rewrite !app_length, strncpy_length, skipn_length, get_len by auto. reflexivity.
      + apply Forall_app. split; [apply strncpy_bytes_ok; auto|]. apply skipn_bytes, get_bytes; auto. }
  assert (W2 := proj1 I2). assert (T2 : terminated c2).
  { intros f F. destruct I2 as [_ G]. rewrite G. unfold over. destruct (feq_dec Psk f) as [|D]; [exact V0|].
    destruct (feq_dec Ssid f) as [|D']; [apply strncpy_term|apply Ht; exact F]. }
  destruct (config_save_spec o (mk_cs c2 (c_ee s)) W2 He) as (s' & -> & Ec & Hee & _ & _ & Hst & _). cbn [c_cfg] in *.
  exists s'. split; [reflexivity|]. split.
  { unfold Inv. rewrite Ec. split; [apply secured_wf, sealed_wf; auto|]. split; [apply secured_terminated|auto]. }
  assert (X : forall f, is_text f = true -> text f (c_cfg s') = cstr (over Psk v (over Ssid (strncpy_bytes ssid 32 ++ [0]) (fun f => get f (c_cfg s))) f)).
  { intros f F. rewrite Ec, text_secured_terminated by (try apply sealed_wf; try apply terminated_set_crc; auto).
    unfold text, sealed. rewrite get_set_other by (intros <-; discriminate F). rewrite (proj2 I2). reflexivity. }
  split; [split; [|split; [|split]]|].
  - rewrite X by reflexivity. exact (cstr_strncpy ssid 32).
  - rewrite X by reflexivity. exact V.
  - intros f F F1 F2. rewrite X by auto. unfold over. destruct (feq_dec Psk f); [congruence|]. destruct (feq_dec Ssid f); [congruence|]. reflexivity.
  - intros f F F1. rewrite Ec, get_secured, F. unfold sealed. rewrite get_set_other by congruence. rewrite (proj2 I2). unfold over.
    destruct (feq_dec Psk f) as [<-|]; [discriminate F|]. destruct (feq_dec Ssid f) as [<-|]; [discriminate F|]. reflexivity.
  - intros Ho. rewrite (Hst Ho), Ec. split; [apply crc_sealed; auto|]. rewrite of_image_image by (apply sealed_wf; auto). auto.
Qed.

Lemma c48 : forall o st ssid psk s, reachable s -> bytes ssid -> bytes psk ->
  exists s' acts r, sys_wifi_connect o st ssid psk s = Some (s', acts, r) /\
  (if match text Ssid (c_cfg s), cstr ssid with [], _ :: _ => true | _, _ => false end
   then adopted ssid psk (c_cfg s) (c_cfg s') /\
        (o = Stored -> crc_of (e_flash (c_ee s')) = 0 /\ secured (of_image (e_flash (c_ee s'))) = c_cfg s')
   else s' = s) /\
  exists waits connected, acts = radio_plan (c_cfg s') waits connected /\
    (if match text Ssid (c_cfg s') with [] => true | _ => false end
     then connected = (st 0%nat =? 3) else waited st waits connected).
Proof.
  intros o st ssid psk s R B1 B2. assert (I := reachable_inv _ R).
  assert (A : exists s', adopt_sdk o ssid psk s = Some s' /\
    if match text Ssid (c_cfg s), cstr ssid with [], _ :: _ => true | _, _ => false end
    then adopted ssid psk (c_cfg s) (c_cfg s') /\
         (o = Stored -> crc_of (e_flash (c_ee s')) = 0 /\ secured (of_image (e_flash (c_ee s'))) = c_cfg s')
    else s' = s).
  { destruct (text Ssid (c_cfg s)) eqn:T.
    - destruct (cstr ssid) eqn:C.
      + exists s. split; [|reflexivity]. unfold adopt_sdk. rewrite T, C. reflexivity.
      + destruct (adopt_spec o ssid psk s I B1 B2 T) as (s' & E & _ & D); [rewrite C; discriminate|]. exists s'. auto.
    - exists s. split; [|reflexivity]. unfold adopt_sdk. rewrite T. reflexivity. }
  destruct A as (s' & E & D). unfold sys_wifi_connect. rewrite E. cbv zeta. unfold radio_plan.
  destruct (text Ssid (c_cfg s')) as [|z t] eqn:T.
  - do 3 eexists. split; [reflexivity|]. split; [exact D|]. exists 0%nat, (st 0%nat =? 3). rewrite T. split; [|reflexivity].
    unfold WL_CONNECTED. destruct (st 0%nat =? 3); reflexivity.
  - destruct (wait_spec st 50 1) as (n & b & W & L & N & X). rewrite W. do 3 eexists. split; [reflexivity|]. split; [exact D|].
    exists n, b. rewrite T. split.
    + unfold WL_CONNECTED. destruct b.
      * rewrite X. reflexivity.
      * destruct X as [-> X]. apply Z.eqb_neq in X. rewrite X. reflexivity.
    + split; [exact L|]. split; [exact N|]. destruct b; [exact X|]. exact X.
Qed.
