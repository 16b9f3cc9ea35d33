(** The periodic requests to each service, and what it holds after an outage. *)
From Coq Require Import String ZArith List Bool Lia Sorted.
From Verif Require Import Base BaseFacts Teleinfo TeleinfoSpec Publish HistorySpec Config ConfigSpec ConfigMain ConfigProofs
  Json Tic TicSpec NotifProofs NotifMain RequestProofs
  Web Wifi Device WebSpec DeviceProofs SlotSpec ChainSpec ChainProofs ChainMain FollowSpec FollowUpdate.
Import ListNotations.
Open Scope list_scope.
Open Scope Z_scope.

Lemma reason_same : forall w v, reason_eqb w v = true -> w = v.
Proof. intros [] []; cbn; congruence. Qed.

Section History.
Variables (fuel : nat) (sgn : bool) (b : start) (d0 : device) (acts : list wifi_act) (en : env) (past es : list devent) (dp : device) (osp : list (list out)) (d : device) (os : list (list out)).
Variables (zs : list (trial * Z)) (a : Z).
Hypothesis St : start_ok b.
Hypothesis Bo : boot b = Some (d0, acts).
Hypothesis By : Forall is_byte (map snd (heard false (past ++ es))).
Hypothesis En : Forall (same_env en) (past ++ es).
Hypothesis Rp : drun fuel sgn past d0 = Done (dp, osp).
Hypothesis Ru : drun fuel sgn (past ++ es) d0 = Done (d, os).
Hypothesis NR : ~ In RestartNow (concat os).
Hypothesis Fr : frames fuel sgn d0 past es (map fst (map fst zs)).
Hypothesis NF : Forall no_form es.
Hypothesis Cf : configured_at fuel sgn b d0 past (u32 a).
Hypothesis Ti : map m_now (map fst (map fst zs)) = map (fun x => u32 (a + x)) (map snd zs).

Lemma c110_service : forall w, periodic w = true -> let s := view (cfg_of dp) in let p := 1000 * freq_of s w in
  host_of s w <> [] -> port_of s w <> 0 -> 0 < freq_of s w -> p <= 4294967294 -> spaced p 0 (map snd zs) ->
  forall before after, zs = before ++ after -> Forall (fun z => reached (fst z)) after -> last (map snd before) 0 + p <= last (map snd zs) 0 ->
  exists z r, In z after /\ last (map snd zs) 0 - p < snd z /\ last_request w (map fst zs) = Some r /\
    let m := fst (fst z) in let s := m_set m in
    In (w, r) (requests (m_out m)) /\ r_host r = host_of s w /\ r_port r = port_of s w /\
    (w = JEEDOM -> r_data r = None /\
       r_url r = (if Nat.eqb (List.length (s_jdom_url s)) 0 then str "/" else s_jdom_url s) ++ str "?api=" ++ s_jdom_key s ++
                 concat (map (jeedom_text (s_jdom_adco s)) (m_groups m))) /\
    (w = EMONCMS -> r_data r = None /\
       r_url r = (if Nat.eqb (List.length (s_emon_url s)) 0 then str "/" else s_emon_url s) ++ str "?" ++
                 (if 0 <? s_emon_node s then str "node=" ++ dec (s_emon_node s) ++ str "&" else []) ++
                 str "apikey=" ++ s_emon_key s ++ str "&json=" ++ emon_payload (m_groups m)).
Proof.
  intros w Pw s p H1 H2 H3 H4 Sp before after E R L.
  assert (En' := proj2 (proj1 (Forall_app _ _ _) En)).
  destruct (c99_period fuel sgn b d0 acts en St Bo past es dp osp d os _ a w (map snd zs) By En' Cf Rp Ru NR Fr NF Pw Ti) as (_ & X).
  destruct (X H1 H2 H3 H4) as (_ & X2). specialize (X2 Sp). clear X. fold s p in X2.
  assert (Hp : 0 < p) by (subst p; lia). clearbody p. clear s H1 H2 H3.
  assert (L' : 0 / p < last (map snd zs) 0 / p).
  { rewrite Z.div_0_l by lia. assert (0 <= last (map snd before) 0).
    { rewrite E, map_app in Sp. clear -Sp. destruct (map snd before) as [|x l] eqn:Q using rev_ind; [cbn; lia|]. rewrite last_last. apply (spaced_tail p _ _ _ Sp).
      rewrite <- app_assoc. apply in_app_iff. right. left. reflexivity. }
    apply Z.lt_le_trans with 1; [lia|]. apply Z.div_le_lower_bound; lia. }
  destruct (last_firing p Hp _ 0 Sp L') as (d1 & x & d2 & D & F & Q).
  (* the frame of this poll *)
  assert (Z : exists z1 z z2, zs = z1 ++ z :: z2 /\ length z1 = length d1 /\ snd z = x).
  { clear -D. revert d1 D. induction zs as [|y l IH]; intros d1 D; [destruct d1; discriminate|]. destruct d1 as [|u d1]; cbn [map app] in D; injection D as D1 D2.
    - exists [], y, l. repeat split. exact D1.
    - destruct (IH d1 D2) as (z1 & z & z2 & -> & A & B). exists (y :: z1), z, z2. cbn [length]. rewrite A. repeat split. exact B. }
  destruct Z as (z1 & z & z2 & Ez & Lz & Sx).
  assert (M : sends w (fst (fst z)) = true).
  { rewrite <- X2 in F. rewrite <- Lz in F. rewrite Ez, !map_app, !map_map in F. rewrite app_nth2 in F by (rewrite map_length; lia). rewrite map_length, Nat.sub_diag in F. exact F. }
  (* it comes after the outage *)
  assert (A : exists u, z1 = before ++ u /\ after = u ++ z :: z2).
  { assert (Y : before ++ after = z1 ++ z :: z2) by congruence. apply app_eq_app in Y. destruct Y as (u & [(Y1 & Y2)|(Y1 & Y2)]).
    - destruct u as [|y u]; [exists []; rewrite app_nil_r in *; cbn [app] in Y2; subst; auto|]. exfalso. cbn [app] in Y2. injection Y2 as <- Y2.
      assert (G : snd z <= last (map snd before) 0).
      { apply (spaced_last p); [|subst before; rewrite map_app; apply in_app_iff; right; left; reflexivity]. rewrite E, map_app in Sp. clear -Sp.
        revert Sp. generalize 0. generalize (map snd before). induction l as [|v l IH]; intros c S; [exact Logic.I|]. cbn [app spaced] in *. destruct S as (S1 & S2 & S3). auto. }
      lia.
    - exists u. split; [exact Y1|exact Y2]. }
  destruct A as (u & Y1 & Y2).
  assert (Rz : snd (fst z) = true). { rewrite Y2 in R. apply Forall_app in R. destruct R as (_ & R). apply Forall_inv in R. exact R. }
  (* the last request is that one, or one of those after *)
  set (g := fun x : trial => if snd x then map snd (filter (fun q => reason_eqb w (fst q)) (requests (m_out (fst x)))) else []).
  assert (N : g (fst z) <> []).
  { unfold g. rewrite Rz. unfold sends in M. apply existsb_exists in M. destruct M as (q & M1 & M2). intros N. assert (J : In (snd q) (@nil request)); [|destruct J].
    rewrite <- N. apply in_map. apply filter_In. split; [exact M1|exact M2]. }
  assert (Lq : exists y r, In y (z :: z2) /\ In r (g (fst y)) /\ last_request w (map fst zs) = Some r).
  { change (last_request w (map fst zs)) with (hd_error (rev (flat_map g (map fst zs)))). rewrite Ez, map_app, flat_map_app. cbn [map].
    rewrite hd_rev_app by (cbn [flat_map]; destruct (g (fst z)); [congruence|discriminate]).
    destruct (rev (flat_map g (fst z :: map fst z2))) as [|r l] eqn:Er.
    - exfalso. apply (f_equal (@rev _)) in Er. rewrite rev_involutive in Er. cbn [flat_map] in Er. destruct (g (fst z)); [congruence|discriminate].
    - assert (I : In r (flat_map g (map fst (z :: z2)))) by (apply in_rev; cbn [map]; rewrite Er; left; reflexivity). apply in_flat_map in I. destruct I as (y & I1 & I2).
      apply in_map_iff in I1. destruct I1 as (z' & <- & I1). exists z', r. split; [exact I1|]. split; [exact I2|reflexivity]. }
  destruct Lq as (z' & r & I1 & I2 & I3). exists z', r. split; [rewrite Y2; apply in_app_iff; right; exact I1|]. split.
  - destruct I1 as [<-|I1]; [lia|]. assert (x <= snd z'); [|lia]. rewrite D in Sp. apply spaced_part in Sp. apply (spaced_tail p _ _ _ Sp).
    assert (E2 : map snd z2 = d2).
    { rewrite Ez, map_app in D. cbn [map] in D. apply same_front in D; [|rewrite map_length; exact Lz]. congruence. }
    rewrite <- E2. apply in_map. exact I1.
  - split; [exact I3|].
    assert (I : In (fst (fst z')) (map fst (map fst zs))) by (rewrite Ez; apply in_map, in_map, in_app_iff; right; exact I1).
    unfold g in I2. destruct (snd (fst z')); [|destruct I2]. apply in_map_iff in I2. destruct I2 as ((v & r') & <- & I2). apply filter_In in I2. destruct I2 as (I2 & I4).
    cbn [fst snd] in *. apply reason_same in I4. subst v. cbv zeta. split; [exact I2|].
    destruct (all_frames _ _ _ _ _ _ _ _ _ _ St Bo By Ru Fr) as (ms0 & Fa). apply (fun I => in_or_app ms0 _ _ (or_intror I)) in I.
    destruct (c99_requests fuel sgn b d0 acts en (past ++ es) d os _ St Bo By En Ru NR Fa _ I) as (_ & C). destruct (C w r' I2) as (_ & C1 & C2 & _).
    split; [exact C1|]. split; [exact C2|]. split; intros ->.
    + exact (c99_jeedom fuel sgn b d0 acts en (past ++ es) d os _ St Bo By En Ru NR Fa _ r' I I2).
    + exact (c99_emoncms fuel sgn b d0 acts en (past ++ es) d os _ St Bo By En Ru NR Fa _ r' I I2).
Qed.
End History.
