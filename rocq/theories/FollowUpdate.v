(** The regular updates, and what the server knows after an outage. *)
From Coq Require Import String ZArith List Bool Lia Sorted.
From Verif Require Import Base BaseFacts Teleinfo TeleinfoSpec Publish HistorySpec Config ConfigSpec ConfigMain ConfigProofs ToolSpec ToolProofs ToolMain PageProofs TemplateProofs
  Json JsonFacts JsonBuildFacts Tic TicSpec NotifProofs NotifMain RequestProofs
  PublishProofs Web Wifi Device WebSpec DeviceProofs DeviceMain DeviceFinal SlotSpec ChainSpec ChainProofs ChainMain FollowSpec.
Import ListNotations.
Open Scope list_scope.
Open Scope Z_scope.

(** What a notification posts, whatever the template of its address. *)
Lemma posted_frame : forall e now0 c evs past st now k t gs o st' w r, frames_published evs -> published_ti t ->
  tic_run e evs (tic_start now0 c) = Some (past, st) -> tic_step e (Frame now k t) st = Some (o, st') -> carries t gs ->
  s_use_post (settings_after (view c) evs) = true -> In (Request w r) o -> w <> JEEDOM -> w <> EMONCMS ->
  exists body, r_data r = Some body /\
    (t_size t <> 0%nat -> quotable (iso e (tv_sec (t_ts t))) = true -> Forall json_ready gs ->
     json_of body = Some (JObj (
       (str "timestamp", JStr (iso e (tv_sec (t_ts t)))) :: (str "seconds", JStr (seconds_text (t_ts t))) ::
       (str "notif", JStr (reason_text w)) :: map (fun g => (fst g, json_value (snd g))) gs))).
Proof.
  intros e now0 c evs past st now k t gs o st' w r P Pt R S C U I N1 N2.
  destruct (frame_at _ _ _ _ _ _ _ _ _ _ _ P Pt R S) as [V G].
  rewrite <- V in U. rewrite Forall_forall in G. specialize (G _ I).
  assert (G' : http_notif e (ts_cfg st) t w = Some r) by (destruct w; cbn [genuine] in G; congruence).
  unfold http_notif in G'. destruct (expand_url _ _ _ _) as [u|]; [|discriminate G'].
  change (s_use_post (view (ts_cfg st))) with (bit 7 HFlags (ts_cfg st)) in U. rewrite U in G'.
  destruct (c11 e t (Some (reason_text w)) Pt) as (gs' & body & C' & B & _ & J).
  rewrite (carries_unique _ _ _ C C') in *. rewrite B in G'. injection G' as <-. cbn [r_data]. exists body. split; [reflexivity|].
  intros X Y Z. apply J; auto. destruct w; reflexivity.
Qed.

(** Polls: the last multiple of the period that was passed. *)
Lemma last_firing : forall p, 0 < p -> forall ds b, spaced p b ds -> b / p < last ds b / p ->
  exists d1 x d2, ds = d1 ++ x :: d2 /\ nth (length d1) (firings p b ds) false = true /\ last ds b - p < x.
Proof.
  intros p Hp. induction ds as [|x ds IH]; intros b S L; [cbn [last] in L; lia|]. cbn [spaced] in S. destruct S as (S1 & S2 & S3).
  assert (M : last (x :: ds) b = last ds x). { clear. destruct ds as [|y ds]; [reflexivity|]. revert y. induction ds as [|z ds IH]; intros y; [reflexivity|]. exact (IH z). }
  rewrite M in *. destruct (Z.ltb_spec (x / p) (last ds x / p)) as [Y|Y].
  - destruct (IH x S3 Y) as (d1 & y & d2 & -> & F & Q). exists (x :: d1), y, d2. split; [reflexivity|]. split; [exact F|exact Q].
  - exists [], x, ds. split; [reflexivity|]. split; [cbn [length nth firings]; unfold slot_passed; apply Z.ltb_lt; lia|].
    assert (A := Z.div_mod (last ds x) p ltac:(lia)). assert (B := Z.mod_pos_bound (last ds x) p Hp).
    assert (C := Z.div_mod x p ltac:(lia)). assert (D := Z.mod_pos_bound x p Hp). nia.
Qed.
Lemma spaced_tail : forall p ds b d, spaced p b ds -> In d ds -> b <= d.
Proof.
  intros p. induction ds as [|x ds IH]; intros b d S I; [destruct I|]. cbn [spaced] in S. destruct S as (S1 & _ & S3). destruct I as [->|I]; [exact S1|].
  specialize (IH x d S3 I). lia.
Qed.
Lemma spaced_part : forall p d1 b x d2, spaced p b (d1 ++ x :: d2) -> spaced p x d2.
Proof.
  intros p. induction d1 as [|y d1 IH]; intros b x d2 S; cbn [app spaced] in S; destruct S as (_ & _ & S); [exact S|]. exact (IH y x d2 S).
Qed.
Lemma spaced_last : forall p ds b d, spaced p b ds -> In d ds -> d <= last ds b.
Proof.
  intros p ds. induction ds as [|x ds IH] using rev_ind; intros b d S I; [destruct I|]. rewrite last_last. apply in_app_iff in I. destruct I as [I|[->|[]]]; [|lia].
  apply in_split in I. destruct I as (u & v & ->). rewrite <- app_assoc in S. cbn [app] in S. apply spaced_part in S. apply (spaced_tail _ _ _ x) in S; [exact S|].
  apply in_app_iff. right. left. reflexivity.
Qed.

Lemma same_front : forall A (u v s t : list A), List.length u = List.length v -> u ++ s = v ++ t -> s = t.
Proof. induction u as [|x u IH]; intros [|y v] s t L E; try discriminate L; [exact E|]. cbn [app] in E. injection E as _ E. injection L as L. exact (IH v s t L E). Qed.

(** The last text posted is that of one of the last frames. *)
Lemma hd_rev_app : forall A (l m : list A), m <> [] -> hd_error (rev (l ++ m)) = hd_error (rev m).
Proof. intros A l m N. rewrite rev_app_distr. destruct (rev m) eqn:E; [|reflexivity]. apply (f_equal (@rev A)) in E. rewrite rev_involutive in E. cbn in E. congruence. Qed.
Lemma last_post_of : forall xs before x after, xs = before ++ x :: after -> posts x <> [] ->
  exists y body, In y (x :: after) /\ In body (posts y) /\ last_post xs = Some body.
Proof.
  intros xs before x after -> N. unfold last_post. rewrite flat_map_app. rewrite hd_rev_app by (cbn [flat_map]; destruct (posts x); [congruence|discriminate]).
  destruct (rev (flat_map posts (x :: after))) as [|body l] eqn:E.
  - exfalso. apply (f_equal (@rev _)) in E. rewrite rev_involutive in E. cbn [flat_map] in E. destruct (posts x); [congruence|discriminate].
  - assert (I : In body (flat_map posts (x :: after))) by (apply in_rev; rewrite E; left; reflexivity). apply in_flat_map in I. destruct I as (y & I1 & I2).
    exists y, body. split; [exact I1|]. split; [exact I2|reflexivity].
Qed.

(** All the frames since the start, before and after some time. *)
Lemma heard_before : forall fuel sgn b d0 acts past es d os, start_ok b -> boot b = Some (d0, acts) -> Forall is_byte (map snd (heard false (past ++ es))) ->
  drun fuel sgn (past ++ es) d0 = Done (d, os) -> Forall is_byte (map snd (heard false past)) /\ exists d1 os1, drun fuel sgn past d0 = Done (d1, os1).
Proof.
  intros fuel sgn b d0 acts past es d os St Bo. revert d os. induction es as [|e es IH] using rev_ind; intros d os B R; [rewrite app_nil_r in *; eauto|].
  rewrite app_assoc in B, R. destruct (drun_snoc _ _ _ _ _ _ _ R) as (d1 & os1 & o & R1 & R2 & ->). apply (IH _ _) in R1 as X; [exact X|].
  destruct (boot_pub b d0 acts St Bo) as (P & _). assert (Q := drun_pub _ _ _ _ _ _ R1). rewrite P in Q.
  destruct e; try (rewrite heard_snoc in B by discriminate; exact B).
  assert (Fs := fed_snoc sgn tv c _ _ _ Q). change (p_pause (pub_init (b_g1 b) (b_g2 b))) with false in Fs.
  rewrite <- fed_heard, flat_map_app in B. cbn [flat_map as_pub app] in B. rewrite Fs, map_app in B. apply Forall_app in B.
  rewrite <- fed_heard. apply B.
Qed.
Lemma frames_join : forall fuel sgn d0 past es ms0 ms, frames fuel sgn d0 [] past ms0 -> frames fuel sgn d0 past es ms -> frames fuel sgn d0 [] (past ++ es) (ms0 ++ ms).
Proof.
  intros fuel sgn d0 past es ms0 ms H K. induction K as [|es ms e d os d' o a t0 gs K IH R S E|es ms e K IH N].
  - rewrite !app_nil_r. exact H.
  - rewrite !app_assoc. eapply a_frame; [exact IH|exact R|exact S|exact E].
  - rewrite app_assoc. apply another; [exact IH|exact N].
Qed.
Lemma all_frames : forall fuel sgn b d0 acts past es d os ms, start_ok b -> boot b = Some (d0, acts) -> Forall is_byte (map snd (heard false (past ++ es))) ->
  drun fuel sgn (past ++ es) d0 = Done (d, os) -> frames fuel sgn d0 past es ms -> exists ms0, frames fuel sgn d0 [] (past ++ es) (ms0 ++ ms).
Proof.
  intros fuel sgn b d0 acts past es d os ms St Bo B R F. destruct (heard_before _ _ _ _ _ _ _ _ _ St Bo B R) as (B' & d1 & os1 & R1).
  destruct (frames_exist fuel sgn b d0 acts St Bo [] past d1 os1 B' R1) as (ms0 & F0). exists ms0. apply frames_join; assumption.
Qed.

Section History.
Variables (fuel : nat) (sgn : bool) (b : start) (d0 : device) (acts : list wifi_act) (en : env) (past es : list devent) (dp : device) (osp : list (list out)) (d : device) (os : list (list out)).
Variables (zs : list (trial * Z)) (a : Z).
Hypothesis St : start_ok b.
Hypothesis Bo : boot b = Some (d0, acts).
Hypothesis By : Forall is_byte (map snd (heard false (past ++ es))).
Hypothesis En : Forall (same_env en) (past ++ es).
Hypothesis Rp : drun fuel sgn past d0 = Done (dp, osp).
Hypothesis Ru : drun fuel sgn (past ++ es) d0 = Done (d, os).
Hypothesis NR : ~ In RestartNow (concat os).
Hypothesis Fr : frames fuel sgn d0 past es (map fst (map fst zs)).
Hypothesis NF : Forall no_form es.
Hypothesis Cf : configured_at fuel sgn b d0 past (u32 a).
Hypothesis Ti : map m_now (map fst (map fst zs)) = map (fun x => u32 (a + x)) (map snd zs).
Hypothesis Po : Forall (fun m => s_use_post (m_set m) = true) (map fst (map fst zs)).
Hypothesis Js : Forall (fun m => quotable (iso en (tv_sec (m_date m))) = true /\ Forall json_ready (m_groups m)) (map fst (map fst zs)).

Lemma posts_frame : forall m r body, In m (map fst (map fst zs)) -> In body (posts (m, r)) -> exists w,
  json_of body = Some (JObj (
    (str "timestamp", JStr (iso en (tv_sec (m_date m)))) :: (str "seconds", JStr (seconds_text (m_date m))) ::
    (str "notif", JStr (reason_text w)) :: map (fun g => (fst g, json_value (snd g))) (m_groups m))) /\ sends w m = true.
Proof.
  intros m r body I J. assert (U := proj1 (Forall_forall _ _) Po m I). assert (K := proj1 (Forall_forall _ _) Js m I). cbv beta in U, K. destruct K as (K1 & K2).
  destruct (all_frames _ _ _ _ _ _ _ _ _ _ St Bo By Ru Fr) as (ms0 & Fa). apply in_split in I. destruct I as (ms1 & ms2 & E). apply (f_equal (app ms0)) in E. rewrite app_assoc in E.
  destruct (at_frame fuel sgn b d0 acts en (past ++ es) d os _ St Bo By En Ru NR Fa _ _ _ E) as (e1 & t1 & s1 & k & t & o & s2 & S1 & P1 & Pt & C & Ts & Sz & T1 & T2 & Se & Q & _).
  unfold posts in J. cbn [fst snd] in J. destruct r; [|destruct J]. apply in_flat_map in J. destruct J as ((w & q) & J1 & J2). cbn [fst snd] in J2.
  assert (J3 := J1). rewrite Q in J1. apply in_request in J1. rewrite <- Se in U.
  destruct w; try (destruct J2; fail);
  (destruct (posted_frame _ _ _ _ _ _ _ _ _ _ _ _ _ _ P1 Pt T1 T2 C U J1 ltac:(discriminate) ltac:(discriminate)) as (body' & B1 & B2);
   rewrite B1 in J2; destruct J2 as [->|[]]; rewrite <- Ts; eexists; split; [apply B2; [exact Sz|rewrite Ts; exact K1|exact K2]|]; unfold sends; apply existsb_exists; eexists; split; [exact J3|reflexivity]).
Qed.

Lemma c110_update : let s := view (cfg_of dp) in let p := 1000 * freq_of s MAJ in
  host_of s MAJ <> [] -> port_of s MAJ <> 0 -> 0 < freq_of s MAJ -> p <= 4294967294 -> spaced p 0 (map snd zs) ->
  forall before after, zs = before ++ after -> Forall (fun z => reached (fst z)) after -> last (map snd before) 0 + p <= last (map snd zs) 0 ->
  exists z w body, In z after /\ last (map snd zs) 0 - p < snd z /\ last_post (map fst zs) = Some body /\
    let m := fst (fst z) in
    json_of body = Some (JObj (
      (str "timestamp", JStr (iso en (tv_sec (m_date m)))) :: (str "seconds", JStr (seconds_text (m_date m))) ::
      (str "notif", JStr (reason_text w)) :: map (fun g => (fst g, json_value (snd g))) (m_groups m))).
Proof.
  intros s p H1 H2 H3 H4 Sp before after E R L.
  assert (En' := proj2 (proj1 (Forall_app _ _ _) En)).
  destruct (c99_period fuel sgn b d0 acts en St Bo past es dp osp d os _ a MAJ (map snd zs) By En' Cf Rp Ru NR Fr NF eq_refl Ti) as (_ & X).
  destruct (X H1 H2 H3 H4) as (_ & X2). specialize (X2 Sp). clear X. fold s p in X2.
  assert (Hp : 0 < p) by (subst p; lia). clearbody p. clear s H1 H2 H3.
  assert (L' : 0 / p < last (map snd zs) 0 / p).
  { rewrite Z.div_0_l by lia. assert (0 <= last (map snd before) 0).
    { rewrite E, map_app in Sp. clear -Sp. destruct (map snd before) as [|x l] eqn:Q using rev_ind; [cbn; lia|]. rewrite last_last. apply (spaced_tail p _ _ _ Sp).
      rewrite <- app_assoc. apply in_app_iff. right. left. reflexivity. }
    apply Z.lt_le_trans with 1; [lia|]. apply Z.div_le_lower_bound; lia. }
  destruct (last_firing p Hp _ 0 Sp L') as (d1 & x & d2 & D & F & Q).
  (* the frame of this poll *)
  assert (Z : exists z1 z z2, zs = z1 ++ z :: z2 /\ length z1 = length d1 /\ snd z = x).
  { clear -D. revert d1 D. induction zs as [|y l IH]; intros d1 D; [destruct d1; discriminate|]. destruct d1 as [|u d1]; cbn [map app] in D; injection D as D1 D2.
    - exists [], y, l. repeat split. exact D1.
    - destruct (IH d1 D2) as (z1 & z & z2 & -> & A & B). exists (y :: z1), z, z2. cbn [length]. rewrite A. repeat split. exact B. }
  destruct Z as (z1 & z & z2 & Ez & Lz & Sx).
  assert (M : sends MAJ (fst (fst z)) = true).
  { rewrite <- X2 in F. rewrite <- Lz in F. rewrite Ez, !map_app, !map_map in F. rewrite app_nth2 in F by (rewrite map_length; lia). rewrite map_length, Nat.sub_diag in F. exact F. }
  (* it comes after the outage *)
  assert (A : exists u, z1 = before ++ u /\ after = u ++ z :: z2).
  { assert (Y : before ++ after = z1 ++ z :: z2) by congruence. apply app_eq_app in Y. destruct Y as (u & [(Y1 & Y2)|(Y1 & Y2)]).
    - destruct u as [|y u]; [exists []; rewrite app_nil_r in *; cbn [app] in Y2; subst; auto|]. exfalso. cbn [app] in Y2. injection Y2 as <- Y2.
      assert (G : snd z <= last (map snd before) 0).
      { apply (spaced_last p); [|subst before; rewrite map_app; apply in_app_iff; right; left; reflexivity]. rewrite E, map_app in Sp. clear -Sp.
        revert Sp. generalize 0. generalize (map snd before). induction l as [|v l IH]; intros c S; [exact Logic.I|]. cbn [app spaced] in *. destruct S as (S1 & S2 & S3). auto. }
      lia.
    - exists u. split; [exact Y1|exact Y2]. }
  destruct A as (u & Y1 & Y2).
  assert (Rz : snd (fst z) = true). { rewrite Y2 in R. apply Forall_app in R. destruct R as (_ & R). apply Forall_inv in R. exact R. }
  assert (P : posts (fst z) <> []).
  { assert (I : In (fst (fst z)) (map fst (map fst zs))) by (rewrite Ez, !map_app; apply in_app_iff; right; left; reflexivity).
    unfold sends in M. apply existsb_exists in M. destruct M as ((w & r) & M1 & M2). cbn [fst] in M2. assert (w = MAJ) by (destruct w; try discriminate M2; reflexivity). subst w.
    destruct (all_frames _ _ _ _ _ _ _ _ _ _ St Bo By Ru Fr) as (ms0 & Fa). assert (I' := I). apply in_split in I'. destruct I' as (ms1 & ms2 & E'). apply (f_equal (app ms0)) in E'. rewrite app_assoc in E'.
    destruct (at_frame fuel sgn b d0 acts en (past ++ es) d os _ St Bo By En Ru NR Fa _ _ _ E') as (e1 & t1 & s1 & k & t & o & s2 & S1 & P1 & Pt & C & Ts & Sz & T1 & T2 & Se & Qr & _).
    assert (M3 := M1). rewrite Qr in M1. apply in_request in M1. assert (U := proj1 (Forall_forall _ _) Po _ I). cbv beta in U. rewrite <- Se in U.
    destruct (posted_frame _ _ _ _ _ _ _ _ _ _ _ _ _ _ P1 Pt T1 T2 C U M1 ltac:(discriminate) ltac:(discriminate)) as (body & B1 & _).
    intros N. unfold posts in N. rewrite Rz in N. assert (J : In body (@nil (list Z))); [|destruct J]. rewrite <- N. apply in_flat_map. exists (MAJ, r). split; [exact M3|].
    cbn [fst snd]. rewrite B1. left. reflexivity. }
  destruct (last_post_of (map fst zs) (map fst z1) (fst z) (map fst z2)) as (y & body & I1 & I2 & I3); [rewrite Ez, map_app; reflexivity|exact P|].
  change (fst z :: map fst z2) with (map fst (z :: z2)) in I1. apply in_map_iff in I1. destruct I1 as (z' & <- & I1).
  assert (I : In (fst (fst z')) (map fst (map fst zs))) by (rewrite Ez; apply in_map, in_map, in_app_iff; right; exact I1).
  destruct (fst z') as (m & r) eqn:Em. cbn [fst] in I. destruct (posts_frame m r body I I2) as (w & J & _).
  exists z', w, body. split; [rewrite Y2; apply in_app_iff; right; exact I1|]. split.
  - destruct I1 as [<-|I1]; [lia|]. assert (x <= snd z'); [|lia]. rewrite D in Sp. apply spaced_part in Sp. apply (spaced_tail p _ _ _ Sp).
    assert (E2 : map snd z2 = d2).
    { rewrite Ez, map_app in D. cbn [map] in D. apply same_front in D; [|rewrite map_length; exact Lz]. congruence. }
    rewrite <- E2. apply in_map. exact I1.
  - split; [exact I3|]. rewrite Em. cbn [fst]. exact J.
Qed.
End History.
