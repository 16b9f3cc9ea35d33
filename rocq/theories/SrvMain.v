(** The pages of the development server, beside those of the module. *)
From Coq Require Import ZArith List Bool Lia ZifyBool.
From Verif Require Import Base BaseFacts Teleinfo TeleinfoSpec TeleinfoMain Publish HistorySpec DecoderProofs GroupProofs Json JsonFacts JsonBuild JsonBuildFacts AccessProofs
  Tic TicSpec PageProofs Clock ClockSpec ClockMain Sse SseSpec SseProofs FormMain Dash DashSpec DashProofs DashMain Simu SimuSpec SimuProofs Srv SrvSpec SrvProofs.
Import ListNotations.
Open Scope Z_scope.

(** ** Characters *)
Lemma escaped_ascii : forall c, 0 <= c < 128 -> Forall (fun x => 32 <= x <= 127) (escaped c).
Proof.
  assert (X : forall d, 0 <= d < 16 -> 32 <= hex_low d <= 127) by (intros d H; unfold hex_low; destruct (d <? 10) eqn:E; lia).
  intros c H. unfold escaped.
  repeat match goal with |- context [if ?b then _ else _] => destruct b eqn:?; [repeat constructor; lia|] end.
  repeat (apply Forall_cons; [first [lia | apply X, Z.mod_pos_bound; lia]|]). constructor.
Qed.
Lemma py_string_ascii : forall s, ascii s -> Forall (fun x => 32 <= x <= 127) (py_string s).
Proof.
  intros s H. unfold py_string. apply Forall_app. split; [repeat constructor; lia|]. apply Forall_app. split; [|repeat constructor; lia].
  induction H as [|c s C H IH]; [constructor|]. cbn [flat_map]. apply Forall_app. split; [apply escaped_ascii; exact C|exact IH].
Qed.
Lemma joined_Forall : forall (P : Z -> Prop) sep l, Forall P sep -> Forall (Forall P) l -> Forall P (joined sep l).
Proof.
  intros P sep l S H. induction H as [|x l X H IH]; [constructor|]. cbn [joined]. destruct l; [exact X|].
  apply Forall_app. split; [exact X|]. apply Forall_app. split; [exact S|exact IH].
Qed.
Lemma joined_length : forall sep l, Forall (fun x => x <> []) l -> (length l <= length (joined sep l))%nat.
Proof.
  intros sep l H. induction H as [|x l X H IH]; [apply le_n|]. cbn [joined]. assert (L : (1 <= length x)%nat) by (destruct x; [congruence|cbn; lia]).
  destruct l as [|y l]; [cbn [length]; lia|]. cbn [length] in *. rewrite !app_length. lia.
Qed.
Lemma dec_ascii : forall n, Forall (fun x => 32 <= x <= 127) (dec n).
Proof. intros n. eapply Forall_impl; [|exact (digits_printable _ (dec_digits n))]. cbn. intros; lia. Qed.
Lemma char7_ascii : forall s, Forall char7 s -> ascii s.
Proof. intros s H. eapply Forall_impl; [|exact H]. unfold char7. cbn. intros; lia. Qed.
Lemma str_ascii : forall s, forallb (fun c => (0 <=? c) && (c <? 128)) s = true -> ascii s.
Proof. intros s H. apply Forall_forall. intros c I. rewrite forallb_forall in H. specialize (H c I). lia. Qed.

(** ** The dictionary *)
Definition dict_values (ts : list Z) (m : simu) : list json :=
  [ JStr ts; JStr (sm_adco m); JStr (str "HC"); JNum (dec ISOUSC); JNum (dec (sm_hchc m)); JNum (dec (sm_hchp m));
    JStr (if sm_creuses m then str "HC" else str "HP"); JNum (dec (sm_iinst m)); JNum (dec 42); JNum (dec (sm_papp m + sm_pseuil m));
    JStr (str "D"); JNum (dec 0) ]
  ++ (if negb (sm_adps m =? 0) then [JNum (dec (sm_adps m))] else []).
Definition dict_members (ts : list Z) (m : simu) : list (list Z * json) := combine (map fst (dict_items ts m)) (dict_values ts m).
Lemma dict_pairs : forall ts m, sim_ok m -> ascii ts ->
  Forall2 (fun x v => ascii (fst x) /\ reads 1 (snd x) v) (dict_items ts m) (dict_values ts m).
Proof.
  intros ts m (H1 & H2 & H3 & H4 & H5 & H6 & H7 & H8) T. unfold dict_items, dict_values. apply Forall2_app.
  - repeat (apply Forall2_cons; [split; [apply str_ascii; reflexivity|cbn [snd]]|]); try apply Forall2_nil;
      first [apply reads_number; unfold ISOUSC; lia | apply reads_string; first [exact T | apply char7_ascii; exact H8 | apply str_ascii; reflexivity | destruct (sm_creuses m); apply str_ascii; reflexivity]].
  - destruct (negb (sm_adps m =? 0)); [|apply Forall2_nil]. apply Forall2_cons; [|apply Forall2_nil].
    split; [apply str_ascii; reflexivity|]. apply reads_number. lia.
Qed.
Lemma dict_chars : forall ts m, sim_ok m -> ascii ts -> Forall (fun x => 32 <= x <= 127) (json_dict ts m).
Proof.
  intros ts m (H1 & H2 & H3 & H4 & H5 & H6 & H7 & H8) T. unfold json_dict. apply Forall_app. split; [repeat constructor; lia|].
  apply Forall_app. split; [|repeat constructor; lia]. apply joined_Forall; [repeat constructor; lia|]. apply Forall_map.
  assert (G : Forall (fun x => ascii (fst x) /\ Forall (fun c => 32 <= c <= 127) (snd x)) (dict_items ts m)).
  { unfold dict_items. apply Forall_app. split.
    - repeat (apply Forall_cons; [split; [apply str_ascii; reflexivity|cbn [snd]]|]); try apply Forall_nil;
      first [apply dec_ascii | apply py_string_ascii; first [exact T | apply char7_ascii; exact H8 | apply str_ascii; reflexivity | destruct (sm_creuses m); apply str_ascii; reflexivity]].
    - destruct (negb (sm_adps m =? 0)); [|constructor]. constructor; [|constructor]. split; [apply str_ascii; reflexivity|apply dec_ascii]. }
  eapply Forall_impl; [|exact G]. intros x (A & B). apply Forall_app. split; [apply py_string_ascii; exact A|]. constructor; [lia|exact B].
Qed.
Lemma dict_read : forall ts m, sim_ok m -> ascii ts -> json_of (json_dict ts m) = Some (JObj (dict_members ts m)).
Proof.
  intros ts m K T. unfold json_of. rewrite utf8_ascii by (eapply Forall_impl; [|exact (dict_chars ts m K T)]; cbn; intros; lia).
  pose proof (object_read [] [] [] 1 (dict_items ts m) (dict_values ts m) eq_refl eq_refl eq_refl ltac:(discriminate) (dict_pairs ts m K T)) as R.
  assert (E : json_dict ts m = 123 :: joined [44] (map (member_text [] []) (dict_items ts m)) ++ [] ++ [125]) by reflexivity.
  rewrite E. specialize (R (S (length (123 :: joined [44] (map (member_text [] []) (dict_items ts m)) ++ [] ++ [125]))) []). rewrite app_nil_r in R.
  rewrite R.
  - reflexivity.
  - cbn [length]. rewrite !app_length. cbn [length]. pose proof (joined_length [44] (map (member_text [] []) (dict_items ts m))) as L.
    rewrite map_length in L. enough (Q : Forall (fun x => x <> []) (map (member_text [] []) (dict_items ts m))) by (specialize (L Q); lia).
    apply Forall_map, Forall_forall. intros x _. unfold member_text, py_string. discriminate.
  - exact Logic.I.
Qed.

(** ** Numbers without zeros *)
Lemma nlz_zeros : forall k v, v <> [] -> hd 0 v <> 48 \/ v = [48] -> no_leading_zeros (repeat 48 k ++ v) = v.
Proof.
  induction k as [|k IH]; intros v N H.
  - cbn [repeat app]. destruct v as [|c [|d v]]; [congruence|reflexivity|]. destruct H as [H|H]; [|discriminate]. cbn [hd] in H.
    cbn [no_leading_zeros]. replace (c =? 48) with false by lia. reflexivity.
  - cbn [repeat app]. destruct (repeat 48 k ++ v) as [|d w] eqn:E; [destruct k; [cbn in E; congruence|discriminate]|].
    change (no_leading_zeros (48 :: d :: w)) with (no_leading_zeros (d :: w)). rewrite <- E. auto.
Qed.
Lemma nlz_fmt : forall k n, 0 <= n -> no_leading_zeros (fmt k n) = dec n.
Proof.
  intros k n H. unfold fmt, pad0. apply nlz_zeros.
  - destruct (Z.eq_dec n 0) as [->|N]; [discriminate|]. destruct (dec_head n ltac:(lia)) as (c & t & -> & _). discriminate.
  - destruct (Z.eq_dec n 0) as [->|N]; [right; reflexivity|]. left. destruct (dec_head n ltac:(lia)) as (c & t & -> & C). exact C.
Qed.
Lemma value_digits : forall k n, (1 <= k)%nat -> 0 <= n < 10 ^ Z.of_nat k -> json_value (SimuSpec.digits k n) = JNum (dec n).
Proof.
  intros k n K H. unfold json_value, all_digit. rewrite SimuProofs.digits_isdigit, <- fmt_digits, nlz_fmt by (auto; lia). reflexivity.
Qed.

(** ** The members *)
Lemma property_in : forall x v ms, NoDup (map fst ms) -> In (x, v) ms -> property x ms = Some v.
Proof.
  intros x v. induction ms as [|[k u] ms IH]; intros N I; [destruct I|]. cbn [map property fst] in *. inversion N as [|? ? N1 N2]; subst.
  assert (A : ~ In x (map fst ms) -> property x ms = None).
  { clear. induction ms as [|[k u] ms IH]; intros H; [reflexivity|]. cbn [map property fst In] in *. rewrite IH by tauto.
    destruct (beq k x) eqn:E; [|reflexivity]. apply beq_eq in E. subst. tauto. }
  destruct I as [I|I].
  - injection I as -> ->. rewrite A by exact N1. rewrite beq_refl. reflexivity.
  - rewrite (IH N2 I). reflexivity.
Qed.
Fixpoint distinct (l : list (list Z)) : bool := match l with [] => true | x :: r => negb (existsb (beq x) r) && distinct r end.
Lemma distinct_spec : forall l, distinct l = true -> NoDup l.
Proof.
  induction l as [|x l IH]; intros H; [constructor|]. cbn [distinct] in H. apply andb_true_iff in H. destruct H as (A & B). constructor; [|auto].
  intros I. assert (E : existsb (beq x) l = true) by (apply existsb_exists; exists x; split; [exact I|apply beq_refl]). rewrite E in A. discriminate.
Qed.
Lemma dict_labels : forall ts m, map fst (dict_members ts m) =
  map fst (dict_items [] m).
Proof. intros ts m. unfold dict_members, dict_items, dict_values. destruct (negb (sm_adps m =? 0)); reflexivity. Qed.
Lemma dict_distinct : forall ts m, NoDup (map fst (dict_members ts m)).
Proof.
  intros ts m. rewrite dict_labels. apply distinct_spec. unfold dict_items. rewrite map_app. destruct (negb (sm_adps m =? 0)); vm_compute; reflexivity.
Qed.
Lemma dict_groups : forall ts m l v, sim_ok m -> In (l, v) (expected m) -> l <> str "ADCO" -> In (l, json_value v) (dict_members ts m).
Proof.
  intros ts m l v (H1 & H2 & H3 & H4 & H5 & H6 & H7 & H8) I N.
  assert (D9 := value_digits 9 (sm_hchc m) ltac:(lia) H1). assert (D9' := value_digits 9 (sm_hchp m) ltac:(lia) H2).
  assert (D3 := value_digits 3 (sm_iinst m) ltac:(lia) H3).
  assert (D5 := value_digits 5 (sm_papp m + sm_pseuil m) ltac:(lia) ltac:(change (10 ^ Z.of_nat 5) with 100000; lia)).
  assert (D3' := value_digits 3 (sm_adps m) ltac:(lia) H6).
  assert (M : forall x, In x (combine (map fst (dict_items [] m)) (dict_values ts m)) -> In x (dict_members ts m)).
  { intros x X. unfold dict_members. replace (map fst (dict_items ts m)) with (map fst (dict_items [] m)); [exact X|].
    unfold dict_items. rewrite !map_app. reflexivity. }
  apply M. clear M. unfold dict_items, dict_values. unfold expected in I.
  assert (J : json_value (if sm_creuses m then str "HC" else str "HP") = JStr (if sm_creuses m then str "HC" else str "HP")) by (destruct (sm_creuses m); reflexivity).
  generalize dependent (if sm_creuses m then str "HC" else str "HP"). intros pt I J.
  destruct (sm_adps m =? 0); cbn [negb map fst app combine In] in *.
  - repeat (destruct I as [I|I]; [apply pair_equal_spec in I; destruct I as (<- & <-); first [congruence
      | rewrite ?D9, ?D9', ?D3, ?D5, ?J; tauto]|]). destruct I.
  - repeat (destruct I as [I|I]; [apply pair_equal_spec in I; destruct I as (<- & <-); first [congruence
      | rewrite ?D9, ?D9', ?D3, ?D5, ?D3', ?J; tauto]|]). destruct I.
Qed.
