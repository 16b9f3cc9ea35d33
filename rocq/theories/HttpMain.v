(** What Jeedom, emoncms and the server of the notifications read (C95). *)
From Coq Require Import ZArith List Bool Lia.
From Verif Require Import Base BaseFacts Teleinfo TeleinfoSpec HistorySpec JsonBuildFacts Json Config ConfigSpec ToolSpec Tic TicSpec NotifMain RequestProofs
  Http HttpSpec HttpProofs.
Import ListNotations.
Open Scope Z_scope.

Lemma plain_app : forall a b, unreserved (a ++ b) <-> unreserved a /\ unreserved b.
Proof. intros. apply Forall_app. Qed.
Lemma plain_not : forall c l, unreserved l -> In c [32; 13; 10; 35; 37; 38; 43; 61; 63] -> Forall (fun x => x <> c) l.
Proof. intros c l H I. eapply Forall_impl; [|exact H]. cbn in *. intros x X. intuition lia. Qed.
Lemma decoded_plain : forall l, unreserved l -> decoded l = l.
Proof.
  induction l as [|c l IH]; intros H; [reflexivity|]. inversion H as [|? ? X H']; subst. cbn [decoded].
  destruct (c =? 43) eqn:A; [lia|]. destruct (c =? 37) eqn:B; [lia|]. now rewrite IH.
Qed.
Lemma field_plain : forall n v, unreserved n -> unreserved v -> form_field (n ++ 61 :: v) = (n, v).
Proof.
  intros n v N V. unfold form_field. rewrite cut_app by (apply plain_not; [assumption|cbn; tauto]). now rewrite !decoded_plain.
Qed.
(** Fields written one after the other. *)
Definition as_field (f : list Z * list Z) : list Z := fst f ++ 61 :: snd f.
Definition plain_field (f : list Z * list Z) : Prop := unreserved (fst f) /\ unreserved (snd f).
Fixpoint ands (l : list (list Z * list Z)) : list Z :=
  match l with
  | [] => []
  | f :: r => 38 :: as_field f ++ ands r
  end.
Definition no_and (l : list Z) : Prop := Forall (fun c => c <> 38) l.
Lemma field_no_and : forall f, plain_field f -> no_and (as_field f).
Proof.
  intros [n v] [N V]. unfold as_field, no_and. cbn [fst snd] in *. apply Forall_app. split; [apply plain_not; [exact N|cbn; tauto]|].
  constructor; [lia|]. apply plain_not; [exact V|cbn; tauto].
Qed.
Lemma parts_ands : forall l f, Forall plain_field (f :: l) -> parts 38 (as_field f ++ ands l) = map as_field (f :: l).
Proof.
  induction l as [|g l IH]; intros f H; inversion H as [|? ? X H']; subst.
  - cbn [ands map]. rewrite app_nil_r. apply parts_one. now apply field_no_and.
  - cbn [ands]. rewrite parts_app by now apply field_no_and. rewrite IH by assumption. reflexivity.
Qed.
Lemma map_fields : forall l, Forall plain_field l -> map form_field (map as_field l) = l.
Proof.
  induction l as [|[n v] l IH]; intros H; [reflexivity|]. inversion H as [|? ? [N V] H']; subst. cbn [map]. rewrite IH by assumption.
  unfold as_field. cbn [fst snd] in *. now rewrite field_plain.
Qed.
(** No # in a text with fields. *)
Lemma field_no_sharp : forall f, plain_field f -> Forall (fun c => c <> 35) (as_field f).
Proof.
  intros [n v] [N V]. unfold as_field. cbn [fst snd] in *. apply Forall_app. split; [apply plain_not; [exact N|cbn; tauto]|].
  constructor; [lia|]. apply plain_not; [exact V|cbn; tauto].
Qed.
Lemma ands_no_sharp : forall l, Forall plain_field l -> Forall (fun c => c <> 35) (ands l).
Proof.
  induction l as [|f l IH]; intros H; [constructor|]. inversion H; subst. cbn [ands]. constructor; [lia|]. apply Forall_app.
  split; [now apply field_no_sharp|now apply IH].
Qed.
Lemma field_word : forall f, plain_field f -> one_word (as_field f).
Proof.
  intros [n v] [N V]. unfold as_field. cbn [fst snd] in *. apply Forall_app. split; [now apply plain_word|].
  constructor; [lia|]. now apply plain_word.
Qed.
Lemma ands_word : forall l, Forall plain_field l -> one_word (ands l).
Proof.
  induction l as [|f l IH]; intros H; [constructor|]. inversion H; subst. cbn [ands]. constructor; [lia|]. apply Forall_app.
  split; [now apply field_word|now apply IH].
Qed.
Lemma address_read : forall path f l, unreserved path -> Forall plain_field (f :: l) ->
  let t := path ++ 63 :: as_field f ++ ands l in
  one_word t /\ path_of t = path /\ fields_of t = f :: l.
Proof.
  intros path f l P F t. inversion F as [|? ? F1 F2]; subst.
  assert (S : Forall (fun c => c <> 35) t).
  { unfold t. apply Forall_app. split; [apply plain_not; [exact P|cbn; tauto]|]. constructor; [lia|]. apply Forall_app.
    split; [now apply field_no_sharp|now apply ands_no_sharp]. }
  assert (C : cut_at 63 t = (path, Some (as_field f ++ ands l))).
  { unfold t. apply cut_app. apply plain_not; [exact P|cbn; tauto]. }
  split; [|split].
  - unfold t. apply Forall_app. split; [now apply plain_word|]. constructor; [lia|]. apply Forall_app.
    split; [now apply field_word|now apply ands_word].
  - unfold path_of. rewrite (cut_none 35 t S). cbn [fst]. now rewrite C.
  - unfold fields_of. rewrite (cut_none 35 t S). cbn [fst]. rewrite C. cbn [snd]. rewrite parts_ands by assumption. now apply map_fields.
Qed.

Lemma host_line : forall e now0 c evs past st now k t o st' w r, frames_published evs -> published_ti t ->
  tic_run e evs (tic_start now0 c) = Some (past, st) -> tic_step e (Frame now k t) st = Some (o, st') -> In (Request w r) o ->
  one_word (host_of (settings_after (view c) evs) w) -> on_line (r_host r).
Proof.
  intros e now0 c evs past st now k t o st' w r P Pt R S I H. destruct (c19 _ _ _ _ _ _ _ _ _ _ _ P Pt R S) as [_ X].
  destruct (X w r I) as (_ & -> & _). now apply word_line.
Qed.

(** ** Jeedom *)
Definition jeedom_field (adco : list Z) (g : group) : list Z * list Z :=
  (fst g, if beq (fst g) (str "ADCO") && negb (Nat.eqb (length adco) 0) then adco else snd g).
Lemma jeedom_ands : forall adco gs, concat (map (jeedom_text adco) gs) = ands (map (jeedom_field adco) gs).
Proof.
  induction gs as [|g gs IH]; [reflexivity|]. cbn [map concat ands]. rewrite <- IH. unfold jeedom_text, as_field, jeedom_field. cbn [fst snd].
  change (str "&" ++ fst g ++ str "=" ++ ?x) with (38 :: fst g ++ 61 :: x). cbn [app]. rewrite <- !app_assoc. reflexivity.
Qed.
Lemma plain_jeedom : forall adco gs, unreserved adco -> Forall (fun g => unreserved (fst g) /\ unreserved (snd g)) gs ->
  Forall plain_field (map (jeedom_field adco) gs).
Proof.
  intros adco gs A H. apply Forall_map. eapply Forall_impl; [|exact H]. intros g [N V]. split; [exact N|]. cbn. destruct (_ && _); assumption.
Qed.
Lemma plain_path : forall u, unreserved u -> unreserved (if Nat.eqb (length u) 0 then str "/" else u).
Proof. intros u H. destruct (Nat.eqb (length u) 0); [chars|exact H]. Qed.
Lemma target_some : forall r p q, r_url r = p ++ 63 :: q -> target_of r = p ++ 63 :: q.
Proof. intros r p q E. unfold target_of. rewrite E. destruct p; reflexivity. Qed.
Lemma c95_jeedom : forall own e now0 c evs past st now k t gs o st' r, Forall plain_header own ->
  frames_published evs -> published_ti t ->
  tic_run e evs (tic_start now0 c) = Some (past, st) -> tic_step e (Frame now k t) st = Some (o, st') ->
  carries t gs -> In (Request JEEDOM r) o ->
  let s := settings_after (view c) evs in
  one_word (s_jdom_host s) -> unreserved (s_jdom_url s) -> unreserved (s_jdom_key s) -> unreserved (s_jdom_adco s) ->
  Forall (fun g => unreserved (fst g) /\ unreserved (snd g)) gs ->
  exists v, read_request (sent_bytes own r) = Some v /\ v_method v = str "GET" /\
    path_of (v_target v) = (if Nat.eqb (length (s_jdom_url s)) 0 then str "/" else s_jdom_url s) /\
    fields_of (v_target v) = (str "api", s_jdom_key s) ::
      map (fun g => (fst g, if beq (fst g) (str "ADCO") && negb (Nat.eqb (length (s_jdom_adco s)) 0) then s_jdom_adco s else snd g)) gs.
Proof.
  intros own e now0 c evs past st now k t gs o st' r O P Pt R S C I s H U K A G.
  destruct (c20_request _ _ _ _ _ _ _ _ _ _ _ _ _ P Pt R S C I) as [D E]. fold s in E.
  assert (L : on_line (r_host r)) by (eapply host_line; eauto).
  rewrite jeedom_ands in E.
  change (str "?api=" ++ s_jdom_key s ++ ands (map (jeedom_field (s_jdom_adco s)) gs)) with
    (63 :: str "api" ++ 61 :: s_jdom_key s ++ ands (map (jeedom_field (s_jdom_adco s)) gs)) in E.
  assert (E' : r_url r = (if Nat.eqb (length (s_jdom_url s)) 0 then str "/" else s_jdom_url s) ++
                63 :: as_field (str "api", s_jdom_key s) ++ ands (map (jeedom_field (s_jdom_adco s)) gs)) by exact E.
  clear E.
  destruct (address_read (if Nat.eqb (length (s_jdom_url s)) 0 then str "/" else s_jdom_url s) (str "api", s_jdom_key s)
    (map (jeedom_field (s_jdom_adco s)) gs)) as (W & X & Y).
  { now apply plain_path. }
  { constructor; [split; [chars|exact K]|]. now apply plain_jeedom. }
  eexists. split; [apply message_read; [exact O|exact L|now rewrite E']|]. cbn [v_method v_target].
  split; [unfold method_of; now rewrite D|]. rewrite (target_some _ _ _ E'). split; [exact X|exact Y].
Qed.

(** ** emoncms *)
Lemma plain_digits : forall l, forallb isdigit l = true -> unreserved l.
Proof. intros l H. apply Forall_forall. intros c I. rewrite forallb_forall in H. specialize (H c I). unfold isdigit in H. lia. Qed.
Lemma nlz_in : forall v c, In c (no_leading_zeros v) -> In c v.
Proof.
  induction v as [|x v IH]; intros c H; [exact H|]. cbn [no_leading_zeros] in H. destruct v as [|y v]; [exact H|].
  destruct (x =? 48); [right; now apply IH|exact H].
Qed.
Lemma trim_in : forall v c, In c (trim_number v) -> In c v.
Proof. intros v c. unfold trim_number. destruct (all_digit v); [apply nlz_in|tauto]. Qed.
Lemma Forall_trim : forall (P : Z -> Prop) v, Forall P v -> Forall P (trim_number v).
Proof. intros P v H. apply Forall_forall. intros c I. apply trim_in in I. rewrite Forall_forall in H. now apply H. Qed.
Lemma Forall_dec : forall (P : Z -> Prop) n, (forall c, 48 <= c <= 57 -> P c) -> Forall P (dec n).
Proof.
  intros P n H. pose proof (dec_digits n) as D. rewrite forallb_forall in D. apply Forall_forall. intros c I. apply H.
  specialize (D c I). unfold isdigit in D. lia.
Qed.
Lemma picked : forall (P : Z -> Prop) test codes, (forall c, 48 <= c <= 57 -> P c) ->
  forallb (fun p : String.string * String.string => forallb isdigit (str (snd p))) codes = true ->
  Forall P (match find (fun p => test (str (fst p))) codes with Some p => str (snd p) | None => str "0" end).
Proof.
  intros P test codes H D. destruct (find _ codes) as [p|] eqn:F.
  - apply find_some in F. destruct F as [I _]. rewrite forallb_forall in D. specialize (D p I). rewrite forallb_forall in D.
    apply Forall_forall. intros c J. apply H. specialize (D c J). unfold isdigit in D. lia.
  - change (str "0") with [48]. constructor; [apply H; lia|constructor].
Qed.
Lemma Forall_code : forall (P : Z -> Prop) g, (forall c, 48 <= c <= 57 -> P c) -> P 45 -> Forall P (snd g) -> Forall P (emon_code g).
Proof.
  intros P g H M V. unfold emon_code. destruct (beq (fst g) (str "OPTARIF")).
  { apply (picked P (fun w => is_prefix w (snd g))); [exact H|reflexivity]. }
  destruct (beq (fst g) (str "HHPHC")).
  { unfold decs. destruct (_ <? 0); [constructor; [exact M|]|]; now apply Forall_dec. }
  destruct (beq (fst g) (str "PTEC")).
  { apply (picked P (fun w => beq w (snd g))); [exact H|reflexivity]. }
  now apply Forall_trim.
Qed.
Definition emon_text (p : list Z * list Z) : list Z := fst p ++ 58 :: snd p.
Lemma commas_parts : forall l x, Forall (fun p => Forall (fun c => c <> 44) (emon_text p)) (x :: l) ->
  parts 44 (with_commas (map emon_text (x :: l))) = map emon_text (x :: l).
Proof.
  induction l as [|y l IH]; intros x H; inversion H as [|? ? X H']; subst.
  - cbn [map with_commas]. now apply parts_one.
  - change (with_commas (map emon_text (x :: y :: l))) with (emon_text x ++ 44 :: with_commas (map emon_text (y :: l))).
    rewrite parts_app by assumption. rewrite IH by assumption. reflexivity.
Qed.
Lemma Forall_commas : forall (P : Z -> Prop) l, P 44 -> Forall (Forall P) l -> Forall P (with_commas l).
Proof.
  induction l as [|x l IH]; intros C H; [constructor|]. inversion H; subst. cbn [with_commas]. destruct l as [|y l]; [assumption|].
  apply Forall_app. split; [assumption|]. constructor; [exact C|]. now apply IH.
Qed.
Definition emon_ok (g : group) : Prop :=
  Forall (fun c => c <> 44 /\ c <> 58 /\ c <> 125) (fst g) /\ Forall (fun c => c <> 44 /\ c <> 58 /\ c <> 125) (snd g).
Lemma payload_text : forall gs, emon_payload gs = 123 :: with_commas (map emon_text (map (fun g => (fst g, emon_code g)) gs)) ++ [125].
Proof. intros gs. unfold emon_payload. rewrite map_map. reflexivity. Qed.
Lemma pair_read : forall p, Forall (fun c => c <> 58) (fst p) -> emon_pair (emon_text p) = p.
Proof. intros [n v] H. unfold emon_pair, emon_text. cbn [fst snd] in *. now rewrite cut_app. Qed.
Lemma text_chars : forall (P : Z -> Prop) g, (forall c, 48 <= c <= 57 -> P c) -> P 45 -> P 58 -> Forall P (fst g) -> Forall P (snd g) ->
  Forall P (emon_text (fst g, emon_code g)).
Proof.
  intros P g D M C A B. unfold emon_text. cbn [fst snd]. apply Forall_app. split; [exact A|]. constructor; [exact C|]. now apply Forall_code.
Qed.
Lemma payload_read : forall gs, Forall emon_ok gs -> emon_read (emon_payload gs) = Some (map (fun g => (fst g, emon_code g)) gs).
Proof.
  intros gs H. rewrite payload_text. cbn [emon_read].
  assert (B : Forall (fun c => c <> 125) (with_commas (map emon_text (map (fun g => (fst g, emon_code g)) gs)))).
  { apply Forall_commas; [lia|]. rewrite map_map. apply Forall_map. eapply Forall_impl; [|exact H]. intros g [X Y].
    apply text_chars; try (intros; lia); (eapply Forall_impl; [|eassumption]); cbn; intros; lia. }
  change (with_commas ?l ++ [125]) with (with_commas l ++ 125 :: []).
  rewrite (cut_app 125 _ [] B). destruct gs as [|g gs]; [reflexivity|].
  assert (N : with_commas (map emon_text (map (fun g => (fst g, emon_code g)) (g :: gs))) <> []).
  { destruct gs as [|g2 gs].
    - change (fst g ++ 58 :: emon_code g <> []). destruct (fst g); discriminate.
    - change ((fst g ++ 58 :: emon_code g) ++ 44 :: with_commas (map emon_text (map (fun g => (fst g, emon_code g)) (g2 :: gs))) <> []).
      destruct (fst g); discriminate. }
  assert (Q : map emon_pair (parts 44 (with_commas (map emon_text (map (fun g => (fst g, emon_code g)) (g :: gs))))) =
              map (fun g => (fst g, emon_code g)) (g :: gs)).
  { change (map (fun g => (fst g, emon_code g)) (g :: gs)) with ((fst g, emon_code g) :: map (fun g => (fst g, emon_code g)) gs).
    rewrite commas_parts.
    - change ((fst g, emon_code g) :: map (fun g => (fst g, emon_code g)) gs) with (map (fun g => (fst g, emon_code g)) (g :: gs)).
      rewrite !map_map. apply map_ext_in. intros x I. apply pair_read. rewrite Forall_forall in H. destruct (H x I) as [X _].
      eapply Forall_impl; [|exact X]. cbn; intros; lia.
    - change ((fst g, emon_code g) :: map (fun g => (fst g, emon_code g)) gs) with (map (fun g => (fst g, emon_code g)) (g :: gs)).
      apply Forall_map. eapply Forall_impl; [|exact H]. intros x [X Y].
      apply text_chars; try (intros; lia); (eapply Forall_impl; [|eassumption]); cbn; intros; lia. }
  set (x := with_commas _) in *. clearbody x. destruct x; [congruence|]. now rewrite Q.
Qed.
Lemma plain_payload : forall gs, Forall (fun g => unreserved (fst g) /\ unreserved (snd g)) gs -> unreserved (emon_payload gs).
Proof.
  intros gs H. rewrite payload_text. constructor; [lia|]. apply Forall_app. split; [|constructor; [lia|constructor]].
  apply Forall_commas; [lia|]. rewrite map_map. apply Forall_map. eapply Forall_impl; [|exact H]. intros g [X Y].
  apply text_chars; try assumption; intros; lia.
Qed.
Definition node_fields (n : Z) : list (list Z * list Z) := if 0 <? n then [(str "node", dec n)] else [].
Lemma c95_emoncms : forall own e now0 c evs past st now k t gs o st' r, Forall plain_header own ->
  frames_published evs -> published_ti t ->
  tic_run e evs (tic_start now0 c) = Some (past, st) -> tic_step e (Frame now k t) st = Some (o, st') ->
  carries t gs -> In (Request EMONCMS r) o ->
  let s := settings_after (view c) evs in
  one_word (s_emon_host s) -> unreserved (s_emon_url s) -> unreserved (s_emon_key s) ->
  Forall (fun g => unreserved (fst g) /\ unreserved (snd g)) gs ->
  Forall (fun g => Forall (fun c => c <> 44 /\ c <> 58 /\ c <> 125) (fst g ++ snd g)) gs ->
  exists v json, read_request (sent_bytes own r) = Some v /\ v_method v = str "GET" /\
    path_of (v_target v) = (if Nat.eqb (length (s_emon_url s)) 0 then str "/" else s_emon_url s) /\
    fields_of (v_target v) = (if 0 <? s_emon_node s then [(str "node", dec (s_emon_node s))] else []) ++
      [(str "apikey", s_emon_key s); (str "json", json)] /\
    emon_read json = Some (map (fun g => (fst g, emon_code g)) gs).
Proof.
  intros own e now0 c evs past st now k t gs o st' r O P Pt R S C I s H U K G GC.
  destruct (c21_request _ _ _ _ _ _ _ _ _ _ _ _ _ P Pt R S C I) as [D E]. fold s in E.
  assert (L : on_line (r_host r)) by (eapply host_line; eauto).
  set (path := if Nat.eqb (length (s_emon_url s)) 0 then str "/" else s_emon_url s) in *.
  assert (F : Forall plain_field [(str "apikey", s_emon_key s); (str "json", emon_payload gs)]).
  { constructor; [split; [chars|exact K]|]. constructor; [split; [chars|now apply plain_payload]|constructor]. }
  assert (Z0 : exists f l, r_url r = path ++ 63 :: as_field f ++ ands l /\ Forall plain_field (f :: l) /\
     f :: l = (if 0 <? s_emon_node s then [(str "node", dec (s_emon_node s))] else []) ++ [(str "apikey", s_emon_key s); (str "json", emon_payload gs)]).
  { destruct (0 <? s_emon_node s).
    - exists (str "node", dec (s_emon_node s)), [(str "apikey", s_emon_key s); (str "json", emon_payload gs)]. split; [|split; [|reflexivity]].
      + rewrite E. f_equal. unfold as_field. cbn [fst snd ands app]. unfold as_field. cbn [fst snd].
        repeat (cbn [str app]; rewrite <- ?app_assoc). rewrite ?app_nil_r. reflexivity.
      + constructor; [|exact F]. split; [chars|]. apply plain_digits, dec_digits.
    - exists (str "apikey", s_emon_key s), [(str "json", emon_payload gs)]. split; [|split; [exact F|reflexivity]].
      rewrite E. f_equal. unfold as_field. cbn [fst snd ands app]. unfold as_field. cbn [fst snd].
      repeat (cbn [str app]; rewrite <- ?app_assoc). rewrite ?app_nil_r. reflexivity. }
  destruct Z0 as (f & l & E' & PF & FL).
  destruct (address_read path f l) as (W & X & Y); [now apply plain_path|exact PF|].
  eexists. exists (emon_payload gs). split; [apply message_read; [exact O|exact L|now rewrite E']|]. cbn [v_method v_target].
  split; [unfold method_of; now rewrite D|]. rewrite (target_some _ _ _ E'). split; [exact X|]. split; [now rewrite <- FL|].
  apply payload_read. eapply Forall_impl; [|exact GC]. intros g Q. apply Forall_app in Q. exact Q.
Qed.

(** ** Notifications *)
Lemma c95_notification : forall own e now0 c evs past st now k t gs o st' w r ps, Forall plain_header own ->
  frames_published evs -> published_ti t ->
  terminated c -> Forall (fun ev => match ev with Configure _ c' => terminated c' | _ => True end) evs ->
  tic_run e evs (tic_start now0 c) = Some (past, st) -> tic_step e (Frame now k t) st = Some (o, st') ->
  carries t gs ->
  let s := settings_after (view c) evs in let address := concat (map (meaning e (t_ts t) gs (reason_text w)) ps) in
  s_http_url s = concat (map written ps) -> Forall piece_ok ps -> separated ps ->
  In (Request w r) o -> w <> JEEDOM -> w <> EMONCMS -> one_word (s_http_host s) -> one_word address -> address <> [] ->
  t_size t <> 0%nat -> quotable (iso e (tv_sec (t_ts t))) = true -> Forall json_ready gs ->
  exists v, read_request (sent_bytes own r) = Some v /\ v_target v = address /\
    v_method v = (if s_use_post s then str "POST" else str "GET") /\
    header_value (str "host") (v_headers v) = Some (s_http_host s ++
      (if (s_http_port s =? 80) || (s_http_port s =? 443) then [] else str ":" ++ dec (s_http_port s))) /\
    (s_use_post s = false -> v_body v = []) /\
    (s_use_post s = true -> json_of (v_body v) = Some (JObj (
       (str "timestamp", JStr (iso e (tv_sec (t_ts t)))) :: (str "seconds", JStr (seconds_text (t_ts t))) ::
       (str "notif", JStr (reason_text w)) :: map (fun g => (fst g, json_value (snd g))) gs))).
Proof.
  intros own e now0 c evs past st now k t gs o st' w r ps O P Pt T TT R S C s address U K Sep I N1 N2 H A NE Z0 Q J.
  destruct (c17_request _ _ _ _ _ _ _ _ _ _ _ _ _ _ _ P Pt T TT R S C U K Sep I N1 N2) as (E & G & B).
  fold s in G, B. fold address in E.
  destruct (c19 _ _ _ _ _ _ _ _ _ _ _ P Pt R S) as [_ X]. destruct (X w r I) as (_ & HH & HP & _). fold s in HH, HP.
  assert (HH' : r_host r = s_http_host s) by (rewrite HH; destruct w; (reflexivity || congruence)).
  assert (HP' : r_port r = s_http_port s) by (rewrite HP; destruct w; (reflexivity || congruence)).
  eexists. split; [apply message_read; [exact O|rewrite HH'; now apply word_line|now rewrite E]|]. cbn [v_method v_target v_headers v_body].
  split; [unfold target_of; rewrite E; destruct address; [congruence|reflexivity]|].
  split; [|split; [|split]].
  - unfold method_of. destruct (s_use_post s); [destruct (B eq_refl) as (b & -> & _)|rewrite G by reflexivity]; reflexivity.
  - unfold all_headers, header_value. cbn [find fst]. change (beq (map tolower (str "Host")) (str "host")) with true. cbv iota. cbn [snd].
    unfold host_text. now rewrite HH', HP'.
  - intros F. unfold data_of. now rewrite G.
  - intros F. destruct (B F) as (b & D & W). unfold data_of. rewrite D. now apply W.
Qed.

(** The factory address. *)
Definition factory_pieces : list piece :=
  map Char (str "/json.htm?type=command&param=udevice&idx=1&nvalue=0&svalue=") ++
  [ByDollar (str "HCHP"); Char 59; ByDollar (str "HCHC")] ++ map Char (str ";0;0;") ++ [ByDollar (str "PAPP")] ++ map Char (str ";0").
Definition domoticz (gs : list group) : list Z :=
  let number label := match lookup label gs with Some v => trim_number v | None => [] end in
  number (str "HCHP") ++ str ";" ++ number (str "HCHC") ++ str ";0;0;" ++ number (str "PAPP") ++ str ";0".
Lemma factory_written : concat (map written factory_pieces) =
  str "/json.htm?type=command&param=udevice&idx=1&nvalue=0&svalue=$HCHP;$HCHC;0;0;$PAPP;0".
Proof. reflexivity. Qed.
Ltac piece_chars := match goal with |- Forall _ ?l => change (Forall (fun c => c <> 0 /\ c <> 126 /\ c <> 36) l) end; chars.
Lemma factory_ok : Forall piece_ok factory_pieces /\ separated factory_pieces.
Proof.
  split.
  - unfold factory_pieces. apply Forall_app. split; [apply Forall_map; piece_chars|]. apply Forall_app. split.
    { constructor; [split; [cbn; lia|reflexivity]|]. constructor; [cbn; lia|]. constructor; [split; [cbn; lia|reflexivity]|constructor]. }
    apply Forall_app. split; [apply Forall_map; piece_chars|]. constructor; [split; [cbn; lia|reflexivity]|]. apply Forall_map; piece_chars.
  - cbn. repeat split; right; eexists; eexists; (split; [reflexivity|reflexivity]).
Qed.
Lemma meaning_chars : forall e ts gs w l, concat (map (meaning e ts gs w) (map Char l)) = l.
Proof. induction l as [|c l IH]; [reflexivity|]. cbn [map concat meaning app]. now rewrite IH. Qed.
Lemma factory_meaning : forall e ts gs w, concat (map (meaning e ts gs w) factory_pieces) =
  str "/json.htm" ++ 63 :: as_field (str "type", str "command") ++
  ands [(str "param", str "udevice"); (str "idx", str "1"); (str "nvalue", str "0"); (str "svalue", domoticz gs)].
Proof.
  intros e ts gs w. unfold factory_pieces. rewrite !map_app, !concat_app, !meaning_chars. cbn [map concat meaning].
  change (label_text e ts gs w (str "HCHP")) with (match lookup (str "HCHP") gs with Some v => trim_number v | None => [] end).
  change (label_text e ts gs w (str "HCHC")) with (match lookup (str "HCHC") gs with Some v => trim_number v | None => [] end).
  change (label_text e ts gs w (str "PAPP")) with (match lookup (str "PAPP") gs with Some v => trim_number v | None => [] end).
  unfold as_field, domoticz. cbn [fst snd ands]. unfold as_field. cbn [fst snd]. cbv zeta.
  repeat (cbn [str app]; rewrite <- ?app_assoc). rewrite ?app_nil_r. reflexivity.
Qed.
Lemma lookup_in : forall label gs v, lookup label gs = Some v -> exists n, In (n, v) gs.
Proof.
  induction gs as [|[n x] gs IH]; intros v H; [discriminate|]. cbn [lookup] in H. destruct (beq n label).
  - exists n. left. congruence.
  - destruct (IH v H) as (m & I). exists m. now right.
Qed.
Lemma plain_number : forall label gs, Forall (fun g => unreserved (fst g) /\ unreserved (snd g)) gs ->
  unreserved (match lookup label gs with Some v => trim_number v | None => [] end).
Proof.
  intros label gs H. destruct (lookup label gs) as [v|] eqn:E; [|constructor]. apply lookup_in in E. destruct E as (n & I).
  rewrite Forall_forall in H. apply Forall_trim. exact (proj2 (H _ I)).
Qed.
Lemma plain_domoticz : forall gs, Forall (fun g => unreserved (fst g) /\ unreserved (snd g)) gs -> unreserved (domoticz gs).
Proof.
  intros gs H. unfold domoticz. cbv zeta. repeat (apply plain_app; split); try (now apply plain_number); chars.
Qed.
Lemma c95_factory : forall own e now0 c evs past st now k t gs o st' w r, Forall plain_header own ->
  frames_published evs -> published_ti t ->
  terminated c -> Forall (fun ev => match ev with Configure _ c' => terminated c' | _ => True end) evs ->
  tic_run e evs (tic_start now0 c) = Some (past, st) -> tic_step e (Frame now k t) st = Some (o, st') ->
  carries t gs ->
  let s := settings_after (view c) evs in
  let number label := match lookup label gs with Some v => trim_number v | None => [] end in
  s_http_url s = s_http_url (factory 0) ->
  In (Request w r) o -> w <> JEEDOM -> w <> EMONCMS -> one_word (s_http_host s) ->
  Forall (fun g => unreserved (fst g) /\ unreserved (snd g)) gs ->
  exists v, read_request (sent_bytes own r) = Some v /\ path_of (v_target v) = str "/json.htm" /\
    fields_of (v_target v) = [(str "type", str "command"); (str "param", str "udevice"); (str "idx", str "1"); (str "nvalue", str "0");
      (str "svalue", number (str "HCHP") ++ str ";" ++ number (str "HCHC") ++ str ";0;0;" ++ number (str "PAPP") ++ str ";0")].
Proof.
  intros own e now0 c evs past st now k t gs o st' w r O P Pt T TT R S C s number U I N1 N2 H G.
  assert (U' : s_http_url s = concat (map written factory_pieces)) by (rewrite U, factory_written; reflexivity).
  destruct (c17_request _ _ _ _ _ _ _ _ _ _ _ _ _ _ _ P Pt T TT R S C U' (proj1 factory_ok) (proj2 factory_ok) I N1 N2) as (E & _).
  destruct (c19 _ _ _ _ _ _ _ _ _ _ _ P Pt R S) as [_ X]. destruct (X w r I) as (_ & HH & _). fold s in HH.
  assert (HH' : r_host r = s_http_host s) by (rewrite HH; destruct w; (reflexivity || congruence)).
  rewrite factory_meaning in E.
  destruct (address_read (str "/json.htm") (str "type", str "command")
    [(str "param", str "udevice"); (str "idx", str "1"); (str "nvalue", str "0"); (str "svalue", domoticz gs)]) as (W & Y & F).
  { chars. }
  { constructor; [split; chars|]. constructor; [split; chars|]. constructor; [split; chars|]. constructor; [split; chars|].
    constructor; [split; [chars|now apply plain_domoticz]|constructor]. }
  eexists. split; [apply message_read; [exact O|rewrite HH'; now apply word_line|now rewrite E]|]. cbn [v_target].
  rewrite (target_some _ _ _ E). split; [exact Y|exact F].
Qed.
