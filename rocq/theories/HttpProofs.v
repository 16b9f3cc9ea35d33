(** Proofs for C95. *)
From Coq Require Import ZArith List Bool Lia.
From Verif Require Import Base BaseFacts JsonBuildFacts Tic TicSpec Http HttpSpec.
From Verif Require FormMain.
Import ListNotations.
Open Scope Z_scope.

Ltac chars := let I := fresh in apply Forall_forall; intros ? I; cbv in I; repeat (destruct I as [<-|I]; [lia|]); destruct I.
Definition on_line (l : list Z) : Prop := Forall (fun c => c <> 13 /\ c <> 10) l.
Lemma word_line : forall l, one_word l -> on_line l.
Proof. intros l H. eapply Forall_impl; [|exact H]. cbn. intros; lia. Qed.
Lemma plain_word : forall l, unreserved l -> one_word l.
Proof. intros l H. eapply Forall_impl; [|exact H]. cbn. intros; lia. Qed.

Lemma next_line_app : forall x r, on_line x -> next_line (x ++ eol ++ r) = Some (x, r).
Proof.
  induction x as [|c x IH]; intros r H; [reflexivity|]. inversion H as [|? ? [A B] H']; subst. cbn [app next_line].
  destruct (c =? 13) eqn:E; [lia|]. destruct (c =? 10) eqn:E2; [lia|]. now rewrite IH.
Qed.
Lemma head_lines_app : forall ls fuel r, Forall (fun x => on_line x /\ x <> []) ls -> (length ls < fuel)%nat ->
  head_lines fuel (concat (map (fun x => x ++ eol) ls) ++ eol ++ r) = Some (ls, r).
Proof.
  induction ls as [|x ls IH]; intros fuel r H L; (destruct fuel as [|fuel]; [cbn in L; lia|]).
  - reflexivity.
  - inversion H as [|? ? [A B] H']; subst. cbn [map concat head_lines]. rewrite <- !app_assoc. rewrite next_line_app by assumption.
    destruct x as [|c x]; [congruence|]. rewrite IH; [reflexivity|assumption|cbn [length] in L; lia].
Qed.

Lemma parts_app : forall c a b, Forall (fun x => x <> c) a -> parts c (a ++ c :: b) = a :: parts c b.
Proof.
  induction a as [|x a IH]; intros b H; cbn [app parts].
  - now rewrite Z.eqb_refl.
  - inversion H; subst. destruct (x =? c) eqn:E; [lia|]. now rewrite IH.
Qed.
Lemma parts_one : forall c a, Forall (fun x => x <> c) a -> parts c a = [a].
Proof. induction a as [|x a IH]; intros H; [reflexivity|]. inversion H; subst. cbn [parts]. destruct (x =? c) eqn:E; [lia|]. now rewrite IH. Qed.
Lemma parts_length : forall c a, (length (parts c a) >= 1)%nat.
Proof. induction a as [|x a IH]; cbn [parts]; [cbn; lia|]. destruct (x =? c); [cbn; lia|]. destruct (parts c a); cbn in *; lia. Qed.
Lemma parts_more : forall c a b, length (parts c (a ++ c :: b)) = (length (parts c a) + length (parts c b))%nat.
Proof.
  induction a as [|x a IH]; intros b; cbn [app parts].
  - rewrite Z.eqb_refl. reflexivity.
  - destruct (x =? c); [cbn [length]; rewrite IH; lia|]. pose proof (IH b) as L. pose proof (parts_length c a).
    destruct (parts c (a ++ c :: b)); destruct (parts c a); cbn [length] in *; lia.
Qed.
Lemma cut_app : forall c a b, Forall (fun x => x <> c) a -> cut_at c (a ++ c :: b) = (a, Some b).
Proof.
  induction a as [|x a IH]; intros b H; cbn [app cut_at].
  - now rewrite Z.eqb_refl.
  - inversion H; subst. destruct (x =? c) eqn:E; [lia|]. now rewrite IH.
Qed.
Lemma cut_none : forall c a, Forall (fun x => x <> c) a -> cut_at c a = (a, None).
Proof. induction a as [|x a IH]; intros H; [reflexivity|]. inversion H; subst. cbn [cut_at]. destruct (x =? c) eqn:E; [lia|]. now rewrite IH. Qed.

(** ** The message *)

Definition as_line (h : header) : list Z := fst h ++ str ": " ++ snd h.
Definition good_header (h : header) : Prop :=
  fst h <> [] /\ Forall (fun c => c <> 58 /\ c <> 13 /\ c <> 10) (fst h) /\ on_line (snd h).
Lemma good_line : forall h, good_header h -> on_line (as_line h) /\ as_line h <> [].
Proof.
  intros [n v] (A & B & C). cbn [fst snd] in *. unfold as_line. cbn [fst snd]. split.
  - apply Forall_app. split; [eapply Forall_impl; [|exact B]; cbn; intros; lia|]. apply Forall_app. split; [|exact C].
    change (str ": ") with [58; 32]. chars.
  - destruct n; [congruence|discriminate].
Qed.
Lemma good_read : forall h, good_header h -> read_header (as_line h) = Some h.
Proof.
  intros [n v] (A & B & C). unfold as_line, read_header. cbn [fst snd] in *. change (str ": " ++ v) with (58 :: 32 :: v).
  rewrite cut_app by (eapply Forall_impl; [|exact B]; cbn; intros; lia). destruct n; [congruence|reflexivity].
Qed.
Lemma good_reads : forall hs, Forall good_header hs -> read_headers (map as_line hs) = Some hs.
Proof. induction hs as [|h hs IH]; intros H; [reflexivity|]. inversion H; subst. cbn [map read_headers]. now rewrite good_read, IH. Qed.
Lemma lines_of : forall hs, concat (map header_line hs) = concat (map (fun x => x ++ eol) (map as_line hs)).
Proof.
  induction hs as [|h hs IH]; [reflexivity|]. cbn [map concat]. rewrite IH. f_equal. unfold header_line, as_line. now rewrite <- !app_assoc.
Qed.

Definition all_headers (own : list header) (r : request) : list header := (str "Host", host_text r) :: own ++ data_headers r.
Definition target_of (r : request) : list Z := match r_url r with [] => str "/" | u => u end.
Lemma digits_line : forall l, forallb isdigit l = true -> on_line l.
Proof. intros l H. apply Forall_forall. intros c I. rewrite forallb_forall in H. specialize (H c I). unfold isdigit in H. lia. Qed.
Lemma host_good : forall r, on_line (r_host r) -> on_line (host_text r).
Proof.
  intros r H. unfold host_text. apply Forall_app. split; [exact H|]. destruct (_ || _); [constructor|].
  change (str ":" ++ dec (r_port r)) with (58 :: dec (r_port r)). constructor; [lia|]. apply digits_line, dec_digits.
Qed.
Lemma data_good : forall r, Forall good_header (data_headers r).
Proof.
  intros r. unfold data_headers. destruct (r_data r) as [d|]; [|constructor]. constructor.
  - split; [discriminate|]. cbn [fst snd]. split; chars.
  - destruct d; [constructor|]. constructor; [|constructor]. split; [discriminate|]. cbn [fst snd]. split; [chars|].
    apply digits_line, dec_digits.
Qed.
Lemma all_good : forall own r, Forall plain_header own -> on_line (r_host r) -> Forall good_header (all_headers own r).
Proof.
  intros own r O H. constructor.
  - split; [discriminate|]. cbn [fst snd]. split; [chars|]. now apply host_good.
  - apply Forall_app. split; [|apply data_good]. eapply Forall_impl; [|exact O]. intros h (A & B & C & _). repeat split; assumption.
Qed.
Definition start_line (r : request) : list Z := method_of r ++ str " " ++ target_of r ++ str " HTTP/1.1".
Lemma sent_shape : forall own r, sent_bytes own r =
  concat (map (fun x => x ++ eol) (start_line r :: map as_line (all_headers own r))) ++ eol ++ data_of r.
Proof.
  intros own r. unfold sent_bytes, all_headers. rewrite lines_of. cbn [map concat]. unfold start_line, target_of.
  rewrite <- !app_assoc. reflexivity.
Qed.
Lemma method_word : forall r, one_word (method_of r).
Proof. intros r. unfold method_of. destruct (r_data r); chars. Qed.
Lemma start_good : forall r, on_line (r_url r) -> on_line (start_line r) /\ start_line r <> [].
Proof.
  intros r H. unfold start_line. split.
  - apply Forall_app. split; [apply word_line, method_word|]. apply Forall_app. split; [chars|].
    apply Forall_app. split; [|chars]. unfold target_of. destruct (r_url r) eqn:E; [chars|]. rewrite <- E in *. exact H.
  - unfold method_of. destruct (r_data r); discriminate.
Qed.
Lemma concat_long : forall (ls : list (list Z)), (length ls <= length (concat (map (fun x => x ++ eol) ls)))%nat.
Proof. induction ls as [|x ls IH]; [cbn; lia|]. cbn [map concat]. rewrite !app_length. cbn [length eol]. lia. Qed.
Lemma sent_lines : forall own r, Forall plain_header own -> on_line (r_host r) -> on_line (r_url r) ->
  head_lines (S (length (sent_bytes own r))) (sent_bytes own r) = Some (start_line r :: map as_line (all_headers own r), data_of r).
Proof.
  intros own r O H U. rewrite sent_shape. apply head_lines_app.
  - constructor; [now apply start_good|]. apply Forall_map. eapply Forall_impl; [|apply (all_good own r O H)]. apply good_line.
  - rewrite !app_length. pose proof (concat_long (start_line r :: map as_line (all_headers own r))). lia.
Qed.
Lemma no_length : forall own, Forall plain_header own ->
  header_value (str "content-length") own = None.
Proof.
  intros own O. unfold header_value. destruct (find _ own) as [h|] eqn:F; [|reflexivity]. apply find_some in F. destruct F as [I B].
  rewrite Forall_forall in O. destruct (O h I) as (_ & _ & _ & N). apply beq_eq in B. congruence.
Qed.
Lemma find_app : forall {A} (f : A -> bool) a b, find f (a ++ b) = match find f a with Some x => Some x | None => find f b end.
Proof. induction a as [|x a IH]; intros b; [reflexivity|]. cbn [app find]. destruct (f x); [reflexivity|apply IH]. Qed.
Lemma body_read : forall own r, Forall plain_header own -> read_body (all_headers own r) (data_of r) = Some (data_of r).
Proof.
  intros own r O. unfold read_body. pose proof (no_length own O) as N. unfold header_value in *.
  unfold all_headers. cbn [find fst]. change (beq (map tolower (str "Host")) (str "content-length")) with false. cbv iota.
  rewrite find_app. destruct (find _ own); [discriminate|]. unfold data_headers, data_of. destruct (r_data r) as [d|]; [|reflexivity].
  cbn [find fst]. change (beq (map tolower (str "Content-Type")) (str "content-length")) with false. cbv iota.
  destruct d as [|x d]; [reflexivity|]. cbn [find fst snd]. change (beq (map tolower (str "Content-Length")) (str "content-length")) with true.
  cbv beta iota. cbn [snd]. rewrite dec_digits. rewrite (FormMain.dec_value_dec (Z.of_nat (length (x :: d)))) by lia. cbn [andb].
  assert (E : beq (dec (Z.of_nat (length (x :: d)))) [] = false).
  { apply beq_neq. apply FormMain.dec_nonempty. lia. }
  rewrite E. cbn [negb andb]. rewrite Z.leb_refl. rewrite Nat2Z.id. now rewrite firstn_all.
Qed.
Lemma parts_start : forall r, one_word (r_url r) -> parts 32 (start_line r) = [method_of r; target_of r; str "HTTP/1.1"].
Proof.
  intros r U. unfold start_line. change (str " " ++ target_of r ++ str " HTTP/1.1") with (32 :: target_of r ++ 32 :: str "HTTP/1.1").
  rewrite parts_app by (eapply Forall_impl; [|apply method_word]; cbn; intros; lia). rewrite parts_app; [reflexivity|].
  unfold target_of. destruct (r_url r) eqn:E; [chars|]. rewrite <- E in *. eapply Forall_impl; [|exact U]. cbn; intros; lia.
Qed.
Lemma message_read : forall own r, Forall plain_header own -> on_line (r_host r) -> one_word (r_url r) ->
  read_request (sent_bytes own r) = Some (mk_received (method_of r) (target_of r) (all_headers own r) (data_of r)).
Proof.
  intros own r O H U. unfold read_request. rewrite sent_lines; [|assumption|assumption|now apply word_line].
  rewrite parts_start by assumption. rewrite good_reads by now apply all_good. rewrite body_read by assumption.
  assert (M : beq (method_of r) [] = false) by (unfold method_of; destruct (r_data r); reflexivity).
  assert (T : beq (target_of r) [] = false) by (unfold target_of; destruct (r_url r); reflexivity).
  rewrite M, T. reflexivity.
Qed.
Lemma c95_message : forall own r, Forall plain_header own -> Forall (fun c => c <> 13 /\ c <> 10) (r_host r) -> one_word (r_url r) ->
  exists v, read_request (sent_bytes own r) = Some v /\
    v_method v = (match r_data r with Some _ => str "POST" | None => str "GET" end) /\
    v_target v = (if Nat.eqb (length (r_url r)) 0 then str "/" else r_url r) /\
    header_value (str "host") (v_headers v) =
      Some (r_host r ++ (if (r_port r =? 80) || (r_port r =? 443) then [] else str ":" ++ dec (r_port r))) /\
    v_body v = (match r_data r with Some d => d | None => [] end).
Proof.
  intros own r O H U. eexists. split; [now apply message_read|]. cbn [v_method v_target v_headers v_body].
  split; [reflexivity|]. split; [unfold target_of; destruct (r_url r); reflexivity|]. split; reflexivity.
Qed.
Lemma c95_space : forall own r, Forall plain_header own -> Forall (fun c => c <> 13 /\ c <> 10) (r_host r) ->
  Forall (fun c => c <> 13 /\ c <> 10) (r_url r) -> In 32 (r_url r) -> read_request (sent_bytes own r) = None.
Proof.
  intros own r O H U I. unfold read_request. rewrite sent_lines by assumption.
  assert (L : (length (parts 32 (start_line r)) > 3)%nat).
  { apply in_split in I. destruct I as (a & b & E). unfold start_line, target_of. rewrite E.
    assert (T : (match a ++ 32 :: b with [] => str "/" | u => u end) = a ++ 32 :: b) by (destruct a; reflexivity). rewrite T.
    change (method_of r ++ str " " ++ (a ++ 32 :: b) ++ str " HTTP/1.1") with (method_of r ++ 32 :: (a ++ 32 :: b) ++ 32 :: str "HTTP/1.1").
    rewrite !parts_more. pose proof (parts_length 32 (method_of r)). pose proof (parts_length 32 a). pose proof (parts_length 32 b).
    pose proof (parts_length 32 (str "HTTP/1.1")). lia. }
  destruct (parts 32 (start_line r)) as [|x [|y [|z [|w q]]]]; cbn [length] in L; try lia; reflexivity.
Qed.
