(** Concrete runs of the loop with lost characters. *)
From Coq Require Import ZArith List Bool Lia.
From Verif Require Import Base Teleinfo TeleinfoSpec Publish HistorySpec Samples Uart UartSpec.
Import ListNotations.
Open Scope Z_scope.

(** Turns of loop: each character is read as it comes; a wait for a page; a wait for a service; turns during which nothing
    comes. *)
Definition quick (l : list Z) : list turn := map (fun c => mk_turn [c] now0 []) l.
Definition page (l : list Z) : list turn := [mk_turn l now0 []].
Definition service (c : Z) (l : list Z) : list turn := [mk_turn [c] now0 l].
Definition catch_up (n : nat) : list turn := repeat (mk_turn [] now0 []) n.

Definition groups_of (hchc hchp iinst papp : list Z) : list (list Z) :=
  map (enc_group 32) [(str "ADCO", str "111111111111"); (str "OPTARIF", str "HC.."); (str "ISOUSC", str "30"); (str "HCHC", hchc); (str "HCHP", hchp);
    (str "PTEC", str "HP.."); (str "IINST", iinst); (str "PAPP", papp); (str "MOTDETAT", str "000000")].
Definition f1 := groups_of (str "008612345") (str "000102030") (str "002") (str "00500").
Definition f2 := groups_of (str "008612345") (str "000102035") (str "030") (str "07000").
Definition f3 := groups_of (str "008612345") (str "000102041") (str "031") (str "07100").
Definition four : list (list (list Z)) := [f1; f2; f3; f3].
Definition line : list Z := concat (map frame_bytes four).

(** A service takes the time of 280 characters after the first frame. *)
Definition slow_service : list turn :=
  let n := (length (frame_bytes f1) - 1)%nat in
  quick (firstn n line) ++ service 3 (firstn 280 (skipn (n + 1) line)) ++ catch_up 255 ++ quick (skipn (n + 281) line).
(** A page takes the time of [long] characters when [from] characters have been read. *)
Definition slow_page (from long : nat) : list turn :=
  quick (firstn from line) ++ page (firstn long (skipn from line)) ++ catch_up 255 ++ quick (skipn (from + long) line).
Definition outcome_of (ts : list turn) : option (list (list Z) * nat * nat) :=
  match loop_run false ts [] (pub_init blank blank) with
  | Some (_, _, xs) => Some (texts xs, length (lost xs), times_lost_elsewhere xs)
  | None => None
  end.
(** Characters wait, but never too many: a service takes the time of 200 characters after each frame. *)
Definition patient : list turn :=
  let n := (length (frame_bytes f1) - 1)%nat in
  quick (firstn n line) ++ service 3 (firstn 200 (skipn (n + 1) line)) ++ quick (skipn (n + 201) line) ++ catch_up 200.
(** The condition of C96 on any turns in succession, as a test. *)
Fixpoint excess (worst now : Z) (ts : list turn) : Z :=
  match ts with
  | [] => worst
  | t :: r => let n := Z.max 0 now + Z.of_nat (length (t_before t ++ t_during t)) - 1 in excess (Z.max worst n) n r
  end.
Lemma excess_worst : forall ts worst now, worst <= excess worst now ts.
Proof. induction ts as [|t ts IH]; intros; cbn [excess]; [lia|]. etransitivity; [|apply IH]. lia. Qed.
Lemma excess_prefix : forall mid ts2 worst now, excess worst now (mid ++ ts2) <= 253 -> mid <> [] ->
  Z.max 0 now + Z.of_nat (length (sent mid)) - Z.of_nat (length mid) <= 253.
Proof.
  induction mid as [|t mid IH]; intros ts2 worst now H N; [congruence|]. cbn [app excess] in H.
  assert (L : length (sent (t :: mid)) = (length (t_before t ++ t_during t) + length (sent mid))%nat) by (unfold sent; cbn [map concat]; apply app_length).
  rewrite L. cbn [length]. destruct mid as [|t2 mid].
  - unfold sent. cbn [map concat length]. pose proof (excess_worst ts2 (Z.max worst (Z.max 0 now + Z.of_nat (length (t_before t ++ t_during t)) - 1)) (Z.max 0 now + Z.of_nat (length (t_before t ++ t_during t)) - 1)).
    cbn [app] in H. lia.
  - apply IH in H; [|discriminate]. cbn [length] in *. lia.
Qed.
Lemma excess_all : forall ts1 mid ts2 worst now, excess worst now (ts1 ++ mid ++ ts2) <= 253 -> (length (sent mid) <= 253 + length mid)%nat.
Proof.
  induction ts1 as [|t ts1 IH]; intros mid ts2 worst now H.
  - destruct mid as [|t mid]; [apply Nat.le_0_l|]. apply (excess_prefix (t :: mid) ts2) in H; [lia|discriminate].
  - cbn [app excess] in H. apply (IH _ _ _ _ H).
Qed.
Lemma patient_room : forall ts1 mid ts2, patient = ts1 ++ mid ++ ts2 -> (length (sent mid) <= 253 + length mid)%nat.
Proof.
  intros ts1 mid ts2 E. apply (excess_all ts1 mid ts2 0 0). rewrite <- E. vm_compute. discriminate.
Qed.
