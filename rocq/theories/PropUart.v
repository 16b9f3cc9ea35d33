(** Property theorems C96: what a slow service or a slow page can do to the readings (src/main.cpp loop, src/tic.cpp, src/httpreq.cpp). *)
From Coq Require Import ZArith List Bool Lia.
From Verif Require Import Base BaseFacts Teleinfo TeleinfoSpec Publish HistorySpec DecoderProofs Samples SamplesFacts Uart UartSpec UartProofs UartMain UartSamples.
Import ListNotations.
Open Scope Z_scope.

(** C96. The meter sends frames without end; the module starts to listen at any moment ([before] is not heard), and the turns of
    its loop last any time: the characters that come meanwhile wait in a buffer of 255, whose oldest are dropped. If characters
    are dropped only while the notification server, Jeedom, emoncms or the open pages are waited for after a frame, however long
    they take, everything the module shows is a frame sent by the meter. *)
Theorem C96_services : forall sgn g1 g2 fs before after ts, length g1 = 350%nat -> length g2 = 350%nat -> Forall valid_frame fs ->
  concat (map frame_bytes fs) = before ++ sent ts ++ after ->
  exists still p xs, loop_run sgn ts [] (pub_init g1 g2) = Some (still, p, xs) /\
    (times_lost_elsewhere xs = 0%nat -> forall t, In t (texts xs) -> exists f, In f fs /\ t = content f).
Proof. exact c96_services. Qed.
Print Assumptions C96_services.
(** A service takes the time of 280 characters after the first frame (2.3 s): 25 characters are lost, the second frame is not
    shown, the others are. *)
Example C96_services_case : Forall valid_frame four /\ concat (map frame_bytes four) = [] ++ sent slow_service ++ [] /\
  outcome_of slow_service = Some ([content f1; content f3; content f3], Z.to_nat 25, 0%nat).
Proof.
  split; [repeat (constructor; [apply valid_frameb_spec; vm_compute; reflexivity|]); constructor|]. split; vm_compute; reflexivity.
Qed.

(** The text shown is the last of these texts. *)
Theorem C96_shown : forall sgn ts q p q' p' xs, loop_run sgn ts q p = Some (q', p', xs) -> published p' = last (texts xs) (published p).
Proof. exact c96_shown. Qed.
Print Assumptions C96_shown.
Example C96_shown_case : exists q p xs, loop_run false slow_service [] (pub_init blank blank) = Some (q, p, xs) /\ published p = content f3.
Proof. do 3 eexists. split; [vm_compute; reflexivity|]. vm_compute. reflexivity. Qed.

(** Whatever the reason of the losses: there is at most one wrong text for each loss that does not follow a frame. The
    characters read are pieces of those sent, which leave out those dropped; a frame read in one piece is shown; and a text shown
    is made of groups that were sent, or that are cut by a loss. Missing: a wrong text can be shown (see the refutations). *)
Theorem C96_losses_partial : forall sgn g1 g2 fs before after ts, length g1 = 350%nat -> length g2 = 350%nat -> Forall valid_frame fs ->
  concat (map frame_bytes fs) = before ++ sent ts ++ after ->
  exists still p xs, loop_run sgn ts [] (pub_init g1 g2) = Some (still, p, xs) /\
    (length (strangers fs (texts xs)) <= times_lost_elsewhere xs)%nat /\
    exists ks pending, before ++ sent ts = sent_of ks (pending ++ still) /\ bytes_read xs = got_of ks /\
      before ++ lost xs = concat (map fst ks) ++ pending /\ Forall (fun k => fst k <> [] /\ snd k <> []) (tl ks) /\
      (forall lo u f v, In (lo, u ++ frame_bytes f ++ v) ks -> valid_frame f -> In (content f) (texts xs)) /\
      (forall t, In t (texts xs) ->
         exists bodies, valid_frame bodies /\ t = content bodies /\ Forall (fun b => In b (concat fs) \/ cut_group ks b) bodies).
Proof. exact c96_all. Qed.
Print Assumptions C96_losses_partial.
(** A page takes the time of 300 characters when 50 characters have been read: 45 characters are lost, the frame is refused, the
    three that follow are shown. *)
Example C96_losses_case : concat (map frame_bytes four) = [] ++ sent (slow_page 50 300) ++ [] /\
  outcome_of (slow_page 50 300) = Some ([content f2; content f3; content f3], Z.to_nat 45, 1%nat).
Proof. split; vm_compute; reflexivity. Qed.

(** When over any n turns in succession at most 253 + n characters come, none is dropped; every frame is then shown, in order. *)
Theorem C96_no_loss : forall sgn g1 g2 fs ts, length g1 = 350%nat -> length g2 = 350%nat -> Forall valid_frame fs ->
  concat (map frame_bytes fs) = sent ts ->
  (forall ts1 mid ts2, ts = ts1 ++ mid ++ ts2 -> (length (sent mid) <= 253 + length mid)%nat) ->
  exists still p xs, loop_run sgn ts [] (pub_init g1 g2) = Some (still, p, xs) /\ lost xs = [] /\
    (still = [] -> texts xs = map content fs).
Proof. exact c96_quiet. Qed.
Print Assumptions C96_no_loss.
(** A service takes the time of 200 characters (1.7 s). *)
Example C96_no_loss_case : concat (map frame_bytes four) = sent patient /\
  (forall ts1 mid ts2, patient = ts1 ++ mid ++ ts2 -> (length (sent mid) <= 253 + length mid)%nat) /\
  outcome_of patient = Some (map content four, 0%nat, 0%nat).
Proof.
  split; [vm_compute; reflexivity|]. split; [apply patient_room|vm_compute; reflexivity].
Qed.

(** A slow page can mix two frames: the current of the first with the power of the second (402 characters, 3.4 s). *)
Theorem C96_mixture_refuted : exists ts t, concat (map frame_bytes four) = sent ts /\
  outcome_of ts = Some ([t; content f3; content f3], 147%nat, 1%nat) /\
  lookup (str "IINST") (pairs_of t) = Some (str "002") /\ lookup (str "PAPP") (pairs_of t) = Some (str "07000") /\
  map (fun f => (lookup (str "IINST") (pairs_of (content f)), lookup (str "PAPP") (pairs_of (content f)))) four =
    [(Some (str "002"), Some (str "00500")); (Some (str "030"), Some (str "07000"));
     (Some (str "031"), Some (str "07100")); (Some (str "031"), Some (str "07100"))].
Proof.
  exists (slow_page 113 402), (content (firstn 7 f1 ++ skipn 7 f2)). split; [vm_compute; reflexivity|]. split; [vm_compute; reflexivity|].
  split; [vm_compute; reflexivity|]. split; vm_compute; reflexivity.
Qed.
Print Assumptions C96_mixture_refuted.
(** A slow page can make the module show an index that was never sent: two halves of groups, whose checksum is right by chance
    (273 characters, 2.3 s). *)
Theorem C96_value_refuted : exists ts t, concat (map frame_bytes four) = sent ts /\
  outcome_of ts = Some (t :: map content [f2; f3; f3], 18%nat, 1%nat) /\
  lookup (str "HCHC") (pairs_of t) = Some (str "008602030") /\ lookup (str "HCHP") (pairs_of t) = None /\
  Forall (fun f => lookup (str "HCHC") (pairs_of (content f)) = Some (str "008612345")) four.
Proof.
  exists (slow_page 61 273), (content (firstn 3 f1 ++ [str "HCHC 008602030 " ++ [checksum (str "HCHP 000102030")]] ++ skipn 5 f1)).
  split; [vm_compute; reflexivity|]. split; [vm_compute; reflexivity|]. split; [vm_compute; reflexivity|]. split; [vm_compute; reflexivity|].
  repeat (constructor; [vm_compute; reflexivity|]). constructor.
Qed.
Print Assumptions C96_value_refuted.
