(** Decision procedures used by the examples of PropWatt.v. *)
From Coq Require Import ZArith List Bool Lia ZifyBool Sorted.
From Verif Require Import Base BaseFacts Teleinfo TeleinfoSpec Publish HistorySpec WattSpec WattProofs Samples SamplesFacts.
Import ListNotations.
Open Scope Z_scope.

Lemma sent_frames : forall fs, forallb (fun f => valid_frameb (snd f)) fs = true -> frames_in (concat (map sent fs)) fs.
Proof.
  intros fs H. apply (frames_in_sent fs [] []); [constructor|]. rewrite forallb_forall in H. apply Forall_forall.
  intros f Hf. apply valid_frameb_spec. auto.
Qed.

Fixpoint sortedb (l : list rframe) : bool :=
  match l with
  | [] => true
  | a :: r => forallb (fun b => (at_ms b <=? at_ms a) && (wh b <=? wh a)) r && sortedb r
  end.
Definition normalb (fs : list rframe) : bool :=
  match fs with
  | [] => false
  | f1 :: _ => negb ((tv_sec (fst f1) - 1) mod 4294967296 =? 0) && sortedb (recent fs)
      && forallb (fun a => forallb (fun b => at_ms a - at_ms b <? 4294967296) (recent fs)) (recent fs)
      && forallb (fun f => (wh f1 <=? wh f) && (wh f <? 4294967295)) fs
  end.
Lemma sortedb_spec : forall l, sortedb l = true -> StronglySorted (fun a b => at_ms b <= at_ms a /\ wh b <= wh a) l.
Proof.
  induction l; intros H; constructor; cbn [sortedb] in H; apply andb_prop in H; destruct H as [H1 H2].
  - apply IHl. auto.
  - rewrite forallb_forall in H1. apply Forall_forall. intros b Hb. apply H1 in Hb. lia.
Qed.
Lemma normalb_spec : forall fs, normalb fs = true -> normal fs.
Proof.
  intros [|f1 r] H; [discriminate|]. unfold normalb in H. unfold normal.
  apply andb_prop in H. destruct H as [H H4]. apply andb_prop in H. destruct H as [H H3]. apply andb_prop in H. destruct H as [H1 H2].
  split; [lia|]. split; [apply sortedb_spec; auto|]. split.
  - intros a b Ha Hb. rewrite forallb_forall in H3. apply H3 in Ha. rewrite forallb_forall in Ha. apply Ha in Hb. lia.
  - intros f Hf. rewrite forallb_forall in H4. apply H4 in Hf. lia.
Qed.
