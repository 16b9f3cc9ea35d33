(** Proofs for C113: whatever was posted before, the next image of a site is written (src/update.cpp, library Updater). *)
From Coq Require Import ZArith List Bool Lia.
From Verif Require Import Base BaseFacts Publish Config Erfs Tic Pages Web Device Flasher FlasherSpec FlasherProofs FlasherMain.
Import ListNotations.
Open Scope Z_scope.

Lemma end_idle : forall l even um, up_size (fst (fst (up_end l even um))) = 0.
Proof.
  intros l even [u m]. unfold up_end. destruct (up_size u =? 0) eqn:E; [apply Z.eqb_eq in E; exact E|].
  destruct (_ || _); reflexivity.
Qed.
Lemma closed_idle : forall l a p s, p = Ends \/ p = Aborts -> up_size (mo_upd (fst (take_part l a p s))) = 0.
Proof.
  intros l a p s [-> | ->]; unfold take_part.
  - pose proof (end_idle l true (mo_upd s, mo_flash s)) as E. destruct (up_end l true (mo_upd s, mo_flash s)) as [um2 ended].
    destruct (handle_upload a (UpEnd ended) (mo_dev s)) as [d' o]. exact E.
  - pose proof (end_idle l false (mo_upd s, mo_flash s)) as E. destruct (up_end l false (mo_upd s, mo_flash s)) as [um2 ended].
    destruct (handle_upload a (UpAborted ended) (mo_dev s)) as [d' o]. exact E.
Qed.
Lemma repaired : forall l ps b p name len a pieces a' s image, sound_layout l -> p = Ends \/ p = Aborts -> for_site name -> a_fs_size a = ly_fs_size l ->
  Forall (fun p => snd p <> [] /\ Forall is_octet (snd p)) pieces -> concat (map snd pieces) = image -> size_of image = ly_fs_size l ->
  exists s' before, take_parts l ((ps ++ [(b, p)]) ++ whole name len a pieces a') s =
      (s', before ++ UpdateBegin true (ly_fs_size l) :: map (fun p => UpdateWrite (snd p)) pieces ++ [UpdateEnd true; Reply 200 Text (str "OK")]) /\
    (forall i, 0 <= i < ly_fs_size l -> mo_flash s' (ly_fs l + i) = nth (Z.to_nat i) image 0) /\
    up_size (mo_upd s') = 0.
Proof.
  intros l ps b p name len a pieces a' s image SL P FS SZ F C L. rewrite parts_app.
  destruct (take_parts l (ps ++ [(b, p)]) s) as [s1 o1] eqn:E.
  assert (I : up_size (mo_upd s1) = 0).
  { rewrite parts_app in E. destruct (take_parts l ps s) as [s0 o0]. cbn [take_parts] in E.
    pose proof (closed_idle l b p s0 P) as X. destruct (take_part l b p s0) as [s2 o2]. inversion E; subst. exact X. }
  destruct (site_written l name len a pieces a' s1 image SL FS SZ I F C L) as (s' & T & W & _ & _ & Z0).
  rewrite T. exists s', o1. auto.
Qed.
