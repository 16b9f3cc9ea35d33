(** Proofs for C117. *)
From Coq Require Import ZArith List Bool Lia.
From Verif Require Import Base BaseFacts Publish Config Tic Pages Sse Cpu Web DevicePages Proxy ProxySpec.
Import ListNotations.
Open Scope Z_scope.

Lemma longest_keeps : forall uri ls b, exists b', fold_left (longest uri) ls (Some b) = Some b' /\ (b' = b \/ In b' ls /\ has_prefix (fst b') uri = true) /\
  (length (fst b) <= length (fst b'))%nat /\ forall l, In l ls -> has_prefix (fst l) uri = true -> (length (fst l) <= length (fst b'))%nat.
Proof.
  intros uri. induction ls as [|l ls IH]; intros b; cbn [fold_left].
  - exists b. split; [reflexivity|]. split; [left; reflexivity|]. split; [lia|]. intros l [].
  - unfold longest at 2. destruct (has_prefix (fst l) uri) eqn:P.
    + destruct (Nat.leb (length (fst b)) (length (fst l))) eqn:L.
      * apply Nat.leb_le in L. destruct (IH l) as (b' & E & C & G & A). exists b'. split; [exact E|].
        split; [right; destruct C as [->|[I Q]]; [split; [left; reflexivity|exact P]|split; [right; exact I|exact Q]]|].
        split; [lia|]. intros x [<-|I] Q; [lia|apply A; assumption].
      * apply Nat.leb_gt in L. destruct (IH b) as (b' & E & C & G & A). exists b'. split; [exact E|].
        split; [destruct C as [->|[I Q]]; [left; reflexivity|right; split; [right; exact I|exact Q]]|].
        split; [exact G|]. intros x [<-|I] Q; [lia|apply A; assumption].
    + destruct (IH b) as (b' & E & C & G & A). exists b'. split; [exact E|].
      split; [destruct C as [->|[I Q]]; [left; reflexivity|right; split; [right; exact I|exact Q]]|].
      split; [exact G|]. intros x [<-|I] Q; [congruence|apply A; assumption].
Qed.
Lemma slash_first : forall uri, starts_with (str "/") uri -> fold_left (longest uri) locations None = fold_left (longest uri) (tl locations) (Some (str "/", Files)).
Proof.
  intros uri S. apply has_prefix_iff in S. unfold locations. cbn [fold_left tl]. unfold longest at 13. cbn [fst]. rewrite S. reflexivity.
Qed.
Lemma module_locations : forall l, In l (tl locations) <-> In (fst l) known /\ snd l = Module.
Proof.
  intros [p t]. cbn [fst snd]. split.
  - intros I. cbn [locations tl In] in I. unfold known. cbn [map In].
    repeat (destruct I as [I|I]; [injection I as <- <-; split; [tauto|reflexivity]|]). destruct I.
  - intros [I ->]. unfold known in I. cbn [map In] in I. cbn [locations tl In].
    repeat (destruct I as [<-|I]; [tauto|]). destruct I.
Qed.
Lemma known_long : forall p, In p known -> (2 <= length p)%nat /\ starts_with (str "/") p /\ ~ starts_with p (str "/50x.html").
Proof.
  intros p I. unfold known in I. cbn [map In] in I.
  repeat (destruct I as [<-|I]; [split; [cbn; lia|split; [eexists; reflexivity|intros (r & E); cbn in E; discriminate]]|]). destruct I.
Qed.
Lemma starts_trans : forall a b c, starts_with a b -> starts_with b c -> starts_with a c.
Proof. intros a b c (x & ->) (y & ->). exists (x ++ y). rewrite app_assoc. reflexivity. Qed.
Lemma chosen_module : forall uri, for_module uri -> choose uri = Some Module.
Proof.
  intros uri (p & K & S). destruct (known_long p K) as (L & SL & N5). unfold choose.
  destruct (beq uri (str "/50x.html")) eqn:B; [apply beq_eq in B; subst uri; contradiction|].
  rewrite (slash_first uri (starts_trans _ _ _ SL S)).
  destruct (longest_keeps uri (tl locations) (str "/", Files)) as (b' & -> & C & _ & A).
  assert (X : In (p, Module) (tl locations)) by (apply module_locations; auto).
  apply has_prefix_iff in S. specialize (A _ X S). cbn [fst] in A.
  destruct C as [->|[I _]]; [cbn in A; lia|]. apply module_locations in I. cbn [option_map]. f_equal. apply I.
Qed.
Lemma chosen_files : forall uri, starts_with (str "/") uri -> ~ for_module uri -> choose uri = Some Files.
Proof.
  intros uri S N. unfold choose. destruct (beq uri (str "/50x.html")); [reflexivity|]. rewrite (slash_first uri S).
  destruct (longest_keeps uri (tl locations) (str "/", Files)) as (b' & -> & C & _ & A). destruct C as [->|[I P]]; [reflexivity|].
  exfalso. apply N. apply module_locations in I. exists (fst b'). split; [apply I|]. apply has_prefix_iff. exact P.
Qed.
Lemma c117_module : forall fuel files a q d, for_module (q_uri q) -> proxy fuel files a q d = FromModule (handle fuel a q d).
Proof. intros. unfold proxy. rewrite chosen_module by assumption. reflexivity. Qed.
Lemma c117_page : forall fuel files a q d, In (q_uri q) asked_by_page -> proxy fuel files a q d = FromModule (handle fuel a q d).
Proof.
  intros fuel files a q d I. apply c117_module. unfold asked_by_page in I. cbn [map In] in I. unfold for_module.
  exists (q_uri q). split; [|exists []; rewrite app_nil_r; reflexivity]. unfold known. cbn [map In].
  repeat (destruct I as [<-|I]; [tauto|]). destruct I.
Qed.
Lemma c117_others : forall fuel files a q d, starts_with (str "/") (q_uri q) -> ~ for_module (q_uri q) ->
  (q_method q = GET -> last (q_uri q) 0 <> 47 -> proxy fuel files a q d = match files (q_uri q) with Some c => File c | None => Error 404 end) /\
  (q_method q = GET -> last (q_uri q) 0 = 47 -> proxy fuel files a q d = match files (q_uri q ++ str "index.html") with Some c => File c | None => Error 404 end) /\
  (q_method q <> GET -> proxy fuel files a q d = Error 405).
Proof.
  intros fuel files a q d S N. unfold proxy. rewrite chosen_files by assumption. unfold file_reply. split; [|split].
  - intros -> L. apply Z.eqb_neq in L. rewrite L. reflexivity.
  - intros -> L. apply Z.eqb_eq in L. rewrite L. reflexivity.
  - destruct (q_method q); congruence.
Qed.
Lemma site_not_module : forall uri, of_site uri -> starts_with (str "/") uri /\ ~ for_module uri.
Proof.
  intros uri (p & I & r & ->). cbn [map In] in I. split.
  - repeat (destruct I as [<-|I]; [eexists; reflexivity|]). destruct I.
  - intros (k & K & s & E). unfold known in K. cbn [map In] in K.
    repeat (destruct I as [<-|I]; [repeat (destruct K as [<-|K]; [cbn in E; discriminate|]); destruct K|]). destruct I.
Qed.
Lemma c117_site : forall fuel files a q d c, of_site (q_uri q) -> q_method q = GET -> last (q_uri q) 0 <> 47 -> files (q_uri q) = Some c ->
  proxy fuel files a q d = File c.
Proof.
  intros fuel files a q d c S G L F. destruct (site_not_module _ S) as [A B]. destruct (c117_others fuel files a q d A B) as (X & _ & _). rewrite (X G L), F. reflexivity.
Qed.
