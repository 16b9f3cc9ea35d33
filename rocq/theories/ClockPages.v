(** The pages with the local time. *)
From Coq Require Import ZArith List Bool Lia.
From Verif Require Import Base Teleinfo Publish TeleinfoSpec HistorySpec Config JsonBuild Json Tic TicSpec Sse SseSpec SseFrame SseProofs
  Cpu Web WebSpec Wifi WifiSpec PagesSpec Pages Device DeviceMain DeviceFinal DevicePages Clock ClockSpec ClockProofs ClockMain.
Import ListNotations.
Open Scope Z_scope.

Lemma clock_says : forall chip t, 0 <= t < last_instant -> exists o, says (iso (clock_env chip) t) o t /\
  (summer t -> o = 2) /\ (~ summer t -> o = 1).
Proof.
  intros chip t H. destruct (c79 t H) as (text & o & E & _ & S & O). exists o. unfold clock_env. cbn [iso]. rewrite E. auto.
Qed.
Lemma c79_json : forall fuel sgn b d0 acts es d os a q chip, start_ok b -> boot b = Some (d0, acts) ->
  Forall is_byte (map snd (heard false es)) -> drun fuel sgn es d0 = Done (d, os) ->
  ~ refused q d -> q_uri q = str "/json" -> a_env a = clock_env chip ->
  exists r, last_valid (heard false es) r /\
    match r with
    | None => handle fuel a q d = Done (d, [Reply 200 Json (str "{}")])
    | Some (t0, bodies) => 0 <= tv_sec t0 < last_instant -> Forall json_ready (pairs_of (content bodies)) ->
        exists body text o, handle fuel a q d = Done (d, [Reply 200 Json body]) /\
          json_of body = Some (JObj ((str "timestamp", JStr text) :: (str "seconds", JStr (seconds_text t0)) ::
            map (fun g => (fst g, json_value (snd g))) (pairs_of (content bodies)))) /\
          says text o (tv_sec t0) /\ (summer (tv_sec t0) -> o = 2) /\ (~ summer (tv_sec t0) -> o = 1)
    end.
Proof.
  intros fuel sgn b d0 acts es d os a q chip B B0 H R F U E.
  destruct (c56_json fuel sgn b d0 acts es d os a q B B0 H R F U) as (r & L & C). exists r. split; [exact L|].
  destruct r as [[t0 bodies]|]; [|exact C]. intros T J. rewrite E in C.
  destruct (clock_says chip _ T) as (o & S & O). destruct C as (body & C1 & C2); [|exact J|].
  - apply plain_quotable. eapply says_plain. exact S.
  - exists body, (iso (clock_env chip) (tv_sec t0)), o. auto.
Qed.
Lemma c79_broadcast : forall chip t d, published_ti t -> 0 <= tv_sec (t_ts t) < last_instant ->
  tic_get_json_dict (clock_env chip) t = Some d -> Forall (fun c => c <> 10 /\ c <> 13) d.
Proof.
  intros chip t d P T H. destruct (clock_says chip _ T) as (o & S & _). apply (c38 _ _ _ P) in H; [exact H|].
  apply plain_one_line. eapply says_plain. exact S.
Qed.
