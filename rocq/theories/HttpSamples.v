(** Concrete requests for the examples and counter-examples of C95. *)
From Coq Require Import ZArith List Bool Lia.
From Verif Require Import Base BaseFacts Teleinfo TeleinfoSpec Config ConfigSpec Tic TicSpec TicSamples Http HttpSpec HttpProofs.
Import ListNotations.
Open Scope Z_scope.

Definition own0 : list header :=
  [ (str "User-Agent", str "ESP8266HTTPClient"); (str "Accept-Encoding", str "identity;q=1,chunked;q=0.1,*;q=0"); (str "Connection", str "close") ].
Lemma own0_plain : Forall plain_header own0.
Proof.
  repeat (apply Forall_cons; [split; [discriminate|split; [chars|split; [chars|discriminate]]]|]). constructor.
Qed.

(** What the servers read of the requests of a history: reason, path and fields; [None] for a refused request. *)
Definition served (o : list effect) : list (reason * option (list Z * list (list Z * list Z))) :=
  flat_map (fun x => match x with
    | Request w r => [(w, match read_request (sent_bytes own0 r) with Some v => Some (path_of (v_target v), fields_of (v_target v)) | None => None end)]
    | SseData _ => []
    end) o.
Definition seen (c : cfg) (t : teleinfo) : option (list (reason * option (list Z * list (list Z * list Z)))) :=
  outcome (fun os => served (concat os)) (tic_run env0 [Frame 300000 0 t] (tic_start 0 c)).

(** Only Jeedom, or only notifications (every minute, by GET). *)
Definition jeedom_only (url key : String.string) (port : Z) : cfg :=
  text_field JHost "jeedom" (text_field JUrl url (text_field JKey key (set JPort (le16 port) (set JFreq (le32 300) zeroed)))).
Definition notify_only (url : String.string) : cfg :=
  text_field HHost "10.0.0.2" (text_field HUrl url (set HPort (le16 8080) (set HFreq (le32 60) zeroed))).
Arguments jeedom_only _%string_scope _%string_scope _.
Arguments notify_only _%string_scope.

Definition tempo : teleinfo := shown (frame_of [(str "OPTARIF", str "BBR&"); (str "PTEC", str "HPJB"); (str "PAPP", str "00100")]).
Definition two_rates : teleinfo :=
  shown (frame_of [(str "HCHC", str "000123456"); (str "HCHP", str "000200000"); (str "PAPP", str "00100")]).
