(** Specification for C106: how long the texts built from the meter's data may be. *)
From Coq Require Import ZArith List Bool Lia.
From Verif Require Import Base Teleinfo Publish Config Tic Sse Cpu Web Device.
Import ListNotations.
Open Scope Z_scope.

(** A clock a C program can read: a 64-bit number of seconds, and microseconds below a million. *)
Definition readable (tv : timeval) : Prop :=
  -9223372036854775808 <= tv_sec tv < 9223372036854775808 /\ 0 <= tv_usec tv < 1000000.
(** The date fits its 32-byte buffer ("2020-05-17T10:51:41+0200" has 24 characters) and the chip id is a 32-bit number. *)
Definition dated (e : env) : Prop := (forall s, (length (iso e s) <= 31)%nat) /\ 0 <= chip_id e < 4294967296.
(** What the module meets is of this kind. *)
Definition timely (e : devent) : Prop :=
  match e with
  | DByte a _ tv _ => dated (a_env a) /\ readable tv
  | DHttp a _ => dated (a_env a)
  | _ => True
  end.

(** The three kinds of requests the module sends by itself, and the room each needs: a URL written by the user, whose
    labels are replaced by values; the URL for Jeedom; the URL for Emoncms. *)
Definition url_room (why : reason) : nat :=
  match why with
  | JEEDOM => 1158
  | EMONCMS => 783
  | _ => 150 * 345
  end.
(** The dictionary of all labels: as a page, as posted data, as an event of a stream. *)
Definition dict_room : nat := 1141.
Definition event_room : nat := dict_room + 10.
(** The table of all labels. *)
Definition table_room : nat := 3213.
Definition emoncms_room : nat := 696.

(** A request the module sends is within these limits. *)
Definition request_fits (why : reason) (r : request) : Prop :=
  (length (r_host r) <= 32)%nat /\ (length (r_url r) <= url_room why)%nat /\
  match r_data r with Some data => (length data <= dict_room)%nat | None => True end.
(** An effect of the module is within these limits. *)
Definition effect_fits (o : out) : Prop :=
  match o with
  | Sent why r => request_fits why r
  | Streaming (SentTo _ text) => (length text <= event_room)%nat
  | _ => True
  end.
Definition is_sent (o : out) : bool := match o with Sent _ _ => true | _ => false end.
Definition is_text_sent (o : out) : bool := match o with Streaming (SentTo _ _) => true | _ => false end.
Definition count {A} (f : A -> bool) (l : list A) : nat := length (filter f l).

(** Room of the pages made of the meter's data. *)
Definition page_room (uri : list Z) : option nat :=
  if beq uri (str "/json") then Some dict_room
  else if beq uri (str "/tinfo.json") then Some table_room
  else if beq uri (str "/emoncms.json") then Some emoncms_room
  else None.

(** Everything the module keeps: the two frames, the 48 consumptions, the settings and their copies, the name of the
    current period, the open streams and their objects, the ten measures of its load. *)
Definition small (d : device) : Prop :=
  length (d_frame (p_dec (d_pub d))) = 350%nat /\ length (t_frame (ti_of d)) = 350%nat /\ length (t_consos (ti_of d)) = 48%nat /\
  length (concat (cfg_of d)) = 1024%nat /\ length (e_buf (c_ee (d_cs d))) = 1024%nat /\ length (e_flash (c_ee (d_cs d))) = 1024%nat /\
  (length (n_periode (d_ns d)) <= 7)%nat /\ (length (sse_list (d_sse d)) <= 2)%nat /\ (length (sse_heap (d_sse d)) <= 2)%nat /\
  length (pf_vals (d_perf d)) = 10%nat.
