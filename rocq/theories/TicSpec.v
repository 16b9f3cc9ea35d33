(** Specification of the JSON pages, the URL templates, the notifications and the periodic requests. *)
From Coq Require Import ZArith List Bool Lia.
From Verif Require Import Base Teleinfo TeleinfoSpec HistorySpec Publish Config ConfigSpec Json Tic.
Import ListNotations.
Open Scope Z_scope.

(** [t] is what the module publishes after some history of received bytes and pauses. *)
Definition published_ti (t : teleinfo) : Prop :=
  exists sgn g1 g2 es p, List.length g1 = 350%nat /\ List.length g2 = 350%nat /\
    Forall is_byte (map snd (fed false es)) /\ pub_run sgn es (pub_init g1 g2) = Some p /\ t = p_ti p.

(** [gs] are the groups carried by the published frame, in order (C02, C07 relate them to the bytes received). *)
Definition carries (t : teleinfo) (gs : list group) : Prop := all_pairs (t_frame t) (t_size t) = Some gs.

(** ** JSON *)

(** How a value is shown: a number without leading zeros if it is made of digits, a string otherwise. *)
Definition json_value (v : list Z) : json := if all_digit v then JNum (no_leading_zeros v) else JStr v.

(** Groups whose texts can be copied in a JSON string: valid characters, no quote, no backslash; value not empty. *)
Definition json_ready (g : group) : Prop :=
  quotable (fst g) = true /\ quotable (snd g) = true /\ snd g <> [].

(** One entry of an array page. *)
Definition entry (name : list Z) (v : json) : json := JObj [(str "na", JStr name); (str "va", v)].

(** Seconds since 1970 with milliseconds. *)
Definition seconds_text (ts : timeval) : list Z := decs (tv_sec ts) ++ [46] ++ pad0 3 (dec (tv_usec ts / 1000)).

(** ** URL templates *)
Inductive piece :=
| Char (c : Z)               (* any other character *)
| TildeSign | DollarSign     (* ~~ and $$ *)
| ByTilde (label : list Z)   (* ~LABEL~ *)
| ByDollar (label : list Z). (* $LABEL *)

Definition written (p : piece) : list Z :=
  match p with
  | Char c => [c]
  | TildeSign => str "~~"
  | DollarSign => str "$$"
  | ByTilde l => str "~" ++ l ++ str "~"
  | ByDollar l => str "$" ++ l
  end.
Definition label_char (c : Z) : bool := isalpha c || (c =? 95).
Definition piece_ok (p : piece) : Prop :=
  match p with
  | Char c => c <> 0 /\ c <> 126 /\ c <> 36
  | ByTilde l => (1 <= List.length l <= 15)%nat /\ Forall (fun c => c <> 0 /\ c <> 126) l
  | ByDollar l => (1 <= List.length l <= 15)%nat /\ forallb label_char l = true
  | _ => True
  end.
(** A $LABEL ends where the next piece starts: with a character that cannot continue the label, unless the label has
    already its maximum length. *)
Fixpoint separated (ps : list piece) : Prop :=
  match ps with
  | ByDollar l :: ((q :: _) as r) =>
      (List.length l = 15%nat \/ exists c t, written q = c :: t /\ label_char c = false) /\ separated r
  | _ :: r => separated r
  | [] => True
  end.

(** What a label stands for. *)
Definition same_word (a : list Z) (w : String.string) : bool := beq (map tolower a) (str w).
Arguments same_word _ _%string_scope.
Definition label_text (e : env) (ts : timeval) (gs : list group) (notif label : list Z) : list Z :=
  if same_word label "type" || same_word label "notif" then notif
  else if same_word label "date" then iso e (tv_sec ts)
  else if same_word label "timestamp" then decs (tv_sec ts)
  else if same_word label "seconds" then seconds_text ts
  else if same_word label "chipid" then str "0x" ++ hex6 (chip_id e)
  else match lookup label gs with Some v => trim_number v | None => [] end.
Definition meaning (e : env) (ts : timeval) (gs : list group) (notif : list Z) (p : piece) : list Z :=
  match p with
  | Char c => [c]
  | TildeSign => [126]
  | DollarSign => [36]
  | ByTilde l | ByDollar l => label_text e ts gs notif l
  end.

(** The template ends inside a ~LABEL that is not closed. [room]: characters the label can still take (15 at most,
    the next one is dropped and ends the label); [None]: not in a label. *)
Fixpoint ends_in_label (room : option nat) (url : list Z) : bool :=
  match url with
  | [] => match room with Some _ => true | None => false end
  | c :: r =>
      match room with
      | None => ends_in_label (if c =? 126 then Some 15%nat else None) r
      | Some n =>
          if c =? 126 then ends_in_label None r
          else match n with O => ends_in_label None r | S n' => ends_in_label (Some n') r end
      end
  end.
Definition unterminated (url : list Z) : bool := ends_in_label None url.

(** ** Notifications *)

(** The reasons of the requests in a list of effects, in order. *)
Definition reasons (o : list effect) : list reason :=
  flat_map (fun x => match x with Request w _ => [w] | SseData _ => [] end) o.
Definition reason_eqb (a b : reason) : bool :=
  match a, b with
  | MAJ, MAJ | PTEC, PTEC | HAUT, HAUT | BAS, BAS | ADPS, ADPS | NORM, NORM | JEEDOM, JEEDOM | EMONCMS, EMONCMS => true
  | _, _ => false
  end.
Definition sent (w : reason) (o : list effect) : bool := existsb (reason_eqb w) (reasons o).
Definition pushed (o : list effect) : bool := existsb (fun x => match x with SseData _ => true | _ => false end) o.

(** Value of a label in a frame. *)
Definition value_in (t : teleinfo) (label : String.string) : option (list Z) :=
  match all_pairs (t_frame t) (t_size t) with
  | Some gs => lookup (str label) gs
  | None => None
  end.
Arguments value_in _ _%string_scope.

(** The frames seen while a trigger is on (HTTP notifications configured and the trigger ticked): one entry per event,
    [None] for the others. [look] extracts what matters. *)
Fixpoint seen {A} (trigger : settings -> bool) (look : settings -> teleinfo -> A) (s : settings) (evs : list tevent)
  : list (option A) :=
  match evs with
  | [] => []
  | Configure _ c :: r => None :: seen trigger look (view c) r
  | Frame _ _ t :: r =>
      (if negb (Nat.eqb (List.length (s_http_host s)) 0) && trigger s then Some (look s t) else None)
      :: seen trigger look s r
  end.

(** C14: for each entry (a frame and the PTEC it carries, if any), does its PTEC differ from the last one seen? *)
Fixpoint changes (last : option (list Z)) (l : list (option (option (list Z)))) : list bool :=
  match l with
  | [] => []
  | Some (Some p) :: r => match last with Some q => negb (beq p q) | None => false end :: changes (Some p) r
  | _ :: r => false :: changes last r
  end.

(** C14, as the code does it: only the first 7 characters of the last period are remembered, and the memory begins with the
    first period that is not empty. *)
Fixpoint changes_7 (last : option (list Z)) (l : list (option (option (list Z)))) : list bool :=
  match l with
  | [] => []
  | Some (Some p) :: r =>
      match last, p with
      | Some q, _ => negb (beq p (firstn 7 q)) :: changes_7 (Some p) r
      | None, [] => false :: changes_7 None r
      | None, _ => false :: changes_7 (Some p) r
      end
  | _ :: r => false :: changes_7 last r
  end.

(** C16: for each entry (a frame and whether it carries ADPS): does ADPS appear, does it disappear? *)
Fixpoint edges (before : bool) (l : list (option bool)) : list (bool * bool) :=
  match l with
  | [] => []
  | Some now :: r => (now && negb before, before && negb now) :: edges now r
  | None :: r => (false, false) :: edges before r
  end.

(** C15: the last threshold notification of a list of effects. *)
Definition is_threshold (w : reason) : bool := match w with HAUT | BAS => true | _ => false end.
Definition thresholds (o : list effect) : list reason := filter is_threshold (reasons o).
Definition last_threshold (o : list effect) : option reason := hd_error (rev (thresholds o)).
(** x, y, x, y ... *)
Fixpoint alternate (x y : reason) (l : list reason) : Prop :=
  match l with
  | [] => True
  | w :: r => w = x /\ alternate y x r
  end.

(** The apparent power of a frame, as written (white space, sign, digits; limited to 31 bits); 0 if absent. *)
Definition papp (t : teleinfo) : Z :=
  match value_in t "PAPP" with
  | Some v => clamp32 (written_int v)
  | None => 0
  end.

(** C19: order of the requests of one frame. *)
Definition rank (w : reason) : Z :=
  match w with PTEC => 1 | HAUT | BAS => 2 | ADPS | NORM => 3 | MAJ => 4 | JEEDOM => 5 | EMONCMS => 6 end.
Fixpoint increasing (l : list Z) : Prop :=
  match l with
  | a :: ((b :: _) as r) => a < b /\ increasing r
  | _ => True
  end.
(** The trigger of a reason is ticked; periodic requests have no trigger. *)
Definition trigger_of (s : settings) (w : reason) : bool :=
  match w with
  | PTEC => s_ptec s | HAUT | BAS => s_seuils s | ADPS | NORM => s_adps s
  | MAJ | JEEDOM | EMONCMS => true
  end.
(** Host, port, period of the service a reason belongs to. *)
Definition host_of (s : settings) (w : reason) : list Z :=
  match w with JEEDOM => s_jdom_host s | EMONCMS => s_emon_host s | _ => s_http_host s end.
Definition port_of (s : settings) (w : reason) : Z :=
  match w with JEEDOM => s_jdom_port s | EMONCMS => s_emon_port s | _ => s_http_port s end.
Definition freq_of (s : settings) (w : reason) : Z :=
  match w with JEEDOM => s_jdom_freq s | EMONCMS => s_emon_freq s | _ => s_http_freq s end.
Definition periodic (w : reason) : bool := match w with MAJ | JEEDOM | EMONCMS => true | _ => false end.

(** The settings in force after some events. *)
Fixpoint settings_after (s : settings) (evs : list tevent) : settings :=
  match evs with
  | [] => s
  | Configure _ c :: r => settings_after (view c) r
  | Frame _ _ _ :: r => settings_after s r
  end.
Definition frames_published (evs : list tevent) : Prop :=
  Forall (fun ev => match ev with Frame _ _ t => published_ti t | Configure _ _ => True end) evs.

(** C20: one group in a Jeedom URL. *)
Definition jeedom_text (adco : list Z) (g : group) : list Z :=
  str "&" ++ fst g ++ str "=" ++ (if beq (fst g) (str "ADCO") && negb (Nat.eqb (List.length adco) 0) then adco else snd g).

(** C21: the documented codes. *)
Open Scope string_scope.
Definition ptec_codes : list (String.string * String.string) :=
  [ ("TH", "1"); ("HC", "2"); ("HP", "3"); ("HN", "4"); ("PM", "5"); ("HCJB", "6"); ("HCJW", "7"); ("HCJR", "8");
    ("HPJB", "9"); ("HPJW", "10"); ("HPJR", "11") ].
Definition optarif_codes : list (String.string * String.string) :=
  [ ("BAS", "1"); ("HC", "2"); ("EJP", "3"); ("BBR", "4") ].
Close Scope string_scope.
Definition is_prefix (w v : list Z) : bool := beq (firstn (List.length w) v) w.
Definition emon_code (g : group) : list Z :=
  let pick test codes := match find (fun p => test (str (fst p))) codes with Some p => str (snd p) | None => str "0" end in
  if beq (fst g) (str "OPTARIF") then pick (fun w => is_prefix w (snd g)) optarif_codes
  else if beq (fst g) (str "HHPHC") then decs (hd 0 (snd g))
  else if beq (fst g) (str "PTEC") then pick (fun w => beq w (snd g)) ptec_codes
  else trim_number (snd g).
Fixpoint with_commas (l : list (list Z)) : list Z :=
  match l with
  | [] => []
  | [x] => x
  | x :: r => x ++ str "," ++ with_commas r
  end.
Definition emon_payload (gs : list group) : list Z :=
  str "{" ++ with_commas (map (fun g => fst g ++ str ":" ++ emon_code g) gs) ++ str "}".

(** ** Periodic timers *)

(** Time as the number of milliseconds since the timer was started; the period is [p]. A poll at time [d] after a poll
    at time [before] must fire if and only if a multiple of the period lies in between. *)
Definition slot_passed (p before d : Z) : bool := before / p <? d / p.
(** For successive polls. *)
Fixpoint firings (p before : Z) (ds : list Z) : list bool :=
  match ds with
  | [] => []
  | d :: r => slot_passed p before d :: firings p d r
  end.
(** Frames received [d] ms after the configuration was loaded, with [k] browsers connected; the configuration was loaded
    when the 32-bit millisecond counter was at [a]. *)
Definition polled := (Z * (nat * teleinfo))%type.
Definition frames_from (a : Z) (fs : list polled) : list tevent :=
  map (fun f => Frame (u32 (a + fst f)) (fst (snd f)) (snd (snd f))) fs.
(** Polls in order, close enough for the 32-bit counter. *)
Fixpoint spaced (p before : Z) (ds : list Z) : Prop :=
  match ds with
  | [] => True
  | d :: r => before <= d /\ d - before + p <= 4294967296 /\ spaced p d r
  end.

(** The value of ~type~ and of "notif" in a notification: regular update, change of tariff, power above or below the thresholds, start
    and end of an overload. *)
Definition type_name (w : reason) : list Z :=
  match w with
  | MAJ => str "MAJ" | PTEC => str "PTEC" | HAUT => str "HAUT" | BAS => str "BAS" | ADPS => str "ADPS" | NORM => str "NORM"
  | JEEDOM | EMONCMS => []
  end.
