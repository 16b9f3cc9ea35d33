(** Specification: what the browser shows of what the meter sends. *)
From Coq Require Import ZArith List Bool.
From Verif Require Import Base Json Teleinfo TeleinfoSpec Config Tic TicSpec Sse SseSpec Web Device Dash DashSpec.
Import ListNotations.
Open Scope Z_scope.

(** The rows expected for a frame: its date, the computed power, its groups. *)
Definition table_rows (date : list Z) (power : Z) (gs : list group) : list (list Z * cell) :=
  (str "timestamp", Text date) :: (str "watt", Number power) :: map (fun g => (fst g, Text (snd g))) gs.
(** Each cell is the value of its row, alone or with an arrow. *)
Definition displays (rows : list (list Z * cell)) (cells : list cell) : Prop :=
  Forall2 (fun r c => exists a, c = with_arrow (snd r) a) rows cells.

(** A drawing of the table in a browser: the rows received and the cells shown. *)
Record drawing := mk_drawing { dr_rows : list (list Z * cell); dr_cells : list cell }.
(** The drawings of a browser whose page was loaded before these events: [true] marks the requests of this page for the table,
    with what the module does. Only a reply with code 200 is drawn. *)
Fixpoint drawings (l : list (bool * list out)) (w : screen) : list drawing :=
  match l with
  | [] => []
  | (true, [Reply 200 _ body]) :: r =>
      match table_of body with
      | Some rows => let '(cs, w') := draw rows w in mk_drawing rows cs :: drawings r w'
      | None => drawings r w
      end
  | _ :: r => drawings r w
  end.
(** The marked events are requests for the table. *)
Definition marked (mine : bool) (e : devent) : Prop :=
  if mine then exists a q, e = DHttp a q /\ q_uri q = str "/tinfo.json" else True.

(** What happens to the streams of the gauges. *)
Definition streamed (o : list out) : list sse_effect := flat_map (fun x => match x with Streaming e => [e] | _ => [] end) o.
(** The stream [id] is open: it was opened and not closed. *)
Definition is_open (id : nat) (o : list out) : Prop := In (Streaming (Opened id)) o /\ ~ In (Streaming (Closed id)) o.

(** The gauges show the numbers of the groups [gs]: power, current, the two meters in kWh with three decimals, and the mark. *)
Definition gauges_show (gs : list group) (g : gauges) : Prop :=
  (forall v, In (str "PAPP", v) gs -> forallb isdigit v = true -> g_papp g = Some (dec_value v)) /\
  (forall v, In (str "IINST", v) gs -> forallb isdigit v = true -> g_iinst g = Some (dec_value v)) /\
  (forall v, In (str "HCHP", v) gs -> forallb isdigit v = true ->
     g_hchp g = dec (dec_value v / 1000) ++ str "." ++ pad0 3 (dec (dec_value v mod 1000))) /\
  (forall v, In (str "HCHC", v) gs -> forallb isdigit v = true ->
     g_hchc g = dec (dec_value v / 1000) ++ str "." ++ pad0 3 (dec (dec_value v mod 1000))) /\
  (forall v, In (str "PTEC", v) gs -> g_mark g = OffPeak <-> v = str "HC").

(** A message of a stream for a frame of date [t0] and groups [gs]: the browser reads one event, whose data make the gauges show these
    groups, when the date and the groups can be written between quotes and no label is repeated. *)
Definition message_of (e : env) (t0 : timeval) (gs : list group) (text : list Z) : Prop :=
  exists data, text = event_text data /\
    (quotable (iso e (tv_sec t0)) = true -> events_of text = [data]) /\
    (quotable (iso e (tv_sec t0)) = true -> Forall json_ready gs -> NoDup (map fst gs) -> forall g, gauges_show gs (on_message data g)).
