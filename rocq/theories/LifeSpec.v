(** Specification of the life of a module: what can be given to it, what writes its settings, what its decoder hears. *)
From Coq Require Import ZArith List Bool Lia.
From Verif Require Import Base Teleinfo TeleinfoSpec Publish Config ConfigSpec Tic Pages PagesSpec Sse Web Device WebSpec Cli CliSpec Life.
Import ListNotations.
Open Scope Z_scope.

(** The arguments of a command are bytes if the line is. *)
Definition command_bytes (c : command) : Prop :=
  match c with
  | CSse l | CEsp l | CLed l => bytes l
  | CSet args | CGet args => Forall bytes args
  | _ => True
  end.
Definition build_ok (bd : build) : Prop := forall line, bytes line -> command_bytes (bd_parse bd line).

(** Ordinary events (see WebSpec); the array of tic_dump has the size of a frame. *)
Definition ordinary_life (e : levent) : Prop :=
  match e with
  | PowerOn b => start_ok b
  | Event e raw => ordinary_event e /\ length raw = 350%nat
  end.

(** A start and what follows it. *)
Definition started (b : start) (evs : list (devent * list Z)) : list levent := PowerOn b :: map (fun p => Event (fst p) (snd p)) evs.

(** The commands that write the settings; those that end with a restart. *)
Definition writer (c : command) : Prop :=
  match c with
  | CSet (what :: _) => what = str "wifi" \/ what = str "ap"
  | CEsp what => what = str "reset"
  | _ => False
  end.
Definition restarter (c : command) : Prop := writer c \/ c = CEsp (str "restart").

(** The commands carried out, in order. *)
Definition commands_of (os : list (list happening)) : list (list Z) :=
  flat_map (fun h => match h with Command l => [l] | _ => [] end) (concat os).

(** An event, with what happened then, that leaves the settings alone: no form, no factory reset, no command that writes
    them. Starts are allowed. *)
Definition leaves_settings (bd : build) (e : levent) (o : list happening) : Prop :=
  match e with
  | Event (DHttp _ q) _ => q_uri q <> str "/config_form.json" /\ q_uri q <> str "/factory_reset"
  | _ => True
  end /\
  forall line, In (Command line) o -> ~ writer (bd_parse bd line).

(** The bytes that arrive on the serial port, with their times, and whether decoding was suspended by an upload. *)
Fixpoint arrivals (off : bool) (es : list devent) : list ((timeval * bool) * Z) :=
  match es with
  | [] => []
  | DByte _ _ tv c :: r => ((tv, off), c) :: arrivals off r
  | DUpload _ u :: r => arrivals (if upload_over u then false else match u with UpStart _ _ _ _ => true | _ => off end) r
  | _ :: r => arrivals off r
  end.
(** Those that were not lost. *)
Definition not_lost (l : list ((timeval * bool) * Z)) : list event :=
  flat_map (fun '((tv, off), c) => if off : bool then [] else [(tv, c)]) l.
(** What the decoder hears and which commands are typed: without the command line everything is heard. *)
Definition hears (with_cli : bool) (es : list devent) (data : list event) (commands : list (list Z)) : Prop :=
  if with_cli then exists l, session (arrivals false es) l commands /\ data = not_lost l
  else data = not_lost (arrivals false es) /\ commands = [].
