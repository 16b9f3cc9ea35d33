(** Model of tools/dashboard/wifinfo_sse/influx.py, the collector that stores the data of the module in a database. *)
From Coq Require Import ZArith List Bool.
From Verif Require Import Base Json.
Import ListNotations.
Open Scope Z_scope.

(** A key of a parsed object (json.loads keeps the last value of a repeated key); [None]: KeyError. *)
Fixpoint item (k : list Z) (ms : list (list Z * json)) : option json :=
  match ms with
  | [] => None
  | (k', v) :: t => match item k t with Some r => Some r | None => if beq k' k then Some v else None end
  end.

(** A point: tag host, time, fields (insert_data, influx.py:73-95) *)
Record point := mk_point { p_host : json; p_time : json; p_hchc : json; p_hchp : json; p_papp : json; p_iinst : json; p_ptec : json }.
(** [None]: KeyError, or TypeError when the data are not an object *)
Definition point_of (data : json) : option point :=
  match data with
  | JObj ms =>
      match item (str "ADCO") ms, item (str "timestamp") ms, item (str "HCHC") ms, item (str "HCHP") ms,
            item (str "PAPP") ms, item (str "IINST") ms, item (str "PTEC") ms with
      | Some a, Some t, Some c, Some p, Some w, Some i, Some e => Some (mk_point a t c p w i e)
      | _, _, _, _, _, _, _ => None
      end
  | _ => None
  end.

(** Where the program is: receiving, with the last period written (last_write, 0 at each connection); or ended by an
    exception that nothing catches. *)
Inductive cstate := Receiving (last_write : Z) | Ended.
(** What happens: a message at a time in ms, whether the database accepts the point; or a failure of the connection (timeout,
    ConnectionError), after which the program connects again (influx.py:119-122). *)
Inductive cevent := Message (ms : Z) (data : list Z) (accepted : bool) | Failure.

(** The loop of sse, influx.py:97-122, for a period of [freq] seconds. A refused write raises ConnectionError. *)
Definition collect (freq : Z) (e : cevent) (s : cstate) : cstate * list point :=
  match s with
  | Ended => (Ended, [])
  | Receiving last =>
      match e with
      | Failure => (Receiving 0, [])
      | Message ms data accepted =>
          let now := ms / (1000 * freq) in
          if now =? last then (Receiving last, [])
          else match json_of data with
               | None => (Ended, [])
               | Some j =>
                   match point_of j with
                   | None => (Ended, [])
                   | Some p => if accepted then (Receiving now, [p]) else (Receiving 0, [])
                   end
               end
      end
  end.
Fixpoint collect_all (freq : Z) (es : list cevent) (s : cstate) : cstate * list (list point) :=
  match es with
  | [] => (s, [])
  | e :: t => let '(s1, p) := collect freq e s in let '(s2, ps) := collect_all freq t s1 in (s2, p :: ps)
  end.

(** The loop of req, influx.py:124-142: last_timestamp ([None] at first) or ended. [PFailure]: any exception of
    requests.get. A refused write raises an exception. *)
Inductive pstate := Polling (last : option json) | PEnded.
Inductive pevent := Answer (code : Z) (body : list Z) (accepted : bool) | PFailure.
(** Equality of two values of "timestamp" is tested on texts; values of other kinds are never sent. *)
Definition same_text (a b : json) : bool := match a, b with JStr s, JStr t => beq s t | _, _ => false end.
Definition poll (e : pevent) (s : pstate) : pstate * list point :=
  match s with
  | PEnded => (PEnded, [])
  | Polling last =>
      match e with
      | PFailure => (PEnded, [])
      | Answer code body accepted =>
          if code =? 200 then
            match json_of body with
            | Some (JObj ms) =>
                match item (str "timestamp") ms with
                | None => (PEnded, [])
                | Some ts =>
                    if match last with Some l => same_text ts l | None => false end then (Polling last, [])
                    else match point_of (JObj ms) with
                         | None => (PEnded, [])
                         | Some p => if accepted then (Polling (Some ts), [p]) else (PEnded, [])
                         end
                end
            | _ => (PEnded, [])
            end
          else (Polling last, [])
      end
  end.
Fixpoint poll_all (es : list pevent) (s : pstate) : pstate * list (list point) :=
  match es with
  | [] => (s, [])
  | e :: t => let '(s1, p) := poll e s in let '(s2, ps) := poll_all t s1 in (s2, p :: ps)
  end.
