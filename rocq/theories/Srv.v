(** Model of the development server: the data pages of tools/srv.py, on the simulated meter of tools/simutic.py. *)
From Coq Require Import ZArith List Bool Lia.
From Verif Require Import Base Clock Simu.
Import ListNotations.
Open Scope Z_scope.

(** json.dumps of a string, with the default ensure_ascii (Python library, json/encoder.py, py_encode_basestring_ascii): the
    quote and the backslash, the five short escapes, and \uxxxx (lower case) for what is not a printable ASCII character.
    Characters from U+10000 on, written as two escapes, are not modelled. *)
Definition hex_low (d : Z) : Z := if d <? 10 then 48 + d else 87 + d.
Definition escaped (c : Z) : list Z :=
  if (c =? 34) || (c =? 92) then [92; c]
  else if c =? 8 then [92; 98]
  else if c =? 9 then [92; 116]
  else if c =? 10 then [92; 110]
  else if c =? 12 then [92; 102]
  else if c =? 13 then [92; 114]
  else if (32 <=? c) && (c <=? 126) then [c]
  else [92; 117; hex_low (c / 4096 mod 16); hex_low (c / 256 mod 16); hex_low (c / 16 mod 16); hex_low (c mod 16)].
Definition py_string (s : list Z) : list Z := [34] ++ flat_map escaped s ++ [34].

(** timestamp, tools/simutic.py:57-62: datetime.now() is the local time of the computer, [offset] seconds ahead of UTC, and the
    text ends with the letter Z. The fractions of a second are not written. *)
Definition srv_timestamp (offset now : Z) : list Z :=
  let r := gmtime (now + offset) in
  padded 4 (tm_year r) ++ [45] ++ padded 2 (tm_mon r + 1) ++ [45] ++ padded 2 (tm_mday r) ++ [84] ++
  padded 2 (tm_hour r) ++ [58] ++ padded 2 (tm_min r) ++ [58] ++ padded 2 (tm_sec r) ++ [90].

(** ",".join *)
Fixpoint joined (sep : list Z) (l : list (list Z)) : list Z :=
  match l with
  | [] => []
  | [x] => x
  | x :: r => x ++ sep ++ joined sep r
  end.

(** json_dict, tools/simutic.py:223-245: a dictionary, in the order of insertion, written by json.dumps(d, separators=(",", ":")).
    Numbers are never negative. The measures are those of [Simu.simu]: the values read while the dictionary is built. *)
Definition dict_items (ts : list Z) (m : simu) : list (list Z * list Z) :=
  [ (str "timestamp", py_string ts);
    (str "ADCO", py_string (sm_adco m));
    (str "OPTARIF", py_string (str "HC"));
    (str "ISOUSC", dec ISOUSC);
    (str "HCHC", dec (sm_hchc m));
    (str "HCHP", dec (sm_hchp m));
    (str "PTEC", py_string (if sm_creuses m then str "HC" else str "HP"));
    (str "IINST", dec (sm_iinst m));
    (str "IMAX", dec 42);
    (str "PAPP", dec (sm_papp m + sm_pseuil m));
    (str "HHPHC", py_string (str "D"));
    (str "MOTDETAT", dec 0) ]
  ++ (if negb (sm_adps m =? 0) then [(str "ADPS", dec (sm_adps m))] else []).
Definition json_dict (ts : list Z) (m : simu) : list Z :=
  [123] ++ joined [44] (map (fun x => py_string (fst x) ++ [58] ++ snd x) (dict_items ts m)) ++ [125].

(** json_array, tools/simutic.py:247-267: a list of dictionaries written by json.dumps(d, indent=4). *)
Definition array_items (ts : list Z) (m : simu) : list (list Z * list Z) :=
  [ (str "timestamp", ts);
    (str "ADCO", sm_adco m);
    (str "OPTARIF", str "HC..");
    (str "ISOUSC", fmt 2 ISOUSC);
    (str "HCHC", fmt 9 (sm_hchc m));
    (str "HCHP", fmt 9 (sm_hchp m));
    (str "PTEC", firstn 4 ((if sm_creuses m then str "HC" else str "HP") ++ str "...."));
    (str "IINST", fmt 3 (sm_iinst m));
    (str "IMAX", str "042");
    (str "PAPP", fmt 5 (sm_papp m + sm_pseuil m));
    (str "HHPHC", str "D");
    (str "MOTDETAT", str "000000") ]
  ++ (if negb (sm_adps m =? 0) then [(str "ADPS", fmt 3 (sm_adps m))] else []).
Definition newline (indent : nat) : list Z := 10 :: repeat 32 indent.
Definition array_item (x : list Z * list Z) : list Z :=
  [123] ++ newline 8 ++ py_string (str "na") ++ [58; 32] ++ py_string (fst x) ++ [44] ++
  newline 8 ++ py_string (str "va") ++ [58; 32] ++ py_string (snd x) ++ newline 4 ++ [125].
Definition json_array (ts : list Z) (m : simu) : list Z :=
  [91] ++ newline 4 ++ joined ([44] ++ newline 4) (map array_item (array_items ts m)) ++ newline 0 ++ [93].

(** One turn of event_stream, tools/srv.py:40-45: what is sent on /tic and on /sse/json. *)
Definition stream_event (ts : list Z) (m : simu) : list Z := str "data: " ++ json_dict ts m ++ [10; 10].
