(** Model of the tabs of the home page that show the data (data_src/index.html, script): the table of the groups and the
    gauges. JavaScript values are restricted to what the module sends. *)
From Coq Require Import ZArith List Bool.
From Verif Require Import Base Json.
Import ListNotations.
Open Scope Z_scope.

(** A value of a cell: a string or a number (JSON.parse of a value; the other kinds are never sent: [None]). Numbers are
    natural numbers here: the page /tinfo.json gives only one, the power, written by [dec]. *)
Inductive cell := Text (s : list Z) | Number (n : Z).
Definition cell_of (j : json) : option cell :=
  match j with
  | JStr s => Some (Text s)
  | JNum l => Some (Number (dec_value l))
  | _ => None
  end.

(** Number(string): [None] is NaN. The other literals of JavaScript (signs, fractions, exponents, bases, spaces around,
    Infinity) are taken as NaN. *)
Definition number (s : list Z) : option Z :=
  match s with
  | [] => Some 0
  | _ => if forallb isdigit s then Some (dec_value s) else None
  end.
Definition cell_number (c : cell) : option Z := match c with Text s => number s | Number n => Some n end.
(** parseInt(string): the digits at the beginning; [None] is NaN. Signs, spaces and 0x are taken as NaN. *)
Fixpoint leading_digits (s : list Z) : list Z :=
  match s with
  | c :: t => if isdigit c then c :: leading_digits t else []
  | [] => []
  end.
Definition parse_int (c : cell) : option Z :=
  match c with
  | Text s => match leading_digits s with [] => None | d => Some (dec_value d) end
  | Number n => Some n
  end.

(** ref == value, ref < value: two strings are compared as strings, character by character; otherwise as numbers (a
    comparison with NaN is false). *)
Fixpoint less (a b : list Z) : bool :=
  match a, b with
  | [], _ :: _ => true
  | x :: a', y :: b' => if x =? y then less a' b' else x <? y
  | _, [] => false
  end.
Definition js_eq (a b : cell) : bool :=
  match a, b with
  | Text s, Text t => beq s t
  | _, _ => match cell_number a, cell_number b with Some x, Some y => x =? y | _, _ => false end
  end.
Definition js_lt (a b : cell) : bool :=
  match a, b with
  | Text s, Text t => less s t
  | _, _ => match cell_number a, cell_number b with Some x, Some y => x <? y | _, _ => false end
  end.
(** A value as a string, in a concatenation *)
Definition cell_text (c : cell) : list Z := match c with Text s => s | Number n => dec n end.
Definition int_text (n : option Z) : list Z := match n with Some v => dec v | None => str "NaN" end.

(** What the script keeps (counters, isousc: lines 686-687; [None]: undefined) and what the page shows of the load:
    #scharge, #pcharge, class and width (in percent) of #pbar. *)
Record screen := mk_screen {
  counters : list (list Z * cell);
  isousc : option (option Z);
  badge : list Z;
  charge : list Z;
  bar_class : list Z;
  bar_width : Z }.
(** The badge of the tab and the text are empty when the page is loaded. *)
Definition screen_init : screen := mk_screen [] None [] [] (str "progress-bar") 0.

Fixpoint counter (na : list Z) (l : list (list Z * cell)) : option cell :=
  match l with
  | [] => None
  | (k, v) :: t => if beq k na then Some v else counter na t
  end.

Definition up_arrow : list Z := str " <span class=""glyphicon glyphicon-triangle-top""></span>".
Definition down_arrow : list Z := str " <span class=""glyphicon glyphicon-triangle-bottom""></span>".

(** parseInt(iinst * 100 / isousc), 0 for NaN and for an infinite result (lines 729-731). parseInt reads the decimal text of
    the quotient; texts with an exponent (quotient under 0.000001, or over 10^21) are not modelled. *)
Definition percentage (iinst : option Z) (isousc : option (option Z)) : Z :=
  match iinst, isousc with
  | Some i, Some (Some s) => if s =? 0 then 0 else i * 100 / s
  | _, _ => 0
  end.
(** lines 732-735 *)
Definition bar_kind (pe : Z) : list Z :=
  if 90 <? pe then str "danger" else if 80 <? pe then str "warning" else if 70 <? pe then str "info" else str "success".

(** valueFormatter, data_src/index.html:722-761: first part (lines 723-744) *)
Definition show_load (na : list Z) (value : cell) (w : screen) : screen :=
  if beq na (str "ISOUSC") then
    mk_screen (counters w) (Some (parse_int value)) (badge w) (charge w) (bar_class w) (bar_width w)
  else if beq na (str "IINST") then
    let iinst := parse_int value in
    let pe := percentage iinst (isousc w) in
    mk_screen (counters w) (isousc w)
      (if 0 <? pe then dec pe ++ str "%" else badge w)
      (match isousc w with Some s => int_text iinst ++ str "A / " ++ int_text s ++ str "A" | None => charge w end)
      (str "progress-bar progress-bar-" ++ bar_kind pe) pe
  else w.
(** second part (lines 746-758) *)
Definition mark (na : list Z) (value : cell) (w : screen) : cell * screen :=
  match cell_number value with
  | None => (value, w)
  | Some _ =>
      let shown :=
        match counter na (counters w) with
        | None => value
        | Some ref =>
            match cell_number ref with
            | None => value
            | Some _ =>
                if js_eq ref value then value
                else if js_lt ref value then Text (cell_text value ++ up_arrow)
                else if js_lt value ref then Text (cell_text value ++ down_arrow)
                else Text (cell_text value ++ str " ??")
            end
        end in
      (shown, mk_screen ((na, shown) :: counters w) (isousc w) (badge w) (charge w) (bar_class w) (bar_width w))
  end.
Definition value_formatter (na : list Z) (value : cell) (w : screen) : cell * screen := mark na value (show_load na value w).

(** One drawing of the table: the formatter is called for each row, in the order of the rows. *)
Fixpoint draw (rows : list (list Z * cell)) (w : screen) : list cell * screen :=
  match rows with
  | [] => ([], w)
  | (na, va) :: t =>
      let '(c, w1) := value_formatter na va w in
      let '(cs, w2) := draw t w1 in
      (c :: cs, w2)
  end.
(** The rows of /tinfo.json: the objects with "na" and "va". [None]: not such an array. *)
Definition row_of (j : json) : option (list Z * cell) :=
  match j with
  | JObj [(k1, JStr na); (k2, va)] =>
      if beq k1 (str "na") && beq k2 (str "va") then
        match cell_of va with Some c => Some (na, c) | None => None end
      else None
  | _ => None
  end.
Fixpoint rows_of (l : list json) : option (list (list Z * cell)) :=
  match l with
  | [] => Some []
  | j :: t => match row_of j with None => None | Some r => match rows_of t with None => None | Some rs => Some (r :: rs) end end
  end.
Definition table_of (body : list Z) : option (list (list Z * cell)) :=
  match json_of body with Some (JArr l) => rows_of l | _ => None end.
(** A refresh every five seconds (lines 919-927); a body that is not such an array leaves the table as it was. *)
Definition refresh (body : list Z) (w : screen) : option (list cell) * screen :=
  match table_of body with
  | Some rows => let '(cs, w') := draw rows w in (Some cs, w')
  | None => (None, w)
  end.

(** ** Gauges, lines 895-914 *)

(** tic.X after JSON.parse: the last member of that name *)
Fixpoint property (x : list Z) (ms : list (list Z * json)) : option json :=
  match ms with
  | [] => None
  | (k, v) :: t => match property x t with Some r => Some r | None => if beq k x then Some v else None end
  end.
(** (v / 1000).toFixed(3): exact for natural numbers under 2^53. An undefined value or a string gives NaN (a string made of
    digits would be converted, but the module sends those as numbers). *)
Definition kwh (v : option json) : list Z :=
  match v with
  | Some (JNum l) => dec (dec_value l / 1000) ++ [46] ++ pad0 3 (dec (dec_value l mod 1000))
  | _ => str "NaN"
  end.
Inductive period := Peak | OffPeak.
(** The values of the gauges ([None]: undefined or not a number), the two texts and which of the two names has the mark *)
Record gauges := mk_gauges { g_papp : option Z; g_iinst : option Z; g_hchp : list Z; g_hchc : list Z; g_mark : period }.
Definition gauge (v : option json) : option Z := match v with Some (JNum l) => Some (dec_value l) | _ => None end.
(** The listener of the messages. JSON.parse raises an exception on an ill-formed text: nothing changes. *)
Definition on_message (data : list Z) (g : gauges) : gauges :=
  match json_of data with
  | Some (JObj ms) =>
      mk_gauges (gauge (property (str "PAPP") ms)) (gauge (property (str "IINST") ms))
        (kwh (property (str "HCHP") ms)) (kwh (property (str "HCHC") ms))
        (match property (str "PTEC") ms with
         | Some (JStr s) => if beq s (str "HC") then OffPeak else Peak
         | _ => Peak
         end)
  | _ => g
  end.
