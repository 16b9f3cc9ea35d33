(** Model of the list of networks of the settings page: data_src/index.html:631-660 (table), 780-792 (quality bar), 888-892 and
    934-952 (asking for the list, choosing a network), with the table plug-in of data_src/js/wifinfo.js. *)
From Coq Require Import ZArith List Bool Lia.
From Verif Require Import Base Json Dash Form.
Import ListNotations.
Open Scope Z_scope.

(** What the page uses of a row: the name (a string) and the level (a number). Values of another type, and numbers that are not
    integers, are outside the model ([None]). *)
Record net_row := mk_row { nr_ssid : list Z; nr_rssi : Z }.
Definition whole_number (l : list Z) : option Z :=
  match l with
  | 45 :: t => match t with [] => None | _ => if forallb isdigit t then Some (- dec_value t) else None end
  | [] => None
  | _ => if forallb isdigit l then Some (dec_value l) else None
  end.
Definition row_of (j : json) : option net_row :=
  match j with
  | JObj ms =>
      match property (str "ssid") ms, property (str "rssi") ms with
      | Some (JStr s), Some (JNum l) => option_map (mk_row s) (whole_number l)
      | _, _ => None
      end
  | _ => None
  end.
Fixpoint rows_of (js : list json) : option (list net_row) :=
  match js with
  | [] => Some []
  | j :: r => x <- row_of j ;; y <- rows_of r ;; Some (x :: y)
  end.
(** The table after the answer [body]: the rows, which the plug-in sorts by level (function initSort); its comparison is not
    consistent for equal levels, so the order of the rows is left open. [None]: the table does not change. *)
Definition loaded (body : list Z) : option (list net_row) :=
  match json_of body with Some (JArr js) => rows_of js | _ => None end.

(** RSSIFormatter, data_src/index.html:780-792 *)
Inductive quality := Good | Fair | Poor | Bad.    (* progress-bar-success, -info, -warning, -danger *)
Definition signal (rssi : Z) : Z := Z.min (Z.max (2 * (rssi + 100)) 0) 100.
Definition quality_of (rssi : Z) : quality :=
  let s := signal rssi in
  let cl := Good in
  let cl := if s <? 70 then Fair else cl in
  let cl := if s <? 50 then Poor else cl in
  if s <? 30 then Bad else cl.
(** The text in the bar: rssi + "dB" *)
Definition bar_text (rssi : Z) : list Z := decs rssi ++ str "dB".

(** A cell of the table (function initBody of the plug-in): the value between the tags, as it is. The attributes of the tag are
    left out. *)
Definition cell_html (v : list Z) : list Z := str "<td>" ++ v ++ str "</td>".

(** A click on a row, data_src/index.html:936-943: $('#ssid').val(name.ssid). The focus goes to the key. *)
Definition click_row (r : net_row) (p : page) : option page := fill_one (str "ssid") (nr_ssid r) p.
(** The user types a text in a box. *)
Definition type_text (name v : list Z) (p : page) : page :=
  map (fun k => if named name k then mk_ctl (k_name k) (k_kind k) (Entry v) else k) p.
