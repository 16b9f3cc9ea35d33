(** Model of the settings page: the form of data_src/index.html, the scripts that fill and send it (data_src/index.html,
    and jQuery 2.1.4 and its autofill plug-in in data_src/js/wifinfo.js), and the reading of the request by the web server
    library.

    Texts are kept as their UTF-8 bytes. The browser reads /config.json as UTF-8 and encodeURIComponent writes UTF-8, so
    this loses nothing as long as the texts are UTF-8; other answers are refused by [json_of]. *)
From Coq Require Import ZArith List Bool Lia.
From Verif Require Import Base Config Json.
Import ListNotations.
Open Scope Z_scope.

(** ** Controls of a form *)

(** input type=hidden; type=text, password or the unknown "username" (treated as text), with its maxlength; type=number;
    select, with the values of its options; type=checkbox, with its value. *)
Inductive kind :=
| Hidden
| TextBox (max : option nat)
| NumberBox
| Choice (options : list (list Z))
| Tick (value : list Z).

(** What a control holds: a text; the option selected, if any; ticked or not. *)
Inductive content :=
| Entry (v : list Z)
| Pick (v : option (list Z))
| Check (b : bool).

Record control := mk_ctl { k_name : list Z; k_kind : kind; k_now : content }.
Definition page := list control.

(** Options of the three period menus, value and label: data_src/index.html:282-292, 356-366, 430-440 (the label of 900 is
    written with a double quote in the first two menus). *)
Definition period_options : list (list Z * list Z) :=
  [ (str "0", str "désactivée"); (str "15", str "toutes les 15 secondes"); (str "30", str "toutes les 30 secondes");
    (str "60", str "toutes les minutes"); (str "300", str "toutes les 5 minutes"); (str "900", str "tous les 1/4 d'heure");
    (str "1800", str "toutes les 1/2 heure"); (str "3600", str "toutes les heures"); (str "21600", str "toutes les 6 heures");
    (str "42300", str "toutes les 12 heures"); (str "86400", str "tous les jours") ].
Definition periods : list (list Z) := map fst period_options.

(** A control as the page is loaded: texts are empty, the first option is selected, nothing is ticked. *)
Definition text_box (name : String.string) (max : nat) : control := mk_ctl (str name) (TextBox (Some max)) (Entry []).
Definition number_box (name : String.string) : control := mk_ctl (str name) NumberBox (Entry []).
Definition period_menu (name : String.string) : control := mk_ctl (str name) (Choice periods) (Pick (Some (str "0"))).
Definition tick_box (name : String.string) : control := mk_ctl (str name) (Tick (str "1")) (Check false).
Arguments text_box _%string_scope _%nat_scope.
Arguments number_box _%string_scope.
Arguments period_menu _%string_scope.
Arguments tick_box _%string_scope.

(** The controls of the form frm_config with a name, in document order: data_src/index.html:159-555. Those between
    RESTRICT_ON and RESTRICT_OFF are missing in the page made for restricted clients (prep_data_folder.py:51-74). *)
Definition wifi_controls : page :=                                    (* data_src/index.html:162-237 *)
  [ text_box "ssid" 32; text_box "psk" 64; text_box "host" 32; text_box "username" 31; text_box "password" 31 ].
Definition service_controls : page :=                                 (* data_src/index.html:239-480 *)
  [ text_box "emon_host" 32; text_box "emon_port" 5; text_box "emon_url" 32; text_box "emon_apikey" 32;
    period_menu "emon_freq"; number_box "emon_node";
    text_box "jdom_host" 32; text_box "jdom_port" 5; text_box "jdom_url" 64; text_box "jdom_apikey" 48;
    period_menu "jdom_freq"; text_box "jdom_adco" 12;
    text_box "httpreq_host" 32; text_box "httpreq_port" 5; text_box "httpreq_url" 150; tick_box "httpreq_use_post";
    period_menu "httpreq_freq";
    tick_box "httpreq_trigger_ptec"; tick_box "httpreq_trigger_adps"; tick_box "httpreq_trigger_seuils";
    text_box "httpreq_seuil_bas" 5; text_box "httpreq_seuil_haut" 5 ].
Definition advanced_controls : page :=                                (* data_src/index.html:494-519 *)
  [ text_box "ap_psk" 64; mk_ctl (str "ota_auth") (TextBox None) (Entry []); number_box "ota_port" ].
Definition other_controls : page :=                                   (* data_src/index.html:521-535 *)
  [ number_box "sse_freq"; tick_box "cfg_led_tinfo" ].
Definition blank_page (restricted : bool) : page :=
  [ mk_ctl (str "save") Hidden (Entry (str "1")) ] ++                 (* data_src/index.html:160 *)
  (if restricted then [] else wifi_controls) ++
  service_controls ++
  (if restricted then [] else advanced_controls) ++
  other_controls.

(** ** Filling: autofill (data_src/js/wifinfo.js:26) and jQuery val (data_src/js/wifinfo.js:4) *)

(** What the browser keeps of a value assigned to a text control: line breaks are removed. *)
Definition no_breaks (v : list Z) : list Z := filter (fun c => negb ((c =? 10) || (c =? 13))) v.

(** ... and to a number control: nothing if the value is not a number (HTML, valid floating-point number). *)
Definition number_tail (s : list Z) : bool :=
  match s with
  | [] => true
  | e :: t =>
      ((e =? 101) || (e =? 69)) &&
      match t with
      | x :: t' => if (x =? 43) || (x =? 45) then match digits t' with (_ :: _, []) => true | _ => false end
                   else match digits t with (_ :: _, []) => true | _ => false end
      | [] => false
      end
  end.
Definition valid_number (v : list Z) : bool :=
  let s := match v with c :: t => if c =? 45 then t else v | [] => [] end in
  match digits s with
  | (_, 46 :: t) => match digits t with (_ :: _, r) => number_tail r | ([], _) => false end
  | ([], _) => false
  | (_, r) => number_tail r
  end.

Definition assign (v : list Z) (k : control) : control :=
  mk_ctl (k_name k) (k_kind k)
    match k_kind k with
    | Hidden => Entry v
    | TextBox _ => Entry (no_breaks v)
    | NumberBox => Entry (if valid_number v then v else [])
    | Choice os => Pick (if existsb (beq v) os then Some v else None)
    | Tick w => Check (beq w v)
    end.

(** Text of a JSON value in the script: a string is itself; a number of at most 15 digits without leading zero is printed
    as it is written. Other values are outside the model. *)
Definition script_text (j : json) : option (list Z) :=
  match j with
  | JStr s => Some s
  | JNum l =>
      if forallb isdigit l && Nat.leb (List.length l) 15 && (beq l [48] || negb (hd 48 l =? 48)) then Some l else None
  | _ => None
  end.

(** One member: the control of that name takes the value; if there is none nothing happens. Several controls of the same
    name are outside the model. *)
Definition named (n : list Z) (k : control) : bool := beq (k_name k) n.
Definition fill_one (n v : list Z) (p : page) : option page :=
  match filter (named n) p with
  | [] => Some p
  | [_] => Some (map (fun k => if named n k then assign v k else k) p)
  | _ => None
  end.
Fixpoint fill (ms : list (list Z * list Z)) (p : page) : option page :=
  match ms with
  | [] => Some p
  | (n, v) :: ms' => p' <- fill_one n v p ;; fill ms' p'
  end.
Fixpoint member_texts (ms : list (list Z * json)) : option (list (list Z * list Z)) :=
  match ms with
  | [] => Some []
  | (n, j) :: ms' => v <- script_text j ;; r <- member_texts ms' ;; Some ((n, v) :: r)
  end.

(** The configuration tab is shown: data_src/index.html:880-886. [answer] is the body of /config.json. If it is not JSON the
    form stays as it is (.fail). *)
Definition open_tab (answer : list Z) (p : page) : option page :=
  match json_of answer with
  | None => Some p
  | Some (JObj ms) => ts <- member_texts ms ;; fill ts p
  | Some _ => None
  end.

(** ** Sending: jQuery serialize (data_src/js/wifinfo.js:4), called at data_src/index.html:988-1001. The validator plug-in can
    only prevent the sending; it is not modelled. *)

(** serializeArray: boxes not ticked and menus without selection are left out. The values hold no line break, so the
    replacement of line breaks does nothing. *)
Definition sent_value (k : control) : option (list Z) :=
  match k_kind k, k_now k with
  | Tick w, Check true => Some w
  | Tick _, _ => None
  | _, Pick v => v
  | _, Entry v => Some v
  | _, Check _ => None
  end.
Fixpoint sent_pairs (p : page) : form :=
  match p with
  | [] => []
  | k :: p' => match sent_value k with
               | Some v => (k_name k, v) :: sent_pairs p'
               | None => sent_pairs p'
               end
  end.

(** encodeURIComponent, on bytes: letters, digits and - _ . ! ~ * ' ( ) are kept. *)
Definition unreserved (c : Z) : bool :=
  isalpha c || isdigit c || existsb (Z.eqb c) [45; 95; 46; 33; 126; 42; 39; 40; 41].
Definition hexd (d : Z) : Z := if d <? 10 then 48 + d else 55 + d.
Fixpoint encode (s : list Z) : list Z :=
  match s with
  | [] => []
  | c :: t => (if unreserved c then [c] else [37; hexd (c / 16); hexd (c mod 16)]) ++ encode t
  end.

(** replace(/%20/g, "+") *)
Fixpoint plus_for_space (s : list Z) : list Z :=
  match s with
  | [] => []
  | c :: t =>
      if c =? 37 then
        match t with
        | a :: t' => match t' with
                     | b :: t'' => if (a =? 50) && (b =? 48) then 43 :: plus_for_space t'' else c :: plus_for_space t
                     | [] => c :: plus_for_space t
                     end
        | [] => c :: plus_for_space t
        end
      else c :: plus_for_space t
  end.

(** jQuery.param *)
Fixpoint joined (l : list (list Z)) : list Z :=
  match l with
  | [] => []
  | a :: l' => match l' with [] => a | _ => a ++ [38] ++ joined l' end
  end.
Definition param (f : form) : list Z :=
  plus_for_space (joined (map (fun p => encode (fst p) ++ [61] ++ encode (snd p)) f)).

(** The body of the request sent by the button. *)
Definition serialize (p : page) : list Z := param (sent_pairs p).

(** ** Reading by the web server: ESP8266WebServer::_parseArguments and urlDecode (ESP8266 core library, not in /repo). The
    separators are & and ;, an argument without name is skipped, + is a space, % followed by two characters is strtol of
    them in base 16. *)
Definition hexval (c : Z) : option Z := Json.hex c.
Definition strtol16 (a b : Z) : Z :=
  match hexval a with
  | None => 0
  | Some x => match hexval b with None => x | Some y => x * 16 + y end
  end.
Fixpoint url_decode (s : list Z) : list Z :=
  match s with
  | [] => []
  | c :: t =>
      if c =? 37 then
        match t with
        | a :: t' => match t' with
                     | b :: t'' => strtol16 a b :: url_decode t''
                     | [] => c :: url_decode t
                     end
        | [] => c :: url_decode t
        end
      else (if c =? 43 then 32 else c) :: url_decode t
  end.
(** The text before the first separator, and what follows the separator if there is one. *)
Fixpoint until (sep : Z -> bool) (s : list Z) : list Z * option (list Z) :=
  match s with
  | [] => ([], None)
  | c :: t => if sep c then ([], Some t) else let '(a, r) := until sep t in (c :: a, r)
  end.
Definition one_argument (s : list Z) : form :=
  let '(n, v) := until (Z.eqb 61) s in
  match n with
  | [] => []
  | _ => [(url_decode n, match v with Some v => url_decode v | None => [] end)]
  end.
Fixpoint arguments (fuel : nat) (s : list Z) : option form :=
  match fuel with
  | O => None
  | S f =>
      let '(a, r) := until (fun c => (c =? 38) || (c =? 59)) s in
      match r with
      | None => Some (one_argument a)
      | Some t => l <- arguments f t ;; Some (one_argument a ++ l)
      end
  end.
(** The fuel is always enough (FormProofs.v). *)
Definition parse_arguments (s : list Z) : option form := arguments (S (List.length s)) s.
