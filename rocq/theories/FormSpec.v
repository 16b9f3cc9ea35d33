(** Specification of the settings page: what a user sees and does there. *)
From Coq Require Import ZArith List Bool Lia.
From Verif Require Import Base Config ConfigSpec Json Form.
Import ListNotations.
Open Scope Z_scope.

(** The periods that can be chosen in the page, in seconds. *)
Definition listed_periods : list Z := [0; 15; 30; 60; 300; 900; 1800; 3600; 21600; 42300; 86400].
Definition periods_listed (s : settings) : Prop :=
  In (s_emon_freq s) listed_periods /\ In (s_jdom_freq s) listed_periods /\ In (s_http_freq s) listed_periods.

(** The texts that a page shows. A restricted page shows none of the first ones. *)
Definition private_words (s : settings) : list (list Z) :=
  [s_ssid s; s_psk s; s_host s; s_ap_psk s; s_ota_auth s; s_username s; s_password s].
Definition public_words (s : settings) : list (list Z) :=
  [s_emon_host s; s_emon_key s; s_emon_url s; s_jdom_host s; s_jdom_key s; s_jdom_url s; s_jdom_adco s; s_http_host s; s_http_url s].
Definition page_words (restricted : bool) (s : settings) : list (list Z) :=
  (if restricted then [] else private_words s) ++ public_words s.

(** Settings that a page can show: texts without control character, quote or backslash, numbers within their limits, periods
    of the menus. *)
Definition showable (restricted : bool) (s : settings) : Prop :=
  Forall (fun t => quotable t = true) (page_words restricted s) /\ in_range s /\ periods_listed s.

(** A page with the controls of the form, whatever they hold. *)
Definition same_form (restricted : bool) (p : page) : Prop :=
  map (fun k => (k_name k, k_kind k)) p = map (fun k => (k_name k, k_kind k)) (blank_page restricted).

(** What each control is for: a text of at most so many bytes, a number up to a limit, a period, a yes or no, or the mark
    of the form. *)
Inductive purpose := Words (room : nat) | Number (max : Z) | Period | YesNo | Mark.
Definition purposes : list (list Z * purpose) :=
  [ (str "save", Mark);
    (str "ssid", Words 32); (str "psk", Words 64); (str "host", Words 16); (str "username", Words 31); (str "password", Words 31);
    (str "emon_host", Words 32); (str "emon_port", Number 65535); (str "emon_url", Words 32); (str "emon_apikey", Words 32);
    (str "emon_freq", Period); (str "emon_node", Number 255);
    (str "jdom_host", Words 32); (str "jdom_port", Number 65535); (str "jdom_url", Words 64); (str "jdom_apikey", Words 48);
    (str "jdom_freq", Period); (str "jdom_adco", Words 12);
    (str "httpreq_host", Words 32); (str "httpreq_port", Number 65535); (str "httpreq_url", Words 150);
    (str "httpreq_use_post", YesNo); (str "httpreq_freq", Period);
    (str "httpreq_trigger_ptec", YesNo); (str "httpreq_trigger_adps", YesNo); (str "httpreq_trigger_seuils", YesNo);
    (str "httpreq_seuil_bas", Number 20000); (str "httpreq_seuil_haut", Number 20000);
    (str "ap_psk", Words 64); (str "ota_auth", Words 64); (str "ota_port", Number 65535);
    (str "sse_freq", Number 360); (str "cfg_led_tinfo", YesNo) ].
Definition purpose_of (name : list Z) : option purpose :=
  match find (fun q => beq (fst q) name) purposes with Some q => Some (snd q) | None => None end.

(** A control filled sensibly: a text without control character, quote or backslash that fits; a number within its limits in
    the usual notation; an option of the menu. *)
Definition sensible (k : control) : Prop :=
  match purpose_of (k_name k), k_now k with
  | Some (Words n), Entry t => quotable t = true /\ bytes t /\ (List.length t <= n)%nat
  | Some (Number hi), Entry t => exists n, 0 <= n <= hi /\ t = dec n
  | Some Period, Pick (Some o) => In o periods
  | Some YesNo, Check _ => True
  | Some Mark, Entry t => t = str "1"
  | _, _ => False
  end.

(** A control that the browser lets a user fill that way: no more characters than its limit. A character of the first 65536
    code points counts for one; its UTF-8 form has one byte that is not a continuation byte. *)
Definition characters (t : list Z) : nat := List.length (filter (fun c => negb ((128 <=? c) && (c <? 192))) t).
Definition typable (k : control) : Prop :=
  match k_kind k, k_now k with
  | TextBox (Some m), Entry t => (characters t <= m)%nat
  | _, _ => True
  end.

(** What a user sees of a page: the names and contents of its controls. *)
Definition shown_value (p : page) (name : String.string) : option content :=
  match find (fun k => beq (k_name k) (str name)) p with Some k => Some (k_now k) | None => None end.
Arguments shown_value _ _%string_scope.

(** ** The period menus: the seconds announced by a label *)
Definition announced (label : list Z) : option Z :=
  if beq label (str "désactivée") then Some 0
  else if beq label (str "toutes les 15 secondes") then Some 15
  else if beq label (str "toutes les 30 secondes") then Some 30
  else if beq label (str "toutes les minutes") then Some 60
  else if beq label (str "toutes les 5 minutes") then Some (5 * 60)
  else if beq label (str "tous les 1/4 d'heure") then Some (15 * 60)
  else if beq label (str "toutes les 1/2 heure") then Some (30 * 60)
  else if beq label (str "toutes les heures") then Some 3600
  else if beq label (str "toutes les 6 heures") then Some (6 * 3600)
  else if beq label (str "toutes les 12 heures") then Some (12 * 3600)
  else if beq label (str "tous les jours") then Some (24 * 3600)
  else None.
