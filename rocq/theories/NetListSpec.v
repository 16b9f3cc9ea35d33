(** Specification of the list of networks. *)
From Coq Require Import ZArith List Bool Lia.
From Verif Require Import Base ConfigSpec Json.
Import ListNotations.
Open Scope Z_scope.

(** The settings with another network and key. *)
Definition with_network (ssid key : list Z) (s : settings) : settings :=
  mk_settings ssid key (s_host s) (s_ap_psk s) (s_ota_auth s) (s_ota_port s) (s_username s) (s_password s)
    (s_sse_freq s) (s_led s) (s_emon_host s) (s_emon_key s) (s_emon_url s) (s_emon_port s) (s_emon_node s) (s_emon_freq s)
    (s_jdom_host s) (s_jdom_key s) (s_jdom_url s) (s_jdom_adco s) (s_jdom_port s) (s_jdom_freq s)
    (s_http_host s) (s_http_url s) (s_http_port s) (s_http_freq s) (s_adps s) (s_ptec s) (s_seuils s) (s_use_post s)
    (s_seuil_haut s) (s_seuil_bas s).

(** A text of at most n bytes that the page can show: no control character, quote or backslash. *)
Definition text_of (n : nat) (t : list Z) : Prop := quotable t = true /\ bytes t /\ (length t <= n)%nat.

(** The elements that a piece of HTML opens: the letters that follow an opening bracket. *)
Definition letter (c : Z) : bool := (97 <=? c) && (c <=? 122) || (65 <=? c) && (c <=? 90).
Fixpoint letters (s : list Z) : list Z :=
  match s with [] => [] | c :: t => if letter c then c :: letters t else [] end.
Fixpoint elements (s : list Z) : list (list Z) :=
  match s with
  | [] => []
  | c :: t => match letters t with
              | [] => elements t
              | w => if c =? 60 then w :: elements t else elements t
              end
  end.
