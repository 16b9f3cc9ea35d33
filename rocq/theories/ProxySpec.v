(** Specification of the development proxy (C117). *)
From Coq Require Import ZArith List Bool Lia.
From Verif Require Import Base Web.
Import ListNotations.
Open Scope Z_scope.

Definition starts_with (p uri : list Z) : Prop := exists rest, uri = p ++ rest.
(** The addresses of the module that the proxy knows. *)
Definition known : list (list Z) :=
  [str "/json"; str "/tinfo.json"; str "/system.json"; str "/config.json"; str "/config_form.json"; str "/spiffs.json"; str "/wifiscan.json"; str "/sse/json"; str "/tic"; str "/reset"; str "/factory_reset"; str "/hb.html"].
Definition for_module (uri : list Z) : Prop := exists p, In p known /\ starts_with p uri.
(** What the page of the site asks for its tabs, its gauges, its settings and its buttons (data_src/index.html:872, 878, 883, 891, 896, 960, 967, 994). *)
Definition asked_by_page : list (list Z) :=
  [str "/tinfo.json"; str "/system.json"; str "/config.json"; str "/wifiscan.json"; str "/sse/json"; str "/factory_reset"; str "/reset"; str "/config_form.json"].
(** The folders of the site, and its icon. *)
Definition of_site (uri : list Z) : Prop := exists p, In p ([str "/css/"; str "/js/"; str "/fonts/"; str "/favicon.ico"]) /\ starts_with p uri.
