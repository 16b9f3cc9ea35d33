(** Specification: a login keeps strangers out. *)
From Coq Require Import ZArith List Bool.
From Verif Require Import Base Config ConfigSpec Web Device WebSpec Life LifeSpec.
Import ListNotations.
Open Scope Z_scope.

(** What may happen when nobody who knows the login (u, p) changes the settings: starts at any time, bytes, time; any request
    that does not carry the login, and requests that do, except those that write the settings. Uploads are left out: a
    stranger can replace the whole program by one (C33). *)
Definition nobody_changes (u p : list Z) (e : levent) : Prop :=
  match e with
  | PowerOn _ => True
  | Event (DHttp _ q) _ => q_accepts q u p = false \/ q_uri q <> str "/config_form.json" /\ q_uri q <> str "/factory_reset"
  | Event (DUpload _ _) _ => False
  | Event _ _ => True
  end.

(** The module demands the login (u, p): a request without it changes nothing, gets a response that says nothing (it is the
    same for every module that refuses the request), at the addresses of the module the demand for the login. One that
    carries it is not refused, and has full access if it does not come through a proxy. *)
Definition demands (fuel : nat) (bd : build) (u p : list Z) (m : module) : Prop :=
  match m with
  | Off _ => True
  | On d cl =>
      (forall a q raw, q_accepts q u p = false -> ordinary_event (DHttp a q) ->
         exists o, lstep fuel bd (Event (DHttp a q) raw) m = Done (m, map Did o) /\ Forall only_response o /\
           (In (q_uri q) protected_uris \/ q_uri q = str "/update" /\ q_method q <> OTHER ->
            o = [Reply 401 Html (str "Authentication Failed")]) /\
           forall a' d' cl', same_site a a' -> refused q d' ->
             lstep fuel bd (Event (DHttp a' q) raw) (On d' cl') = Done (On d' cl', map Did o)) /\
      (forall q, q_accepts q u p = true -> ~ refused q d /\ (q_forwarded q = false -> fully_allowed q d))
  end.

(** A start whose write of the network taken over from the SDK, if there is one, is not cut by a power failure. *)
Definition start_uncut (e : levent) : Prop :=
  match e with PowerOn b => forall n, b_o3 b <> Torn n | Event _ _ => True end.
