(** Specification of the LED and of the delayed restart: what can be seen from outside. *)
From Coq Require Import ZArith List Bool.
From Verif Require Import Base Publish Web WebSpec Device Led.
Import ListNotations.
Open Scope Z_scope.

(** The module has just started: it has received nothing, whatever its frame buffers contain. *)
Definition just_started (d : device) : Prop :=
  exists g1 g2, length g1 = 350%nat /\ length g2 = 350%nat /\ d_pub d = pub_init g1 g2.

(** What loop() met, and the milliseconds that passed. *)
Definition met (es : list bevent) : list devent := flat_map (fun e => match e with Meets e => [e] | Ms => [] end) es.
Fixpoint elapsed (es : list bevent) : Z :=
  match es with [] => 0 | Ms :: r => 1 + elapsed r | _ :: r => elapsed r end.

(** The LED as someone looking at it sees it, off at the end of setup(). *)
Definition switched (os : list bout) : list bool := flat_map (fun o => match o with Lamp on => [on] | _ => [] end) os.
Definition lit (os : list (list bout)) : bool := last (switched (concat os)) false.

(** Nothing starts, ends or spoils an upload; nothing but data is asked of the web server. *)
Definition uploads_go_on (es : list bevent) : Prop :=
  forall a u, In (Meets (DUpload a u)) es -> exists data ended, u = UpWrite data true ended.
Definition no_order (es : list bevent) : Prop :=
  forall a q, In (Meets (DHttp a q)) es -> q_uri q <> str "/update" /\ q_uri q <> str "/reset" /\ q_uri q <> str "/factory_reset".
