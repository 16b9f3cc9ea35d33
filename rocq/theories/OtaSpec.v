(** Specification for C98. *)
From Coq Require Import ZArith List Bool.
From Verif Require Import Base Config Ota.
Import ListNotations.
Open Scope Z_scope.

(** The settings now, and those of the last start, after a history given with its effects. The module starts with [c0]. *)
Definition is_restart (o : out) : bool := match o with Restart => true | _ => false end.
Definition starts (x : event * list out) : bool := match fst x with Reboots => true | _ => existsb is_restart (snd x) end.
Definition settings_after (c0 : cfg) (tr : list (event * list out)) : cfg * cfg :=
  fold_left (fun a x => let now := match fst x with Saved c => c | _ => fst a end in (now, if starts x then now else snd a)) tr (c0, c0).
(** The password in force: the one of the settings at the last start. *)
Definition password (c0 : cfg) (tr : list (event * list out)) : list Z := text OtaAuth (snd (settings_after c0 tr)).

(** The response to a challenge by someone who knows the password: md5(md5(password):nonce:cnonce). *)
Definition response (md5 : list Z -> list Z) (pw nonce cnonce : list Z) : list Z :=
  md5 (md5 pw ++ str ":" ++ nonce ++ str ":" ++ cnonce).

Definition no_datagram (es : list event) : Prop := forall p d n, ~ In (Comes p d n) es.

(** MD5 as 32 digits. *)
Definition digits32 (md5 : list Z -> list Z) : Prop := forall x, length (md5 x) = 32%nat.
