(** Specification: the UTF-8 encoding of a text, written from its definition (RFC 3629, section 3), independent of the decoder
    of the model. *)
From Coq Require Import ZArith List.
Import ListNotations.
Open Scope Z_scope.

(** The code points: up to 0x10FFFF, without the surrogates 0xD800 to 0xDFFF. *)
Definition code_point (n : Z) : Prop := 0 <= n < 1114112 /\ ~ (55296 <= n <= 57343).
(** The bytes of one. *)
Definition utf8_bytes (n : Z) : list Z :=
  if n <? 128 then [n]
  else if n <? 2048 then [192 + n / 64; 128 + n mod 64]
  else if n <? 65536 then [224 + n / 4096; 128 + n / 64 mod 64; 128 + n mod 64]
  else [240 + n / 262144; 128 + n / 4096 mod 64; 128 + n / 64 mod 64; 128 + n mod 64].
(** A text in UTF-8. *)
Definition utf8_text (b : list Z) : Prop := exists points, Forall code_point points /\ b = concat (map utf8_bytes points).
