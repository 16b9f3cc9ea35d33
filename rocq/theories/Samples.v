(** Concrete frames used by the examples and counter-examples. *)
From Coq Require Import ZArith List Bool.
From Verif Require Import Base Teleinfo TeleinfoSpec Publish.
Import ListNotations.
Open Scope Z_scope.

Definition now0 : timeval := mk_tv 1580000000 250000.
Definition ev (l : list Z) : list event := map (fun c => (now0, c)) l.
Definition feed (l : list Z) : list pub_event := map (fun c => Byte now0 c) l.
Definition blank : list Z := repeat 170 350.

(** A typical frame of a French meter. *)
Definition meter : list tgroup :=
  [ (32, (str "ADCO", str "111111111111")); (32, (str "OPTARIF", str "HC.."));
    (32, (str "ISOUSC", str "30")); (32, (str "HCHC", str "052890470")); (32, (str "HCHP", str "049126843"));
    (32, (str "PTEC", str "HP..")); (32, (str "IINST", str "008")); (32, (str "IMAX", str "042"));
    (32, (str "PAPP", str "01890")); (9, (str "HHPHC", str "D")); (32, (str "MOTDETAT", str "000000")) ].
Definition meter_bytes : list Z := frame_bytes (map enc_t meter).
Definition good_tb (x : tgroup) : bool :=
  let c7 c := (0 <? c) && (c <? 128) && negb (is_ctrl c) in
  c7 (fst x) && forallb c7 (fst (snd x)) && forallb c7 (snd (snd x))
  && negb (existsb (Z.eqb (fst x)) (fst (snd x))) && Nat.leb 1 (List.length (fst (snd x)) + List.length (snd (snd x))).
Definition fitsb (bodies : list (list Z)) : bool :=
  snd (fold_left (fun acc b => (fst acc + List.length (kept b), snd acc && Nat.ltb (fst acc + List.length b) 348))%nat bodies (0%nat, true)).

(** Two frames with decoding paused in the middle of the first and resumed in the middle of the second. *)
Definition c50_events : list pub_event :=
  let f1 := frame_bytes [enc_group 32 (str "PAPP", str "00100"); enc_group 32 (str "IINST", str "001")] in
  let f2 := frame_bytes [enc_group 32 (str "PAPP", str "09000"); enc_group 32 (str "IINST", str "040")] in
  feed (firstn 15 f1) ++ [Pause true] ++ feed (skipn 15 f1) ++ feed (firstn 15 f2) ++ [Pause false] ++ feed (skipn 15 f2).
