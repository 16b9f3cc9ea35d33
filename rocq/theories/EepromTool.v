(** Model of tools/eeprom.py: write_eeprom (lines 47-121) and read_eeprom (lines 124-176).

    A Python str is modelled by its UTF-8 bytes; encode() is then the identity, and decode() fails ([None]) on bytes
    that are not UTF-8. The yaml/json file holding the dictionary is modelled by the record [settings]; the entry "crc",
    which read_eeprom only prints, is left out. The flash tool (esptool.py) is not modelled. *)
From Coq Require Import ZArith List Bool Lia.
From Verif Require Import Base Config ConfigSpec.
Import ListNotations.
Open Scope Z_scope.

(** ** struct.pack *)

(** Format "<n>s": cut to n bytes or filled with NUL bytes. *)
Definition pack_s (n : nat) (b : list Z) : list Z := firstn n b ++ repeat 0 (n - List.length b).
(** Formats "B", "H", "I": an exception (None) if the value does not fit. *)
Definition pack_B (v : Z) : option (list Z) := if (0 <=? v) && (v <? 256) then Some [v] else None.
Definition pack_H (v : Z) : option (list Z) := if (0 <=? v) && (v <? 65536) then Some (le16 v) else None.
Definition pack_I (v : Z) : option (list Z) := if (0 <=? v) && (v <? 4294967296) then Some (le32 v) else None.

(** ** The CRC loop, tools/eeprom.py:107-114 *)
Definition tool_bit (crc : Z) : Z :=
  if Z.land crc 1 =? 0 then Z.shiftr crc 1 else Z.lxor (Z.shiftr crc 1) 40961.
Fixpoint tool_bits (n : nat) (crc : Z) : Z :=
  match n with
  | O => crc
  | S n' => tool_bits n' (tool_bit crc)
  end.
Fixpoint tool_crc (b : list Z) (crc : Z) : Z :=
  match b with
  | [] => crc
  | a :: t => tool_crc t (tool_bits 8 (Z.lxor crc a))
  end.

(** ** write_eeprom *)
Definition int_of (b : bool) : Z := if b then 1 else 0.

(** tools/eeprom.py:50-58 *)
Definition write_emoncms (s : settings) : option (list Z) :=
  p <- pack_H (s_emon_port s) ;; n <- pack_B (s_emon_node s) ;; f <- pack_I (s_emon_freq s) ;;
  Some (pack_s 33 (s_emon_host s) ++ pack_s 33 (s_emon_key s) ++ pack_s 33 (s_emon_url s) ++ p ++ n ++ f).

(** tools/eeprom.py:60-68 *)
Definition write_jeedom (s : settings) : option (list Z) :=
  p <- pack_H (s_jdom_port s) ;; f <- pack_I (s_jdom_freq s) ;;
  Some (pack_s 33 (s_jdom_host s) ++ pack_s 49 (s_jdom_key s) ++ pack_s 65 (s_jdom_url s) ++
        pack_s 13 (s_jdom_adco s) ++ p ++ f).

(** tools/eeprom.py:70-84 *)
Definition write_httpreq (s : settings) : option (list Z) :=
  let flags := Z.lor (Z.lor (Z.lor (int_of (s_adps s)) (Z.shiftl (int_of (s_ptec s)) 1))
                            (Z.shiftl (int_of (s_seuils s)) 2))
                     (Z.shiftl (int_of (s_use_post s)) 7) in
  p <- pack_H (s_http_port s) ;; f <- pack_I (s_http_freq s) ;; b <- pack_B flags ;;
  h <- pack_H (s_seuil_haut s) ;; l <- pack_H (s_seuil_bas s) ;;
  Some (pack_s 33 (s_http_host s) ++ pack_s 151 (s_http_url s) ++ p ++ f ++ b ++ h ++ l).

(** tools/eeprom.py:86-121 *)
Definition write_eeprom (s : settings) : option (list Z) :=
  emoncms <- write_emoncms s ;;
  jeedom <- write_jeedom s ;;
  httpreq <- write_httpreq s ;;
  led <- pack_I (int_of (s_led s)) ;; port <- pack_H (s_ota_port s) ;; sse <- pack_H (s_sse_freq s) ;;
  let eeprom :=
    pack_s 33 (s_ssid s) ++ pack_s 65 (s_psk s) ++ pack_s 17 (s_host s) ++ pack_s 65 (s_ap_psk s) ++
    pack_s 65 (s_ota_auth s) ++ led ++ port ++ sse ++ pack_s 32 (s_username s) ++ pack_s 32 (s_password s) ++
    pack_s 65 [] ++ pack_s 128 emoncms ++ pack_s 256 jeedom ++ pack_s 256 httpreq in
  c <- pack_H (tool_crc eeprom 65535) ;;
  let eeprom := eeprom ++ c in
  if Nat.eqb (List.length eeprom) 1024 then Some eeprom else None.

(** ** read_eeprom *)

(** struct.unpack with a list of field sizes: the length must match; unpack_from: the buffer may be longer. *)
Fixpoint split_at (ns : list nat) (b : list Z) : list (list Z) :=
  match ns with
  | [] => []
  | n :: ns' => firstn n b :: split_at ns' (skipn n b)
  end.
Definition unpack (ns : list nat) (b : list Z) : option (list (list Z)) :=
  if Nat.eqb (List.length b) (list_sum ns) then Some (split_at ns b) else None.
Definition unpack_from (ns : list nat) (b : list Z) : option (list (list Z)) :=
  if Nat.leb (list_sum ns) (List.length b) then Some (split_at ns b) else None.

(** rstrip(b"\0") *)
Fixpoint rstrip (b : list Z) : list Z :=
  match b with
  | [] => []
  | x :: t => match rstrip t with
              | [] => if x =? 0 then [] else [x]
              | t' => x :: t'
              end
  end.

(** Strict UTF-8 (RFC 3629), as decode() requires. *)
Definition cont (c : Z) : bool := (128 <=? c) && (c <=? 191).
Fixpoint utf8 (fuel : nat) (b : list Z) : bool :=
  match fuel with
  | O => false
  | S f =>
    match b with
    | [] => true
    | c :: t =>
      if (0 <=? c) && (c <=? 127) then utf8 f t
      else match t with
      | [] => false
      | c1 :: t1 =>
        if (194 <=? c) && (c <=? 223) then cont c1 && utf8 f t1
        else match t1 with
        | [] => false
        | c2 :: t2 =>
          if (224 <=? c) && (c <=? 239) then
            cont c1 && cont c2 && (negb (c =? 224) || (160 <=? c1)) && (negb (c =? 237) || (c1 <=? 159)) && utf8 f t2
          else match t2 with
          | [] => false
          | c3 :: t3 =>
            (240 <=? c) && (c <=? 244) && cont c1 && cont c2 && cont c3 &&
            (negb (c =? 240) || (144 <=? c1)) && (negb (c =? 244) || (c1 <=? 143)) && utf8 f t3
          end
        end
      end
    end
  end.
Definition is_utf8 (b : list Z) : bool := utf8 (S (List.length b)) b.
Definition decode (b : list Z) : option (list Z) := if is_utf8 b then Some b else None.
Definition get_str (i : nat) (d : list (list Z)) : option (list Z) := decode (rstrip (nth i d [])).
Definition get_int (i : nat) (d : list (list Z)) : Z := le_value (nth i d []).
Definition truth (v : Z) : bool := negb (v =? 0).

Definition read_eeprom (b : list Z) : option settings :=
  d <- unpack [33; 65; 17; 65; 65; 4; 2; 2; 32; 32; 65; 128; 256; 256; 2]%nat b ;;
  ssid <- get_str 0 d ;; psk <- get_str 1 d ;; host <- get_str 2 d ;; ap_psk <- get_str 3 d ;; ota <- get_str 4 d ;;
  user <- get_str 8 d ;; pass <- get_str 9 d ;;
  e <- unpack_from [33; 33; 33; 2; 1; 4]%nat (nth 11 d []) ;;
  ehost <- get_str 0 e ;; ekey <- get_str 1 e ;; eurl <- get_str 2 e ;;
  j <- unpack_from [33; 49; 65; 13; 2; 4]%nat (nth 12 d []) ;;
  jhost <- get_str 0 j ;; jkey <- get_str 1 j ;; jurl <- get_str 2 j ;; adco <- get_str 3 j ;;
  h <- unpack_from [33; 151; 2; 4; 1; 2; 2]%nat (nth 13 d []) ;;
  hhost <- get_str 0 h ;; hurl <- get_str 1 h ;;
  let flags := get_int 4 h in
  Some (mk_settings
    ssid psk host ap_psk ota (get_int 6 d) user pass
    (get_int 7 d) (truth (Z.land (get_int 5 d) 1))
    ehost ekey eurl (get_int 3 e) (get_int 4 e) (get_int 5 e)
    jhost jkey jurl adco (get_int 4 j) (get_int 5 j)
    hhost hurl (get_int 2 h) (get_int 3 h)
    (truth (Z.land flags 1)) (truth (Z.shiftr (Z.land flags 2) 1)) (truth (Z.shiftr (Z.land flags 4) 2))
    (truth (Z.shiftr (Z.land flags 128) 7))
    (get_int 5 h) (get_int 6 h)).
