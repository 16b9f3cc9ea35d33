(** Model of src/teleinfo.h: the Teleinfo frame, its accessors and the TeleinfoDecoder automaton. *)
From Coq Require Import ZArith List Bool Lia.
From Verif Require Import Base.
Import ListNotations.
Open Scope Z_scope.

(** src/teleinfo.h:10-15 *)
Definition STX := 2.
Definition ETX := 3.
Definition EOT := 4.
Definition LF := 10.
Definition CR := 13.

(** src/teleinfo.h:43 *)
Definition MAX_FRAME_SIZE : nat := 350.

(** struct timeval; filled by gettimeofday (src/teleinfo.h:48, 436). *)
Record timeval := mk_tv { tv_sec : Z; tv_usec : Z }.

(** ** TeleinfoDecoder (src/teleinfo.h:402-562) *)

(** src/teleinfo.h:406-411 *)
Inductive dstate := WaitStx | WaitLfOrEtx | WaitCr.

(** src/teleinfo.h:46-48, 404-411. The decoder inherits the frame of Teleinfo; the inherited ring of
    consumptions is never touched by the decoder and is left out here. [d_frame] holds the byte
    patterns of the [char] array. *)
Record decoder := mk_dec {
  d_frame : list Z;
  d_size : nat;
  d_ts : timeval;
  d_off : nat;
  d_start : nat;
  d_state : dstate }.

(** Value of a plain [char] holding byte pattern [b], for both signednesses of [char]. *)
Definition char_val (sgn : bool) (b : Z) : Z := if sgn && (128 <=? b) then b - 256 else b.

(** Checksum loop, src/teleinfo.h:471-481: [n] iterations from index [i]; the first byte equal to the
    separator becomes NUL, then sep := (char)-1, i.e. pattern 255. Comparison of two chars is
    comparison of their patterns. Returns the sum and the buffer. *)
Fixpoint ck_loop (sgn : bool) (n i : nat) (sep sum : Z) (fr : list Z) : option (Z * list Z) :=
  match n with
  | O => Some (sum, fr)
  | S n' =>
      b <- rd fr i ;;
      let sum' := sum + char_val sgn b in
      if b =? sep
      then fr' <- upd fr i 0 ;; ck_loop sgn n' (S i) 255 sum' fr'
      else ck_loop sgn n' (S i) sep sum' fr
  end.

(** Removal of trailing dots, src/teleinfo.h:488-492. *)
Fixpoint strip_loop (off : nat) (fr : list Z) : option nat :=
  match off with
  | S (S k as m) => b <- rd fr k ;; if b =? 46 then strip_loop m fr else Some off
  | _ => Some off
  end.

(** Record updates of the decoder (assignments to single members). *)
Definition set_state (d : decoder) (s : dstate) : decoder :=
  mk_dec (d_frame d) (d_size d) (d_ts d) (d_off d) (d_start d) s.

(** TeleinfoDecoder::ready, src/teleinfo.h:422-425 *)
Definition ready (d : decoder) : bool := negb (Nat.eqb (d_size d) 0).

(** End of a group, branch [c == CR] in state wait_cr: src/teleinfo.h:453-521.
    The size_t subtractions cannot wrap because offset >= 4 has been tested. *)
Definition put_cr (sgn : bool) (d : decoder) : option decoder :=
  let off := d_off d in
  if (Nat.leb 4 off && Nat.ltb off (MAX_FRAME_SIZE - 2))%bool then
    if Nat.ltb (d_start d) (off - 3) then
      sep <- rd (d_frame d) (off - 2) ;;
      ckb <- rd (d_frame d) (off - 1) ;;
      '(sum, fr) <- ck_loop sgn (off - 2 - d_start d) (d_start d) sep 0 (d_frame d) ;;
      if (Z.land sum 63 + 32) =? char_val sgn ckb then
        off' <- strip_loop (off - 1) fr ;;
        fr' <- upd fr (off' - 1) 0 ;;
        Some (mk_dec fr' (d_size d) (d_ts d) off' (d_start d) WaitLfOrEtx)
      else Some (mk_dec fr (d_size d) (d_ts d) off (d_start d) WaitStx)
    else Some (set_state d WaitStx)
  else Some (set_state d WaitStx).

(** TeleinfoDecoder::put, src/teleinfo.h:427-562. [now] is what time_cb_ would return.
    [c] is the received byte (0..255; Serial.read() is only called when a byte is available). *)
Definition put (sgn : bool) (now : timeval) (c : Z) (d0 : decoder) : option decoder :=
  let d := mk_dec (d_frame d0) 0 (d_ts d0) (d_off d0) (d_start d0) (d_state d0) in
  if c =? STX then Some (mk_dec (d_frame d) 0 now 0 (d_start d) WaitLfOrEtx)
  else if c =? LF then
    match d_state d with
    | WaitLfOrEtx => Some (mk_dec (d_frame d) 0 (d_ts d) (d_off d) (d_off d) WaitCr)
    | _ => Some (set_state d WaitStx)
    end
  else if c =? CR then
    match d_state d with
    | WaitCr => put_cr sgn d
    | _ => Some (set_state d WaitStx)
    end
  else if c =? ETX then
    match d_state d with
    | WaitLfOrEtx => Some (mk_dec (d_frame d) (d_off d) (d_ts d) (d_off d) (d_start d) WaitStx)
    | _ => Some (set_state d WaitStx)
    end
  else if c =? EOT then Some (set_state d WaitStx)
  else
    match d_state d with
    | WaitCr =>
        if Nat.ltb (d_off d) MAX_FRAME_SIZE then
          fr <- upd (d_frame d) (d_off d) (u8 c) ;;
          Some (mk_dec fr 0 (d_ts d) (S (d_off d)) (d_start d) WaitCr)
        else Some (set_state d WaitStx)
    | _ => Some (set_state d WaitStx)
    end.

(** A received byte with the clock value at that moment. *)
Definition event := (timeval * Z)%type.

Fixpoint run (sgn : bool) (h : list event) (d : decoder) : option decoder :=
  match h with
  | [] => Some d
  | (now, c) :: h' => d' <- put sgn now c d ;; run sgn h' d'
  end.

(** Freshly constructed decoder (member initialisers, src/teleinfo.h:47-48, 404-411); the content of
    frame_ is not initialised: any 350 bytes. *)
Definition dec_init (garbage : list Z) : decoder := mk_dec garbage 0 (mk_tv 0 0) 0 0 WaitStx.

(** ** Teleinfo accessors. [fr] is frame_, [size] is size_; pointers are indices in frame_. *)

(** "while ( *p != 0) { if (p >= end) return X; ++p; }", src/teleinfo.h:226-231, 241-246, 299-304, 314-319.
    Result: [Some (Some p)]: found a NUL at p; [Some None]: the early return; [None]: read outside the
    array (or loop bound exceeded, which cannot happen with fuel > 350 - p). *)
Fixpoint scan0 (fuel : nat) (fr : list Z) (p e : nat) : option (option nat) :=
  match fuel with
  | O => None
  | S f =>
      b <- rd fr p ;;
      if b =? 0 then Some (Some p)
      else if Nat.leb e p then Some None
      else scan0 f fr (S p) e
  end.

(** One label/value step shared by get_value and get_value_next.
    [Some None]: the "return default/false" exits; [Some (Some (l, v, p))]: label at l, value at v, next at p. *)
Definition step_pair (fr : list Z) (p e : nat) : option (option (nat * nat * nat)) :=
  r <- scan0 (S MAX_FRAME_SIZE) fr p e ;;
  match r with
  | None => Some None
  | Some z =>
      let v := S z in
      if Nat.leb e v then Some None
      else
        r2 <- scan0 (S MAX_FRAME_SIZE) fr v e ;;
        match r2 with
        | None => Some None
        | Some z2 => Some (Some (p, v, S z2))
        end
  end.

(** Teleinfo::get_integer, src/teleinfo.h:385-399, on a pointer into frame_: returns the boolean and the
    (possibly advanced) pointer. isdigit on a byte >= 128 is taken as false (C locale). *)
Fixpoint all_digits (s : list Z) : bool :=
  match s with
  | [] => true
  | c :: t => isdigit c && all_digits t
  end.
Fixpoint skip_zeros (fuel : nat) (fr : list Z) (p : nat) : option nat :=
  match fuel with
  | O => None
  | S f =>
      b <- rd fr p ;;
      if b =? 48 then
        b1 <- rd fr (S p) ;;
        if b1 =? 0 then Some p else skip_zeros f fr (S p)
      else Some p
  end.
Definition get_integer (fr : list Z) (p : nat) : option (bool * nat) :=
  s <- cstr_at fr p ;;
  if all_digits s
  then p' <- skip_zeros (S MAX_FRAME_SIZE) fr p ;; Some (true, p')
  else Some (false, p).

(** Teleinfo::get_value, src/teleinfo.h:216-259: [Some None] is "return default_value".
    [strcmp] is modelled by reading the whole C string at the label and comparing (the C function may
    stop earlier, so this can only produce more undefined behaviour, not less). *)
Fixpoint get_value_loop (fuel : nat) (fr : list Z) (p e : nat) (label : list Z) (rz : bool)
  : option (option nat) :=
  match fuel with
  | O => None
  | S f =>
      if Nat.ltb p e then
        r <- step_pair fr p e ;;
        match r with
        | None => Some None
        | Some (l, v, p') =>
            lab <- cstr_at fr l ;;
            if beq lab label then
              if rz then '(_, v') <- get_integer fr v ;; Some (Some v') else Some (Some v)
            else get_value_loop f fr p' e label rz
        end
      else Some None
  end.
Definition get_value_ptr (fr : list Z) (size : nat) (label : list Z) (rz : bool) : option (option nat) :=
  get_value_loop (S MAX_FRAME_SIZE) fr 0 size label rz.

(** The string a caller sees: default or the C string at the returned pointer. *)
Definition get_value (fr : list Z) (size : nat) (label : list Z) (rz : bool)
  : option (option (list Z)) :=
  r <- get_value_ptr fr size label rz ;;
  match r with
  | None => Some None
  | Some p => s <- cstr_at fr p ;; Some (Some s)
  end.

(** Teleinfo::get_value_int, src/teleinfo.h:261-281. *)
Fixpoint parse_u32 (s : list Z) (u : Z) (default : Z) : Z :=
  match s with
  | [] => u
  | c :: t =>
      let digit := i8 (c - 48) in
      if (9 <? digit) || (digit <? 0) then default
      else parse_u32 t (u32 (digit + u32 (u * 10))) default
  end.
Definition get_value_int (fr : list Z) (size : nat) (label : list Z) (default : Z) : option Z :=
  r <- get_value fr size label true ;;
  match r with
  | None => Some default
  | Some s => Some (parse_u32 s 0 default)
  end.

(** Teleinfo::get_value_next, src/teleinfo.h:283-324. The iteration state is [None] (nullptr) or an index.
    Result [Some None]: returns false; [Some (Some (label, value, state'))]. A state below frame_ cannot be
    represented by an index and is left out. *)
Definition get_value_next (fr : list Z) (size : nat) (st : option nat)
  : option (option (list Z * list Z * nat)) :=
  let go p :=
    r <- step_pair fr p size ;;
    match r with
    | None => Some None
    | Some (l, v, p') =>
        lab <- cstr_at fr l ;;
        val <- cstr_at fr v ;;
        Some (Some (lab, val, p'))
    end in
  match st with
  | None => go 0%nat
  | Some p => if Nat.leb size p then Some None else go p
  end.

(** The usual client loop "while (get_value_next(label, value, &state)) ...", e.g. src/tic.cpp:198-203. *)
Fixpoint iterate (fuel : nat) (fr : list Z) (size : nat) (st : option nat) : option (list (list Z * list Z)) :=
  match fuel with
  | O => None
  | S f =>
      r <- get_value_next fr size st ;;
      match r with
      | None => Some []
      | Some (lab, val, p) => rest <- iterate f fr size (Some p) ;; Some ((lab, val) :: rest)
      end
  end.
Definition all_pairs (fr : list Z) (size : nat) : option (list (list Z * list Z)) :=
  iterate (S MAX_FRAME_SIZE) fr size None.

(** Teleinfo::get_frame_ascii, src/teleinfo.h:346-383; [dst] is the destination array of length [size]. The
    comparison "j >= size - 2" is on size_t: for size < 2 the subtraction wraps to a huge number. *)
Definition dump_limit_reached (j dsize : nat) : bool :=
  if Nat.ltb dsize 2 then false else Nat.leb (dsize - 2) j.
Fixpoint ascii_loop (n i : nat) (fr : list Z) (dst : list Z) (dsize j : nat) (lab : bool)
  : option (list Z * nat) :=
  match n with
  | O => Some (dst, j)
  | S n' =>
      c <- rd fr i ;;
      let out := if c =? 0 then (if lab then 32 else LF) else c in
      let lab' := if c =? 0 then negb lab else lab in
      dst' <- upd dst j out ;;
      if dump_limit_reached (S j) dsize then Some (dst', S j)
      else ascii_loop n' (S i) fr dst' dsize (S j) lab'
  end.
Definition get_frame_ascii (fr : list Z) (size : nat) (dst : list Z) : option (list Z * nat) :=
  '(d, j) <- ascii_loop size 0 fr dst (List.length dst) 0 true ;;
  j' <- (match j with
         | O => Some O
         | S k => b <- rd d k ;; if b =? LF then Some j else Some O
         end) ;;
  d' <- upd d j' 0 ;;
  Some (d', j').

(** Teleinfo::get_seconds, src/teleinfo.h:339-344 (snprintf "%ld.%03d"; the 32-byte buffer is large enough for
    every 64-bit tv_sec). For tv_usec/1000 in 0..999. *)
Definition get_seconds (ts : timeval) : list Z :=
  decs (tv_sec ts) ++ [46] ++ pad0 3 (dec (tv_usec ts / 1000)).

(** ** Teleinfo object with its ring of consumptions *)

(** src/teleinfo.h:50-54 *)
Record conso := mk_conso { date_ms : Z; watt_heure : Z }.
(** src/teleinfo.h:56 *)
Definition CONSO_MAX : nat := 48.

(** src/teleinfo.h:46-59 *)
Record teleinfo := mk_ti {
  t_frame : list Z;
  t_size : nat;
  t_ts : timeval;
  t_consos : list conso;
  t_i : nat;
  t_conso0 : conso }.

(** Constructor, src/teleinfo.h:62-65 *)
Definition ti_init (garbage : list Z) : teleinfo :=
  mk_ti garbage 0 (mk_tv 0 0) (repeat (mk_conso 0 0) CONSO_MAX) 0 (mk_conso 0 0).

Fixpoint updc (m : list conso) (i : nat) (v : conso) : option (list conso) :=
  match m, i with
  | [], _ => None
  | _ :: t, O => Some (v :: t)
  | h :: t, S i' => match updc t i' v with Some t' => Some (h :: t') | None => None end
  end.

(** Teleinfo::copy_from, src/teleinfo.h:67-90. The uint32/time_t arithmetic is modulo 2^32 whatever the
    width of time_t, because the result is stored in a uint32_t. memmove of more than 350 bytes would be
    undefined. *)
Definition copy_from (src_frame : list Z) (src_size : nat) (src_ts : timeval) (t : teleinfo) : option teleinfo :=
  if Nat.ltb MAX_FRAME_SIZE src_size then None else
  let fr := firstn src_size src_frame ++ skipn src_size (t_frame t) in
  if Nat.eqb src_size 0 then Some (mk_ti fr src_size src_ts (t_consos t) (t_i t) (t_conso0 t))
  else
    hp <- get_value_int fr src_size (str "HCHP") 0 ;;
    hc <- get_value_int fr src_size (str "HCHC") 0 ;;
    let wh := u32 (hp + hc) in
    let c0 := if date_ms (t_conso0 t) =? 0
              then mk_conso (u32 (tv_sec src_ts - 1)) (u32 (wh - 1))
              else t_conso0 t in
    let c := mk_conso (u32 ((tv_sec src_ts - date_ms c0) * 1000 + tv_usec src_ts / 1000))
                      (u32 (wh - watt_heure c0)) in
    cs <- updc (t_consos t) (t_i t) c ;;
    Some (mk_ti fr src_size src_ts cs ((t_i t + 1) mod CONSO_MAX) c0).

(** The search loop of Teleinfo::watt, src/teleinfo.h:108-122: returns the index [premier]. *)
Fixpoint watt_loop (fuel : nat) (cs : list conso) (i premier : nat) (now periode : Z) : option nat :=
  match fuel with
  | O => None
  | S f =>
      let suivant := ((CONSO_MAX + premier - 1) mod CONSO_MAX)%nat in
      c <- nth_error cs suivant ;;
      if watt_heure c =? 0 then Some premier
      else if periode <? u32 (now - date_ms c) then Some premier
      else if Nat.eqb suivant i then Some suivant
      else watt_loop f cs i suivant now periode
  end.

(** Teleinfo::watt, src/teleinfo.h:100-209 (the #if 0 branch is dead code). [Some] of the result, [None] for a division by zero, an access
    outside the ring or non-termination. *)
Definition watt (t : teleinfo) (periode_s : Z) : option Z :=
  let actuel := ((CONSO_MAX + t_i t - 1) mod CONSO_MAX)%nat in
  ca <- nth_error (t_consos t) actuel ;;
  let now := date_ms ca in
  let periode := u32 (periode_s * 1000) in
  premier <- watt_loop CONSO_MAX (t_consos t) (t_i t) actuel now periode ;;
  cp <- nth_error (t_consos t) premier ;;
  if date_ms ca =? date_ms cp then Some 0
  else
    let wh := u32 (watt_heure ca - watt_heure cp) in
    let t0 := i32 (now - date_ms cp) in
    let t1 := if t0 <? 0 then i32 (t0 + 1000000) else t0 in
    if t1 =? 0 then None
    else Some (u32 (3600000 * wh) / u32 t1).
