(** Model of the publication path of src/tic.cpp: tic_decode (src/tic.cpp:54-85), without the
    notifications (modelled in Tic.v), and the pause flag set by src/update.cpp. *)
From Coq Require Import ZArith List Bool Lia.
From Verif Require Import Base Teleinfo.
Import ListNotations.
Open Scope Z_scope.

(** Globals tinfo_decoder, tinfo, tinfo_pause: src/tic.cpp:42-44. *)
Record pub := mk_pub { p_dec : decoder; p_ti : teleinfo; p_pause : bool }.

Definition pub_init (g1 g2 : list Z) : pub := mk_pub (dec_init g1) (ti_init g2) false.

(** tic_decode, src/tic.cpp:54-85: the boolean says that a frame was published, i.e. that tic_notifs is
    called. The LED and the log line (which only calls get_value, see C03) are left out. *)
Definition tic_decode (sgn : bool) (now : timeval) (c : Z) (p : pub) : option (pub * bool) :=
  if p_pause p then Some (p, false)
  else
    d <- put sgn now c (p_dec p) ;;
    if ready d then
      t <- copy_from (d_frame d) (d_size d) (d_ts d) (p_ti p) ;;
      Some (mk_pub d t (p_pause p), true)
    else Some (mk_pub d (p_ti p) (p_pause p), false).

(** What happens to the receiver: a byte arrives, or tinfo_pause is assigned (src/update.cpp:40, 150). *)
Inductive pub_event := Byte (now : timeval) (c : Z) | Pause (b : bool).

Definition pub_step (sgn : bool) (e : pub_event) (p : pub) : option pub :=
  match e with
  | Byte now c => '(p', _) <- tic_decode sgn now c p ;; Some p'
  | Pause b => Some (mk_pub (p_dec p) (p_ti p) b)
  end.
Fixpoint pub_run (sgn : bool) (es : list pub_event) (p : pub) : option pub :=
  match es with
  | [] => Some p
  | e :: es' => p' <- pub_step sgn e p ;; pub_run sgn es' p'
  end.

(** The text currently published (what every reader of tinfo sees). *)
Definition published (p : pub) : list Z := firstn (t_size (p_ti p)) (t_frame (p_ti p)).

(** Successive copy_from calls on one Teleinfo object. *)
Fixpoint ti_run (fs : list (list Z * timeval)) (t : teleinfo) : option teleinfo :=
  match fs with
  | [] => Some t
  | (text, ts) :: r => t' <- copy_from text (List.length text) ts t ;; ti_run r t'
  end.
