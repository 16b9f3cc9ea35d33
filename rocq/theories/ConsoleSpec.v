(** Specification of the terminal: what a user does with it, and what the module must get. *)
From Coq Require Import ZArith List Bool Lia.
From Verif Require Import Base Teleinfo TeleinfoSpec Simu CliSpec Console.
Import ListNotations.
Open Scope Z_scope.

(** Printable characters that do not open a command. *)
Definition printable (c : Z) : Prop := 32 <= c < 127 /\ c <> 96.
Definition measured (c p i a : Z) : Prop := 0 <= c < 1000000000 /\ 0 <= p < 1000000000 /\ 0 <= i <= 20 /\ 0 <= a <= 5290.
Definition with_measures (c p i a : Z) (m : simu) : simu :=
  mk_sim (sm_creuses m) c p i a (sm_adps m) (sm_adco m) (sm_pseuil m).
(** The keys of the terminal itself: Ctrl-A, C, D, P, T, Y. *)
Definition own_key (c : Z) : Prop := c = 1 \/ c = 3 \/ c = 4 \/ c = 16 \/ c = 20 \/ c = 25.

(** While a command is typed: its characters; ticks if automatic frames are off ([p]); new measures. [typing p m body text m'] *)
Inductive typing (p : bool) : simu -> list con_event -> list Z -> simu -> Prop :=
| typing_nothing : forall m, typing p m [] [] m
| typing_char : forall m c r w m', printable c -> typing p m r w m' -> typing p m (Key c :: r) (c :: w) m'
| typing_tick : forall m r w m', p = true -> typing p m r w m' -> typing p m (Tick :: r) w m'
| typing_measures : forall m c q i a r w m', measured c q i a -> typing p (with_measures c q i a m) r w m' -> typing p m (Measures c q i a :: r) w m'.

(** [dialogue p m es commands frames]: in the course of [es], automatic frames being off at the beginning if [p], the commands typed, and the
    meter at each frame sent. *)
Inductive dialogue : bool -> simu -> list con_event -> list (list Z) -> list simu -> Prop :=
| dg_end : forall p m, dialogue p m [] [] []
| dg_command : forall p m o body w m' r cs fs, opens o = true -> typing p m body w m' -> (length w < 127)%nat -> dialogue p m' r cs fs ->
    dialogue p m (Key o :: body ++ Key 10 :: r) (w :: cs) fs
| dg_unfinished : forall p m o body w m', opens o = true -> typing p m body w m' -> (length w < 127)%nat -> dialogue p m (Key o :: body) [] []
| dg_frame : forall p m r cs fs, dialogue p m r cs fs -> dialogue p m (Key 20 :: r) cs (m :: fs)
| dg_switch : forall p m key w r cs fs, (key, w) = (16, Tariff) \/ (key, w) = (1, Overload) \/ (key, w) = (4, Threshold) ->
    dialogue p (bascule w m) r cs fs -> dialogue p m (Key key :: r) cs (bascule w m :: fs)
| dg_automatic : forall m r cs fs, dialogue false m r cs fs -> dialogue false m (Tick :: r) cs (m :: fs)
| dg_paused : forall m r cs fs, dialogue true m r cs fs -> dialogue true m (Tick :: r) cs fs
| dg_toggle : forall p m r cs fs, dialogue (negb p) m r cs fs -> dialogue p m (Key 25 :: r) cs fs
| dg_measures : forall p m c q i a r cs fs, measured c q i a -> dialogue p (with_measures c q i a m) r cs fs -> dialogue p m (Measures c q i a :: r) cs fs
(** a key outside a command: nothing must come of it *)
| dg_stray : forall p m c r cs fs, 0 <= c < 1114112 -> opens c = false -> ~ own_key c -> dialogue p m r cs fs -> dialogue p m (Key c :: r) cs fs
| dg_quit : forall p m r, dialogue p m (Key 3 :: r) [] []
| dg_eof : forall p m r, dialogue p m (EndOfInput :: r) [] [].

(** All the frames that a decoder accepts: their groups, each time it is ready. *)
Fixpoint accepted (sgn : bool) (es : list event) (d : decoder) : option (list (option (list group))) :=
  match es with
  | [] => Some []
  | (now, c) :: r =>
      d' <- put sgn now c d ;; rest <- accepted sgn r d' ;; Some (if ready d' then all_pairs (d_frame d') (d_size d') :: rest else rest)
  end.
