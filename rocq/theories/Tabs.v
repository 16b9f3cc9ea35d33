(** Model of the tabs of the home page (data_src/index.html, script): which requests the page makes, and when. Requests,
    timers and the event stream only; what is done with the answers is in Dash.v, Form.v and NetList.v. *)
From Coq Require Import ZArith List Bool.
Import ListNotations.
Open Scope Z_scope.

(** The tabs, data_src/index.html:31-36: #tab_gauges, #tab_tinfo, #tab_sys, #tab_cfg. *)
Inductive tab := TabGauges | TabTinfo | TabSys | TabCfg.
Definition tab_eqb (a b : tab) : bool :=
  match a, b with
  | TabGauges, TabGauges | TabTinfo, TabTinfo | TabSys, TabSys | TabCfg, TabCfg => true
  | _, _ => false
  end.

(** What the page asks the module for: /tinfo.json, /system.json, /config.json, /wifiscan.json, /sse/json, /version. *)
Inductive resource := RTinfo | RSys | RConfig | RScan | RStream | RVersion.
Definition res_eqb (a b : resource) : bool :=
  match a, b with
  | RTinfo, RTinfo | RSys, RSys | RConfig, RConfig | RScan, RScan | RStream, RStream | RVersion, RVersion => true
  | _, _ => false
  end.

(** A timer made by setTimeout: its number, the table it will refresh, the time (ms) before which it does not fire. *)
Record timer := mk_timer { tm_id : nat; tm_table : resource; tm_due : Z }.

(** The state of the script. [st_nav]: the link with the class "active" ('.nav-tabs .active > a'); none when the page is
    loaded. [st_sys_url]: whether the table of the system has an address (options.url). [st_asked]: the requests of the
    two tables not answered yet. [st_timers]: the timers running. [st_timer_tinfo], [st_timer_sys], [st_source]: the variables
    Timer_tinfo, Timer_sys and source (lines 684-689); [None] is undefined or null. [st_open]: the event streams open.
    [st_next]: a fresh number. *)
Record script := mk_script {
  st_now : Z;
  st_nav : option tab;
  st_sys_url : bool;
  st_asked : list resource;
  st_timers : list timer;
  st_timer_tinfo : option nat;
  st_timer_sys : option nat;
  st_source : option nat;
  st_open : list nat;
  st_next : nat }.

(** Requests made, with their time. *)
Definition trace := list (Z * resource).

(** bootstrapTable('refresh'), data_src/js/wifinfo.js (bootstrap-table 1.9.1, refresh and initServer): a request if the table has
    an address; a request in progress is not aborted. The table of the groups has an address as soon as the page is
    loaded (line 1098). *)
Definition refresh (r : resource) (s : script) : script * trace :=
  match r, st_sys_url s with
  | RSys, false => (s, [])
  | _, _ =>
      (mk_script (st_now s) (st_nav s) (st_sys_url s) (st_asked s ++ [r]) (st_timers s) (st_timer_tinfo s) (st_timer_sys s)
         (st_source s) (st_open s) (st_next s), [(st_now s, r)])
  end.
Definition give_url (s : script) : script :=
  mk_script (st_now s) (st_nav s) true (st_asked s) (st_timers s) (st_timer_tinfo s) (st_timer_sys s) (st_source s) (st_open s) (st_next s).

(** clearTimeout: nothing happens for undefined or for a timer that has fired. *)
Definition clear (v : option nat) (l : list timer) : list timer :=
  match v with
  | None => l
  | Some i => filter (fun t => negb (Nat.eqb (tm_id t) i)) l
  end.
Definition closed (v : option nat) (l : list nat) : list nat :=
  match v with
  | None => l
  | Some i => filter (fun j => negb (Nat.eqb j i)) l
  end.

(** data_src/index.html:845-916, the tab [t] has been shown. The browser knows EventSource (line 895). The link is made active just
    before (Bootstrap 3.3.5, tab, activate); the 150 ms of the transition between the two are not modelled. *)
Definition left_tab (t : tab) (s : script) : script :=                                      (* lines 846-858 *)
  mk_script (st_now s) (Some t) (st_sys_url s) (st_asked s)
      (clear (st_timer_tinfo s) (clear (st_timer_sys s) (st_timers s))) (st_timer_tinfo s) (st_timer_sys s)
      None (closed (st_source s) (st_open s)) (st_next s).
Definition shown_tab (t : tab) (s : script) : script * trace :=
  let s1 := left_tab t s in
  match t with
  | TabTinfo => refresh RTinfo s1
  | TabSys => refresh RSys (give_url s1)
  | TabCfg => (s1, [(st_now s1, RConfig); (st_now s1, RScan)])
  | TabGauges =>
      (mk_script (st_now s1) (st_nav s1) (st_sys_url s1) (st_asked s1) (st_timers s1) (st_timer_tinfo s1) (st_timer_sys s1)
         (Some (st_next s1)) (st_open s1 ++ [st_next s1]) (S (st_next s1)), [(st_now s1, RStream)])
  end.
(** A click on a link: nothing if it is active already (Bootstrap 3.3.5, tab, show). *)
Definition is_active (t : tab) (s : script) : bool := match st_nav s with Some u => tab_eqb u t | None => false end.
Definition click_tab (t : tab) (s : script) : script * trace := if is_active t s then (s, []) else shown_tab t s.

(** A table has been loaded, data_src/index.html:918-936: if its tab is still the active one, a timer is started for the next time. *)
Definition loaded_table (r : resource) (s : script) : script :=
  match r with
  | RTinfo =>
      if is_active TabTinfo s then
        mk_script (st_now s) (st_nav s) (st_sys_url s) (st_asked s) (st_timers s ++ [mk_timer (st_next s) RTinfo (st_now s + 5000)])
          (Some (st_next s)) (st_timer_sys s) (st_source s) (st_open s) (S (st_next s))
      else s
  | RSys =>
      if is_active TabSys s then
        mk_script (st_now s) (st_nav s) (st_sys_url s) (st_asked s) (st_timers s ++ [mk_timer (st_next s) RSys (st_now s + 1000)])
          (st_timer_tinfo s) (Some (st_next s)) (st_source s) (st_open s) (S (st_next s))
      else s
  | _ => s
  end.

(** What happens to the page. [Clicks]: on a link; [Reloads]: on the button "refresh" of a table (data-show-refresh);
    [Answered n ok]: the answer to the n-th request not answered yet (in any order), or its failure: nothing is done then
    (there is no handler for load-error); [Fires n]: the n-th running timer, if its time has come; [Passes d]: time. *)
Inductive happening := Clicks (t : tab) | Reloads (r : resource) | Answered (n : nat) (ok : bool) | Fires (n : nat) | Passes (d : Z).

Definition remove_nth {A : Type} (n : nat) (l : list A) : list A := firstn n l ++ skipn (S n) l.
Definition without_asked (n : nat) (s : script) : script :=
  mk_script (st_now s) (st_nav s) (st_sys_url s) (remove_nth n (st_asked s)) (st_timers s) (st_timer_tinfo s) (st_timer_sys s)
    (st_source s) (st_open s) (st_next s).
Definition without_timer (n : nat) (s : script) : script :=
  mk_script (st_now s) (st_nav s) (st_sys_url s) (st_asked s) (remove_nth n (st_timers s)) (st_timer_tinfo s) (st_timer_sys s)
    (st_source s) (st_open s) (st_next s).
Definition happen (e : happening) (s : script) : script * trace :=
  match e with
  | Clicks t => click_tab t s
  | Reloads r => match r with RTinfo | RSys => refresh r s | _ => (s, []) end
  | Answered n ok =>
      match nth_error (st_asked s) n with
      | None => (s, [])
      | Some r => if ok then (loaded_table r (without_asked n s), []) else (without_asked n s, [])
      end
  | Fires n =>
      match nth_error (st_timers s) n with
      | None => (s, [])
      | Some t => if tm_due t <=? st_now s then refresh (tm_table t) (without_timer n s) else (s, [])
      end
  | Passes d =>
      (mk_script (st_now s + Z.max 0 d) (st_nav s) (st_sys_url s) (st_asked s) (st_timers s) (st_timer_tinfo s) (st_timer_sys s)
         (st_source s) (st_open s) (st_next s), [])
  end.
Fixpoint happens (es : list happening) (s : script) : script * trace :=
  match es with
  | [] => (s, [])
  | e :: t => let '(s1, o1) := happen e s in let '(s2, o2) := happens t s1 in (s2, o1 ++ o2)
  end.

(** window.onload, data_src/index.html:1085-1105. [hash]: the tab named after # in the address, if any. *)
Definition script_start : script := mk_script 0 None false [] [] None None None [] 0.
Definition opened (hash : option tab) : script * trace :=
  let '(s1, o1) := match hash with Some t => click_tab t script_start | None => (script_start, []) end in
  let '(s2, o2) := refresh RTinfo s1 in
  (s2, o1 ++ o2 ++ [(st_now s2, RVersion)]).
