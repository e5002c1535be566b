From Coq Require Import List ZArith Bool.
Import ListNotations.
Open Scope Z_scope.

(** Model of SilKit/source/services/orchestration/WatchDog.cpp.
    Times are nanoseconds of the steady clock, timeouts milliseconds, both as integers (64 bit in the code; the
    arithmetic on them cannot overflow before the steady clock itself does, see the comment at lines 104-105). *)

(** WatchDog.hpp:51, _defaultTimeout = milliseconds::max() *)
Definition default_timeout : Z := 9223372036854775807.

(** WatchDog.hpp:63-64: _warnTimeout, _errorTimeout *)
Record wcfg := mkWCfg { w_warn : Z; w_error : Z }.

(** WatchDog.cpp:22-41, the constructor; None = SilKitError thrown *)
Definition make (soft hard : option Z) : option wcfg :=
  let get o := match o with None => Some default_timeout | Some t => if t <=? 0 then None else Some t end in
  match get soft, get hard with
  | Some w, Some e => Some (mkWCfg w e)
  | _, _ => None
  end.

(** WatchDog.cpp:71-76 *)
Inductive wstate := Healthy | Warned | Failed.

(** The atomic _startTime (None = nanoseconds::min()), the local variables startTime (Some while the watch thread is
    between lines 92 and 106) and state of Run. The numbers of the steps are not in the code; they name the
    Start() call that stored the value, so that properties can speak about "the same step". *)
Record wd := mkWd { w_start : option (nat * Z); w_loaded : option (nat * Z); w_state : wstate; w_count : nat }.
Definition init : wd := mkWd None None Healthy 0.

(** Calls of the two handlers, with the number of the step and the duration passed (ms) *)
Inductive wout := CallWarn (step : nat) (d : Z) | CallError (step : nat) (d : Z).

(** What happens, in the order of the accesses to the atomic; every event with the value of the clock.
    The watch thread alternates between the first and the second half of its loop body: lines 92-102, lines 106-130.
    Simplification: waiting for _resolution (line 84) is left out, the thread may poll at any time; the stop signal
    (lines 86-90) ends the sequence. *)
Inductive wev :=
| Start (now : Z)   (* WatchDog.cpp:49-52 *)
| Reset (now : Z)   (* WatchDog.cpp:54-57; the time is not used by the code *)
| Load (now : Z)    (* WatchDog.cpp:92-102; the time is not used by the code *)
| Check (now : Z).  (* WatchDog.cpp:106-130 *)
Definition time_of (e : wev) : Z := match e with Start t | Reset t | Load t | Check t => t end.

(** WatchDog.cpp:107, duration_cast<milliseconds> truncates towards zero *)
Definition ms (d : Z) : Z := Z.quot d 1000000.

(** WatchDog.cpp:109-130 *)
Definition check (c : wcfg) (d : Z) (st : wstate) : bool * bool * wstate :=
  if (w_warn c <? d) && (d <=? w_error c) then
    match st with Healthy => (true, false, Warned) | _ => (false, false, st) end
  else if w_error c <? d then
    match st with Failed => (false, false, Failed) | _ => (false, true, Failed) end
  else (false, false, Healthy).

Definition step (c : wcfg) (x : wd) (e : wev) : list wout * wd :=
  match e with
  | Start t => ([], mkWd (Some (w_count x, t)) (w_loaded x) (w_state x) (S (w_count x)))
  | Reset _ => ([], mkWd None (w_loaded x) (w_state x) (w_count x))
  | Load _ =>
      match w_loaded x with
      | Some _ => ([], x)
      | None =>
          match w_start x with
          | None => ([], mkWd None None Healthy (w_count x))
          | Some s => ([], mkWd (w_start x) (Some s) (w_state x) (w_count x))
          end
      end
  | Check t =>
      match w_loaded x with
      | None => ([], x)
      | Some (k, s) =>
          let d := ms (t - s) in
          let '(warn, err, st) := check c d (w_state x) in
          ((if warn then [CallWarn k d] else []) ++ (if err then [CallError k d] else []),
           mkWd (w_start x) None st (w_count x))
      end
  end.

Definition run (c : wcfg) (evs : list wev) : list wout * wd :=
  fold_left (fun a e => let (o, x) := step c (snd a) e in (fst a ++ o, x)) evs ([], init).
