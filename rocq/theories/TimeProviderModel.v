From Coq Require Import List Arith ZArith Bool.
Import ListNotations.

(** * Time provider (SilKit/source/services/orchestration/TimeProvider.cpp, TimeProvider.hpp) *)

(** TimeProvider.cpp:68-148: the three implementations *)
Inductive pkind := NoSync | WallClock | SyncTime.

(** ProviderBase (TimeProvider.cpp:29-65) and the members of the implementations: the flag [_active], whether the thread
    of [_timer] has been started (77-80, 104-107) and the cached [_now] (147; None is the
    default value nanoseconds::min()). A new provider is inactive and its timer is not running. *)
Record provider := mkProv { p_kind : pkind; p_active : bool; p_timer : bool; p_now : option Z }.
Definition new_provider (k : pkind) : provider := mkProv k false false None.

(** TimeProvider.hpp:67-71. [_handlers] is the Util::Handlers container (see HandlersModel.v), here the list of the ids
    in the order in which they are invoked. *)
Record tp := mkTP { tp_handlers : list nat; tp_next : nat; tp_prov : provider }.

(** TimeProvider.cpp:154-157: the constructor installs a NoSyncProvider and does not activate it. *)
Definition tp0 : tp := mkTP [] 0 (new_provider NoSync).

Inductive tpev :=
| Configure (k : pkind)
| AddHandler
| RemoveHandler (id : nat)
| SetTime (now dur : Z)
| TimerFires (now : Z).     (* the period of the timer of the current provider has passed *)

(** handler id is invoked with time and duration *)
Inductive tpout := Tick (id : nat) (now dur : Z).

(** TimeProvider.cpp:199-203, OnTick, behind NotifyListenerAboutTick (51-59) *)
Definition notify (now dur : Z) (t : tp) : list tpout :=
  if p_active (tp_prov t) then map (fun id => Tick id now dur) (tp_handlers t) else [].

(** periods: 1 ms for the wall clock (175), 100000 ns without synchronization (117) *)
Definition period (k : pkind) : Z := match k with WallClock => 1000000 | _ => 100000 end.

Definition tpstep (e : tpev) (t : tp) : list tpout * tp :=
  match e with
  | Configure k =>      (* TimeProvider.cpp:159-197; the old provider is destroyed, which stops and joins its timer thread *)
      ([], mkTP (tp_handlers t) (tp_next t) (mkProv k true false None))
  | AddHandler =>       (* TimeProvider.hpp:91-97 and OnHandlerAdded 77-80, 104-107, 132 *)
      let p := tp_prov t in
      ([], mkTP (tp_handlers t ++ [tp_next t]) (S (tp_next t))
             (mkProv (p_kind p) (p_active p) (match p_kind p with SyncTime => p_timer p | _ => true end) (p_now p)))
  | RemoveHandler id => (* TimeProvider.hpp:99-103 *)
      ([], mkTP (filter (fun x => negb (Nat.eqb x id)) (tp_handlers t)) (tp_next t) (tp_prov t))
  | SetTime now dur =>  (* TimeProvider.hpp:105-109, SetTime 88, 114, 139-144 *)
      match p_kind (tp_prov t) with
      | SyncTime => (notify now dur t, mkTP (tp_handlers t) (tp_next t)
                       (mkProv SyncTime (p_active (tp_prov t)) (p_timer (tp_prov t)) (Some now)))
      | _ => ([], t)
      end
  | TimerFires now =>   (* Util/Timer.hpp ThreadMain; nothing happens if there is no thread *)
      if p_timer (tp_prov t) then (notify now (period (p_kind (tp_prov t))) t, t) else ([], t)
  end.

Fixpoint tprun (evs : list tpev) (t : tp) : list tpout * tp :=
  match evs with
  | [] => ([], t)
  | e :: r => let (o, t) := tpstep e t in let (o', t) := tprun r t in (o ++ o', t)
  end.

(** ** Threads *)

(** Adding a handler while the timer thread runs. TimeProvider::AddNextSimStepHandler (TimeProvider.hpp:91-97) holds
    [_mutex] while OnHandlerAdded restarts the timer: util/Timer.hpp:58-81 WithPeriod stops the thread and joins it. The timer
    thread (Timer.hpp:90-101 ThreadMain) calls OnTick (TimeProvider.cpp:199-203), which locks the same mutex. The model has one
    user thread and the timer thread of a provider that is active and has a timer. *)
Inductive tphase :=
| TNone        (* no thread has been started *)
| TWait        (* in wait_for *)
| TFired       (* the period has passed: in the callback, about to lock *)
| TTick        (* holds the mutex, invokes the handlers *)
| TExited.     (* the thread function has returned *)
Inductive uphase :=
| UIdle
| UJoin.       (* in AddNextSimStepHandler: holds the mutex, has stopped the timer, waits in join *)
Record threads := mkTh { th_timer : tphase; th_user : uphase; th_running : bool }.
Definition threads0 : threads := mkTh TNone UIdle false.

Inductive tstep : threads -> threads -> Prop :=
| AddFirst : forall r, tstep (mkTh TNone UIdle r) (mkTh TWait UIdle true)
| AddAgain : forall t r, t <> TNone -> t <> TTick -> tstep (mkTh t UIdle r) (mkTh t UJoin false)
| Joined : forall r, tstep (mkTh TExited UJoin r) (mkTh TWait UIdle true)
| PeriodPassed : forall u r, tstep (mkTh TWait u r) (mkTh TFired u r)
| StopSeen : forall u, tstep (mkTh TWait u false) (mkTh TExited u false)
| TickLock : forall r, tstep (mkTh TFired UIdle r) (mkTh TTick UIdle r)
| TickDone : forall u r, tstep (mkTh TTick u r) (mkTh (if r then TWait else TExited) u r).
Inductive treach : threads -> Prop :=
| treach0 : treach threads0
| treach1 : forall a b, treach a -> tstep a b -> treach b.
