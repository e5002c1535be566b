From Coq Require Import List NArith ZArith Arith Bool.
From Verif Require Import Base SystemStateModel.
Import ListNotations.
Open Scope Z_scope.

(** Model of the virtual time synchronization, SilKit/source/services/orchestration/TimeConfiguration.cpp and
    TimeSyncService.cpp: one participant, and a simulation of any number of them.

    Simplifications: times are unbounded integers (std::chrono::nanoseconds is an int64; [tmax] is its maximum, which the
    code uses for "none"). A simulation step handler is one event, placed at the moment it returns; what the user
    calls inside is an argument. The states of the lifecycle are set from outside ([EState]). Metrics, logging and the
    clock of the wall clock coupling are left out: a tick of the coupling thread is an event. *)

Definition task := (Z * Z)%type. (* timePoint, duration: NextSimTask *)
Definition tmax : Z := 9223372036854775807.

(** What the user configured: blocking handler (SetSimulationStepHandler, TimeSyncService.cpp 471-484), operation mode,
    animation factor <> 0 (307), Experimental.TimeSynchronization.DynamicSimulationStep (872-879). *)
Record tcfg := mkTC { c_block : bool; c_coord : bool; c_wall : bool; c_dyn : option bool }.
(** What ExecuteDeferred postpones: TimeSyncService.cpp 109, 468 and 833, 605-626. *)
Inductive dtask := DProcess | DRequest | DComplete.
Record node := mkN {
  t_cur : task;                   (* TimeConfiguration::_currentTask *)
  t_next : task;                  (* _myNextTask *)
  t_others : list (nat * task);   (* _otherNextTasks *)
  t_peers : list nat;             (* TimeSyncService::_dynamicStepPeers *)
  t_hop : bool;                   (* SynchronizedPolicy::_hopOnEvaluated *)
  t_exec : bool;                  (* _isExecutingSimStep *)
  t_last : Z;                     (* _lastSentNextSimTask *)
  t_state : lstate;               (* LifecycleService::State() *)
  t_pause : bool;                 (* LifecycleService::_pauseRequested *)
  t_stop : bool;                  (* _stopRequested *)
  t_syserr : bool;                (* the system monitor reports SystemState::Error *)
  t_sync : Z;                     (* TimeSyncService::_currentWallClockSyncPointNs *)
  t_lag : bool;                   (* _wallClockReachedBeforeCompletion *)
  t_def : list dtask              (* posted to the IO thread *)
}.
(** TimeConfiguration.cpp 13-21, 211-218; TimeSyncService.cpp 281-286. *)
Definition node_init : node :=
  mkN (-1, 0) (0, 1000000) [] [] false false (-1) Invalid false false false 0 false [].

Definition set_times (c n : task) (x : node) : node :=
  mkN c n (t_others x) (t_peers x) (t_hop x) (t_exec x) (t_last x) (t_state x) (t_pause x) (t_stop x) (t_syserr x) (t_sync x) (t_lag x) (t_def x).
Definition set_others (o : list (nat * task)) (x : node) : node :=
  mkN (t_cur x) (t_next x) o (t_peers x) (t_hop x) (t_exec x) (t_last x) (t_state x) (t_pause x) (t_stop x) (t_syserr x) (t_sync x) (t_lag x) (t_def x).
Definition set_peers (p : list nat) (x : node) : node :=
  mkN (t_cur x) (t_next x) (t_others x) p (t_hop x) (t_exec x) (t_last x) (t_state x) (t_pause x) (t_stop x) (t_syserr x) (t_sync x) (t_lag x) (t_def x).
Definition set_hop (b : bool) (x : node) : node :=
  mkN (t_cur x) (t_next x) (t_others x) (t_peers x) b (t_exec x) (t_last x) (t_state x) (t_pause x) (t_stop x) (t_syserr x) (t_sync x) (t_lag x) (t_def x).
Definition set_exec (b : bool) (x : node) : node :=
  mkN (t_cur x) (t_next x) (t_others x) (t_peers x) (t_hop x) b (t_last x) (t_state x) (t_pause x) (t_stop x) (t_syserr x) (t_sync x) (t_lag x) (t_def x).
Definition set_last (z : Z) (x : node) : node :=
  mkN (t_cur x) (t_next x) (t_others x) (t_peers x) (t_hop x) (t_exec x) z (t_state x) (t_pause x) (t_stop x) (t_syserr x) (t_sync x) (t_lag x) (t_def x).
Definition set_life (s : lstate) (p q e : bool) (x : node) : node :=
  mkN (t_cur x) (t_next x) (t_others x) (t_peers x) (t_hop x) (t_exec x) (t_last x) s p q e (t_sync x) (t_lag x) (t_def x).
Definition set_wall (s : Z) (g : bool) (x : node) : node :=
  mkN (t_cur x) (t_next x) (t_others x) (t_peers x) (t_hop x) (t_exec x) (t_last x) (t_state x) (t_pause x) (t_stop x) (t_syserr x) s g (t_def x).
Definition set_def (d : list dtask) (x : node) : node :=
  mkN (t_cur x) (t_next x) (t_others x) (t_peers x) (t_hop x) (t_exec x) (t_last x) (t_state x) (t_pause x) (t_stop x) (t_syserr x) (t_sync x) (t_lag x) d.
Definition defer (d : dtask) (x : node) : node := set_def (t_def x ++ [d]) x.

(** * TimeConfiguration *)
(** TimeConfiguration.cpp 40-52. The map is a list here, in order of insertion. *)
Definition lookup (p : nat) (o : list (nat * task)) : option task := option_map snd (find (fun x => Nat.eqb (fst x) p) o).
Definition add_other (p : nat) (o : list (nat * task)) : list (nat * task) :=
  match lookup p o with Some _ => o | None => o ++ [(p, (-1, 0))] end.
(** 55-65. *)
Definition remove_other (p : nat) (o : list (nat * task)) : list (nat * task) := filter (fun x => negb (Nat.eqb (fst x) p)) o.
(** 77-105: a task from an unknown participant is ignored; a lower time point is only logged. *)
Definition on_next_step (p : nat) (t : task) (o : list (nat * task)) : list (nat * task) :=
  map (fun x => if Nat.eqb (fst x) p then (p, t) else x) o.
(** 108-118: [None] is the exception. *)
Definition set_step_duration (d : Z) (x : node) : option node :=
  if d =? 0 then None else Some (set_times (t_cur x) (fst (t_next x), d) x).
(** 120-157. *)
Definition earliest_after (now : Z) (o : list (nat * task)) : Z :=
  fold_left (fun e x => let s := fst (snd x) in let en := fst (snd x) + snd (snd x) in
                        let e := if now <? s then Z.min e s else e in
                        if now <? en then Z.min e en else e) o tmax.
Definition min_aligned (now : Z) (o : list (nat * task)) : Z :=
  match o with
  | [] => tmax
  | _ => let d := earliest_after now o - now in if d <? 0 then tmax else d
  end.
(** TimeSyncService.cpp 881-895. *)
Definition dyn_enabled (c : tcfg) (x : node) : bool :=
  match c_dyn c with Some b => b | None => match t_peers x with [] => false | _ => true end end.
(** TimeConfiguration.cpp 159-179. *)
Definition advance (c : tcfg) (x : node) : node :=
  let cur := t_next x in
  let cur := if dyn_enabled c x
             then let m := min_aligned (fst cur) (t_others x) in if m <? snd cur then (fst cur, m) else cur
             else cur in
  set_times cur (fst cur + snd cur, snd (t_next x)) x.
(** 193-209. *)
Definition other_lower (x : node) : bool := existsb (fun o => fst (snd o) <? fst (t_next x)) (t_others x).
(** 230-257: [None] if this is no hop-on, otherwise the new start time. *)
Definition hop_on (x : node) : option Z :=
  if fst (t_cur x) =? -1
  then match filter (fun o => snd (snd o) <? fst (snd o)) (t_others x) with
       | [] => None
       | l => Some (fold_left (fun m o => if fst (snd o) <? m then fst (snd o) else m) l tmax)
       end
  else None.

(** * SynchronizedPolicy *)
Inductive tout :=
| Sent (t : task)     (* a NextSimTask was sent by RequestNextStep *)
| Resent (t : task)   (* a NextSimTask was sent because a participant joined *)
| Exec (t d : Z)      (* the simulation step handler was called *)
| Completed           (* the completion of an asynchronous step was processed *)
| OthersDone          (* the OtherSimulationStepsCompleted handlers were called *)
| AbortSim.           (* the whole simulation is aborted *)

(** What a user calls, in a handler or elsewhere: SetSimulationStepHandler* (for its step size), Pause, Continue and Stop of the lifecycle
    (only the flags, LifecycleService.cpp 208-244; the state follows by [EState]), CompleteSimulationStep
    (TimeSyncService.cpp 586-627). *)
Inductive uop := UDuration (d : Z) | UPause | UContinue | UStop | UComplete.
Definition user (u : uop) (x : node) : node :=
  match u with
  | UDuration d => match set_step_duration d x with Some y => y | None => x end
  | UPause => set_life (t_state x) true (t_stop x) (t_syserr x) x
  | UContinue => set_life (t_state x) false (t_stop x) (t_syserr x) x
  | UStop => set_life (t_state x) (t_pause x) true (t_syserr x) x
  | UComplete => defer DComplete x
  end.
Definition users (us : list uop) (x : node) : node := fold_left (fun x u => user u x) us x.

(** TimeSyncService.cpp 95-111. *)
Definition request_next (x : node) : list tout * node :=
  if lstate_eqb (t_state x) Running && negb (t_stop x) && negb (t_pause x)
  then if t_last x =? fst (t_next x) then ([], defer DProcess x)
       else ([Sent (t_next x)], defer DProcess (set_last (fst (t_next x)) x))
  else ([], x).
(** 173-212. *)
Definition possible (c : tcfg) (x : node) : bool :=
  lstate_eqb (t_state x) Running && negb (t_stop x || t_pause x) && negb (c_coord c && t_syserr x) && negb (other_lower x)
  && negb (c_wall c && (t_sync x <? fst (t_next x))).
(** 251-279 with 524-571; [us]: what the handler does. The wall clock coupling thread starts at the first step (797-800). *)
Definition execute (c : tcfg) (us : list uop) (x : node) : list tout * node :=
  let step x := let x := advance c x in ([Exec (fst (t_cur x)) (snd (t_cur x))], users us x) in
  let wall x := if c_wall c then set_wall (fst (t_next x)) (t_lag x) x else x in
  if lstate_eqb (t_state x) Paused || lstate_eqb (t_state x) Running
  then if t_hop x then step x
       else let x := set_hop true x in
            match hop_on x with
            | Some m => let x := set_times (t_cur x) (m, snd (t_next x)) x in
                        if c_coord c then ([AbortSim], x) else step (wall x)
            | None => step (wall x)
            end
  else ([], x).
(** 151-165, 214-249. *)
Definition process (c : tcfg) (us : list uop) (x : node) : list tout * node :=
  if possible c x
  then if c_block c
       then let (o, x) := execute c us x in
            if t_pause x || c_wall c then (o, x) else let (o', x) := request_next x in (o ++ o', x)
       else if t_exec x then ([OthersDone], x) else execute c us (set_exec true x)
  else ([], x).

Inductive tev :=
| ERecv (p : nat) (t : task) (us : list uop)  (* a NextSimTask from participant p *)
| EDeferred (us : list uop)                   (* the next posted task *)
| EAdd (p : nat) (dyn : bool)                 (* a time-synchronized participant is discovered; dyn: it asks for dynamic steps *)
| ERemove (p : nat) (us : list uop)
| EStartTime
| ERequest                                    (* TimeSyncService::RequestNextStep, called by LifecycleService::Continue *)
| EUser (u : uop)
| EState (s : lstate)
| ESysError (b : bool)
| EWall.                                      (* a tick of the wall clock coupling thread *)

(** TimeSyncService.cpp 113-149 (Aborting also reports an error to the lifecycle, left out), 605-626, 332-434, 677-703,
    466-469, 814-835. The capability checks (375, 686-697) are left out. *)
Definition tstep (c : tcfg) (e : tev) (x : node) : list tout * node :=
  match e with
  | ERecv p t us =>
      let x := set_others (on_next_step p t (t_others x)) x in
      match t_state x with
      | Paused | Running => process c us x
      | _ => ([], x)
      end
  | EDeferred us =>
      match t_def x with
      | [] => ([], x)
      | DProcess :: r => process c us (set_def r x)
      | DRequest :: r => request_next (set_def r x)
      | DComplete :: r =>
          let x := set_exec false (set_def r x) in
          if negb (c_wall c) || t_lag x
          then let (o, x) := request_next (set_wall (t_sync x) false x) in (Completed :: o, x)
          else ([Completed], x)
      end
  | EAdd p dyn =>
      let x := if dyn then set_peers (p :: t_peers x) x else x in
      let x := set_others (add_other p (t_others x)) x in
      (if 0 <=? fst (t_cur x) then [Resent (if t_exec x then t_cur x else t_next x)] else [], x)
  | ERemove p us =>
      let x := set_peers (filter (fun q => negb (Nat.eqb q p)) (t_peers x)) x in
      match lookup p (t_others x) with
      | Some _ => process c us (set_others (remove_other p (t_others x)) x)
      | None => ([], x)
      end
  | EStartTime => request_next x
  | ERequest => ([], defer DRequest x)
  | EUser u => ([], user u x)
  | EState s => ([], set_life s (t_pause x) (t_stop x) (t_syserr x) x)
  | ESysError b => ([], set_life (t_state x) (t_pause x) (t_stop x) b x)
  | EWall =>
      if c_wall c && t_hop x && lstate_eqb (t_state x) Running
      then let x := set_wall (t_sync x + snd (t_next x)) (t_lag x) x in
           if t_exec x then ([], set_wall (t_sync x) true x) else ([], defer DRequest x)
      else ([], x)
  end.
Fixpoint trun (c : tcfg) (es : list tev) (x : node) : list tout * node :=
  match es with
  | [] => ([], x)
  | e :: r => let (o, x) := tstep c e x in let (o', x) := trun c r x in (o ++ o', x)
  end.

(** * A simulation: any participants, one FIFO link from each to each (the peers of VAsioConnection, see PeerE2E.v) *)
Record sim := mkSim { s_node : nat -> node; s_chan : nat -> nat -> list task }.
Definition sim_init : sim := mkSim (fun _ => node_init) (fun _ _ => []).
Definition upd {A} (f : nat -> A) (i : nat) (v : A) : nat -> A := fun j => if Nat.eqb j i then v else f j.
Definition sents (o : list tout) : list task := flat_map (fun x => match x with Sent t | Resent t => [t] | _ => [] end) o.
(** A NextSimTask is delivered to all other participants (self delivery is ignored, it is unknown in [t_others]). *)
Definition broadcast (i : nat) (o : list tout) (ch : nat -> nat -> list task) : nat -> nat -> list task :=
  fun a b => if Nat.eqb a i then ch a b ++ sents o else ch a b.
Inductive sev :=
| SLocal (i : nat) (e : tev)
| SDeliver (i j : nat) (us : list uop).  (* the oldest task on the way from i to j *)
Definition local (e : tev) : bool := match e with ERecv _ _ _ => false | _ => true end.
Definition apply (i : nat) (r : list tout * node) (s : sim) : list (nat * tout) * sim :=
  (map (fun o => (i, o)) (fst r), mkSim (upd (s_node s) i (snd r)) (broadcast i (fst r) (s_chan s))).
Definition sstep (c : nat -> tcfg) (e : sev) (s : sim) : list (nat * tout) * sim :=
  match e with
  | SLocal i e => if local e then apply i (tstep (c i) e (s_node s i)) s else ([], s)
  | SDeliver i j us =>
      match s_chan s i j with
      | [] => ([], s)
      | t :: r => apply j (tstep (c j) (ERecv i t us) (s_node s j))
                        (mkSim (s_node s) (fun a b => if Nat.eqb a i && Nat.eqb b j then r else s_chan s a b))
      end
  end.
Fixpoint srun (c : nat -> tcfg) (es : list sev) (s : sim) : list (nat * tout) * sim :=
  match es with
  | [] => ([], s)
  | e :: r => let (o, s) := sstep c e s in let (o', s) := srun c r s in (o ++ o', s)
  end.
