(** Metrics of a participant: S/services/metrics (S = /repo/SilKit/source).
    The first part models MetricsManager (named metrics, the clock, SubmitUpdates) with the accesses of several threads
    interleaved; the second part MetricsProcessor with its threads and sinks; the third part the text of MetricsJsonSink.
    Left out: logging, the timer thread, sending over the network (see SerdesModel.v for the message itself). *)
From Coq Require Import String Ascii List NArith QArith Qminmax Bool.
From Verif Require Import Base TextModel.
Import ListNotations.
Open Scope string_scope.
Open Scope list_scope.
Open Scope N_scope.

(** * MetricsManager *)

(** MetricsDatatypes.hpp:23-29; a MetricKind outside of the enumeration is left out *)
Inductive kind := Counter | Statistic | StringList | Attribute.
Definition kind_eqb (a b : kind) : bool :=
  match a, b with Counter, Counter | Statistic, Statistic | StringList, StringList | Attribute, Attribute => true | _, _ => false end.

(** MetricsManager.cpp:86-90. Rational numbers stand for double (no rounding, infinities or NaN); the initial extrema
    numeric_limits::max and ::lowest are [None]. *)
Record stat := mkStat { s_mean : Q; s_variance : Q; s_min : option Q; s_max : option Q }.
Definition stat0 : stat := mkStat 0 0 None None.
(** MetricsManager.cpp:293-306 *)
Definition take (v : Q) (s : stat) : stat :=
  let alpha := (1 # 2)%Q in
  let difference := (v - s_mean s)%Q in
  let increment := (alpha * difference)%Q in
  mkStat (s_mean s + increment) ((1 - alpha) * (s_variance s + difference * increment))
    (Some (match s_min s with Some m => Qmin m v | None => v end))
    (Some (match s_max s with Some m => Qmax m v | None => v end)).

(** The value members: MetricsManager.cpp:66 (counter), 87-90 (statistic), 116 (string list), 136 (attribute) *)
Inductive value := VCount (n : N) | VStat (s : stat) | VList (l : list text) | VAttr (t : text).
(** MetricsManager.cpp:273-276, 308-311, 340-343, 405-408 *)
Definition kind_of (v : value) : kind :=
  match v with VCount _ => Counter | VStat _ => Statistic | VList _ => StringList | VAttr _ => Attribute end.
(** MetricsManager.cpp:229-240: a new metric of the kind *)
Definition fresh (k : kind) : value :=
  match k with Counter => VCount 0 | Statistic => VStat stat0 | StringList => VList [] | Attribute => VAttr [] end.

(** ICounterMetric.hpp, IStatisticMetric.hpp, IStringListMetric.hpp, IAttributeMetric.hpp *)
Inductive wop := CAdd (d : N) | CSet (n : N) | STake (v : Q) | LClear | LAdd (t : text) | AClear | AAdd (t : text).
Definition op_kind (o : wop) : kind :=
  match o with CAdd _ | CSet _ => Counter | STake _ => Statistic | LClear | LAdd _ => StringList | AClear | AAdd _ => Attribute end.
(** The second statement of MetricsManager.cpp:261-271, 295-305, 328-338, 393-403. Handles are typed in C++, so that an operation
    never meets a value of another kind (last case). *)
Definition apply (o : wop) (v : value) : value :=
  match o, v with
  | CAdd d, VCount n => VCount ((n + d) mod 2 ^ 64)
  | CSet m, VCount _ => VCount m
  | STake q, VStat s => VStat (take q s)
  | LClear, VList _ => VList []
  | LAdd t, VList l => VList (l ++ [t])
  | AClear, VAttr _ => VAttr []
  | AAdd t, VAttr _ => VAttr t
  | _, _ => v
  end.

(** MetricsDatatypes.cpp:14-32 *)
Definition join_name (l : list text) : text :=
  match l with [] => [] | x :: r => x ++ flat_map (fun y => 47 :: y) r end.

(** MetricsManager.cpp:65, 86, 115, 135: [_timestamp] (nanoseconds of the steady clock; 0 until the first update) *)
Record metric := mkMetric { m_time : N; m_value : value }.
(** MetricsDatatypes.hpp:32-38; the value is formatted when it is written (see [format] below) *)
Record data := mkData { d_time : N; d_name : text; d_kind : kind; d_value : value }.

(** MetricsManager.hpp:74-76. The unordered map is a list, in the order of creation; [g_sub] is the loop of SubmitUpdates while it runs
    under the mutex: the names it has not reached yet, and the message so far. *)
Record mgr := mkMgr { g_metrics : list (text * metric); g_last : N; g_sub : option (list text * list data) }.
(** MetricsManager.cpp:140-145 *)
Definition mgr0 (now : N) : mgr := mkMgr [] now None.

Fixpoint find (n : text) (l : list (text * metric)) : option metric :=
  match l with [] => None | (k, m) :: l => if text_eqb n k then Some m else find n l end.
Fixpoint change (n : text) (f : metric -> metric) (l : list (text * metric)) : list (text * metric) :=
  match l with [] => [] | (k, m) :: l => if text_eqb n k then (k, f m) :: l else (k, m) :: change n f l end.

Inductive out := Nothing | Blocked | Handle (n : text) | KindError | Process (l : list data).

(** The atomic steps. An update of a metric is [Stamp] followed by [Write]: the two statements of MetricsManager.cpp:263-264 and so on, which
    are not guarded by the mutex (the clock is read and stored in one step; C++ would call the race undefined).
    SubmitUpdates is [Begin], one [Look] for each metric, [End]. *)
Inductive ev := Get (names : list text) (k : kind) | Stamp (n : text) (t : N) | Write (n : text) (o : wop) | Begin | Look | End (t : N).

(** MetricsManager.cpp:168-180: one round of the loop *)
Definition look (last : N) (n : text) (m : metric) : list data :=
  if m_time m <=? last then [] else [mkData (m_time m) n (kind_of (m_value m)) (m_value m)].

Definition step (s : mgr) (e : ev) : mgr * out :=
  match e with
  (* MetricsManager.cpp:218-254; waits for the mutex *)
  | Get names k =>
      match g_sub s with Some _ => (s, Blocked) | None =>
        let n := join_name names in
        let ms := match find n (g_metrics s) with Some _ => g_metrics s | None => g_metrics s ++ [(n, mkMetric 0 (fresh k))] end in
        let s' := mkMgr ms (g_last s) None in
        match find n ms with
        | Some m => if kind_eqb (kind_of (m_value m)) k then (s', Handle n) else (s', KindError)
        | None => (s', Blocked)
        end
      end
  (* first statement of an update; without a metric of the name nobody has a handle *)
  | Stamp n t =>
      match find n (g_metrics s) with
      | None => (s, Blocked)
      | Some _ => (mkMgr (change n (fun m => mkMetric t (m_value m)) (g_metrics s)) (g_last s) (g_sub s), Nothing)
      end
  (* second statement of an update; the handle determines the kind *)
  | Write n o =>
      match find n (g_metrics s) with
      | None => (s, Blocked)
      | Some m => if kind_eqb (kind_of (m_value m)) (op_kind o)
                  then (mkMgr (change n (fun m => mkMetric (m_time m) (apply o (m_value m))) (g_metrics s)) (g_last s) (g_sub s), Nothing)
                  else (s, Blocked)
      end
  (* MetricsManager.cpp:155-160; waits for the mutex *)
  | Begin => match g_sub s with Some _ => (s, Blocked) | None => (mkMgr (g_metrics s) (g_last s) (Some (map fst (g_metrics s), [])), Nothing) end
  (* MetricsManager.cpp:166-181 *)
  | Look =>
      match g_sub s with
      | Some (n :: todo, msg) =>
          let ds := match find n (g_metrics s) with Some m => look (g_last s) n m | None => [] end in
          (mkMgr (g_metrics s) (g_last s) (Some (todo, msg ++ ds)), Nothing)
      | _ => (s, Blocked)
      end
  (* MetricsManager.cpp:183-190 *)
  | End t =>
      match g_sub s with
      | Some ([], msg) => (mkMgr (g_metrics s) t None, match msg with [] => Nothing | _ => Process msg end)
      | _ => (s, Blocked)
      end
  end.

Fixpoint run (s : mgr) (es : list ev) : mgr * list out :=
  match es with [] => (s, []) | e :: es => let (s1, o) := step s e in let (s2, os) := run s1 es in (s2, o :: os) end.

(** * MetricsProcessor *)

(** A reported value: the thread which passes it, and what it is *)
Definition item := (nat * N)%type.
(** The calls of a thread: Process(origin, update), and SetSinks with a number of sinks *)
Inductive call := CProcess (o : text) (u : list item) | CSetSinks (k : nat).
(** Where a thread is in MetricsProcessor.cpp: between two calls; waiting for the lock in line 57; holding it before line 59; in the loop
    of 70-73 before the given sink; waiting for the lock in line 28; holding it before line 30; in the loop of 40-46 for the given sink, with the
    entries still to pass; before line 48 *)
Inductive pc :=
| Idle | PLock (o : text) (u : list item) | PCheck (o : text) (u : list item) | PSink (o : text) (u : list item) (i : nat)
| SLock (k : nat) | SCheck (k : nat) | SFlush (i : nat) (rest : list (text * list item)) | SClear.
Record thread := mkThread { t_pc : pc; t_calls : list call }.
(** MetricsProcessor.hpp:25-33; [f_logs] holds for each sink what it was told, in order; [f_lock] is the thread which holds the mutex *)
Record proc := mkProc { f_set : bool; f_lock : option nat; f_cache : list (text * list item); f_logs : list (list (text * list item)); f_threads : list thread }.
Definition proc0 (programs : list (list call)) : proc := mkProc false None [] [] (map (mkThread Idle) programs).

(** MetricsProcessor.cpp:61-64 *)
Fixpoint cache_add (o : text) (u : list item) (c : list (text * list item)) : list (text * list item) :=
  match c with [] => [(o, u)] | (k, l) :: c => if text_eqb o k then (k, l ++ u) :: c else (k, l) :: cache_add o u c end.
Fixpoint log_add (i : nat) (e : text * list item) (ls : list (list (text * list item))) : list (list (text * list item)) :=
  match ls, i with [], _ => [] | l :: ls, O => (l ++ [e]) :: ls | l :: ls, S i => l :: log_add i e ls end.
Fixpoint set_nth {A} (i : nat) (x : A) (l : list A) : list A :=
  match l, i with [], _ => [] | _ :: l, O => x :: l | y :: l, S i => y :: set_nth i x l end.

(** One step of thread [i]; a thread which has to wait for the mutex does not move. The result is [None] if the thread cannot move. *)
Definition pstep (i : nat) (s : proc) : option proc :=
  match nth_error (f_threads s) i with
  | None => None
  | Some th =>
      let go p := mkThread p (t_calls th) in
      let upd st lk c ls t := Some (mkProc st lk c ls (set_nth i t (f_threads s))) in
      let same p := upd (f_set s) (f_lock s) (f_cache s) (f_logs s) (go p) in
      match t_pc th with
      | Idle =>
          match t_calls th with
          | [] => None
          (* 55 *)
          | CProcess o u :: r => upd (f_set s) (f_lock s) (f_cache s) (f_logs s) (mkThread (if f_set s then PSink o u 0 else PLock o u) r)
          (* 26 *)
          | CSetSinks k :: r => upd (f_set s) (f_lock s) (f_cache s) (f_logs s) (mkThread (SLock k) r)
          end
      (* 57 *)
      | PLock o u => match f_lock s with Some _ => None | None => upd (f_set s) (Some i) (f_cache s) (f_logs s) (go (PCheck o u)) end
      (* 59-68 *)
      | PCheck o u =>
          if f_set s then upd (f_set s) None (f_cache s) (f_logs s) (go (PSink o u 0))
          else upd (f_set s) None (cache_add o u (f_cache s)) (f_logs s) (go Idle)
      (* 70-73 *)
      | PSink o u j =>
          if (j <? length (f_logs s))%nat then upd (f_set s) (f_lock s) (f_cache s) (log_add j (o, u) (f_logs s)) (go (PSink o u (S j)))
          else same Idle
      (* 28 *)
      | SLock k => match f_lock s with Some _ => None | None => upd (f_set s) (Some i) (f_cache s) (f_logs s) (go (SCheck k)) end
      (* 30-40 *)
      | SCheck k =>
          if f_set s then upd (f_set s) None (f_cache s) (f_logs s) (go Idle)
          else upd (f_set s) (f_lock s) (f_cache s) (repeat [] k) (go (SFlush 0 (f_cache s)))
      (* 40-46; the order of the entries of the unordered map is the order of the list *)
      | SFlush j rest =>
          match rest with
          | e :: rest => if (j <? length (f_logs s))%nat then upd (f_set s) (f_lock s) (f_cache s) (log_add j e (f_logs s)) (go (SFlush j rest)) else same SClear
          | [] => if (j <? length (f_logs s))%nat then same (SFlush (S j) (f_cache s)) else same SClear
          end
      (* 48-50 and the end of the lock *)
      | SClear => upd true None [] (f_logs s) (go Idle)
      end
  end.
(** An execution: the threads which are given a turn, one after the other *)
Fixpoint prun (s : proc) (sched : list nat) : proc :=
  match sched with [] => s | i :: r => prun (match pstep i s with Some s' => s' | None => s end) r end.

(** MetricsProcessor.cpp:76-85: the call which a received message leads to *)
Definition on_update (self sender : text) (u : list item) : list call := if text_eqb sender self then [] else [CProcess sender u].
(** MetricsRemoteSink.cpp:18-27: the message sent for a call of the sink *)
Definition remote_sink (self origin : text) (u : list item) : option (list item) := if text_eqb origin self then Some u else None.

(** * The text of metrics *)

(** MetricsManager.cpp:353-373 *)
Definition quote_char (ch : N) : text := match ch with 92 => [92; 92] | 34 => [92; 34] | _ => [ch] end.
Definition quote (s : text) : text := 34 :: flat_map quote_char s ++ [34].
(** MetricsManager.cpp:350-386 *)
Definition format_list (l : list text) : text :=
  91 :: match l with [] => [] | x :: r => quote x ++ flat_map (fun y => 44 :: quote y) r end ++ [93].
(** MetricsManager.cpp:283-286, 318-321, 350-386, 415-418; fmt::format of double is the argument [F] *)
Definition format (F : stat -> text) (v : value) : text :=
  match v with VCount n => decimal n | VStat s => F s | VList l => format_list l | VAttr t => t end.
(** MetricsJsonSink.cpp:17-32 *)
Definition kind_text (k : kind) : text :=
  match k with Attribute => lit "ATTRIBUTE" | Counter => lit "COUNTER" | Statistic => lit "STATISTIC" | StringList => lit "STRING_LIST" end.
(** MetricsJsonSink.cpp:48-68: one record of the file *)
Definition json_line (origin : text) (ts : N) (name : text) (k : kind) (v : text) : text :=
  lit "{""ts"":" ++ decimal ts ++ lit ",""pn"":""" ++ escape origin ++ lit """" ++ lit ",""mn"":""" ++ escape name ++ lit """"
  ++ lit ",""mk"":""" ++ kind_text k ++ lit """" ++ lit ",""mv"":"
  ++ (match k with Attribute => lit """" ++ escape v ++ lit """" | _ => v end) ++ lit "}" ++ [10].
(** MetricsJsonSink.cpp:44-71 *)
Definition json_update (F : stat -> text) (origin : text) (l : list data) : text :=
  flat_map (fun d => json_line origin (d_time d) (d_name d) (d_kind d) (format F (d_value d))) l.

(** * Setting up the sinks *)
Inductive sink_type := TUndefined | TJsonFile | TRemote.
(** CreateMetricsSinksFromParticipantConfiguration.cpp:22-60: the sinks made for the configured ones; the assertion of line 44 throws *)
Fixpoint create_sinks (sender : bool) (l : list sink_type) : res (list sink_type) :=
  match l with
  | [] => Ok []
  | TJsonFile :: l => bind (create_sinks sender l) (fun r => Ok (TJsonFile :: r))
  | TRemote :: l => if sender then bind (create_sinks sender l) (fun r => Ok (TRemote :: r)) else Exn
  | TUndefined :: l => create_sinks sender l
  end.
(** S/core/participant/Participant_impl.hpp:212-221 with GetOrCreateMetricsSender, 1970-2007: there is a sender if a remote sink is configured *)
Definition setup_sinks (l : list sink_type) : res (list sink_type) :=
  create_sinks (existsb (fun t => match t with TRemote => true | _ => false end) l) l.
