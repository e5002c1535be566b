From Coq Require Import String Ascii NArith ZArith List Arith Bool.
From Verif Require Import Base TextModel YamlModel.
From Verif Require SerdesModel.
Import ListNotations.
Open Scope string_scope.
Open Scope N_scope.
Open Scope list_scope.

(** Model of the logger of a participant: S/services/logging/Logger.cpp, Logger.hpp, LoggerMessage.hpp, LogFunctions.hpp,
    MessageTracing.hpp, SpdlogTypeConversion.hpp. S is /repo/SilKit/source. Sinks and their levels are those of the configuration (YamlModel).
    The library spdlog is environment: a logger hands a message to its sink if the level of the message is at least the level of the logger and of
    the sink (both are set to the configured level), and the sink writes one line with the pattern. Flushing is not modelled. *)
Notation LogMsg := SerdesModel.LogMsg.
Notation mkLogMsg := SerdesModel.mkLogMsg.
Notation topic_to_string := SerdesModel.topic_to_string.
Notation lm_loggerName := SerdesModel.lm_loggerName.
Notation lm_level := SerdesModel.lm_level.
Notation lm_time := SerdesModel.lm_time.
Notation lm_payload := SerdesModel.lm_payload.
Notation lm_keyValues := SerdesModel.lm_keyValues.
Notation lm_topic := SerdesModel.lm_topic.

(** include/silkit/services/logging/LoggingDatatypes.hpp:15-24: a level is a uint32_t *)
Definition num (l : level) : N :=
  match l with LTrace => 0 | LDebug => 1 | LInfo => 2 | LWarn => 3 | LError => 4 | LCritical => 5 | LOff => 4294967295 end.
(** SpdlogTypeConversion.hpp:16-36; None is the exception *)
Definition to_spdlog (n : N) : option N :=
  if n =? 0 then Some 0 else if n =? 1 then Some 1 else if n =? 2 then Some 2 else if n =? 3 then Some 3
  else if n =? 4 then Some 4 else if n =? 5 then Some 5 else if n =? 4294967295 then Some 6 else None.
(** SpdlogTypeConversion.hpp:38-61, for the seven levels *)
Definition from_spdlog (n : N) : N := if n =? 6 then 4294967295 else n.
(** the level of a spdlog logger or sink made for the configured sink (Logger.cpp:303-304, 320, 325, 341, 349) *)
Definition spd_level (s : sink) : N := match to_spdlog (num (s_level s)) with Some n => n | None => 6 end.

(** ** Texts *)
Notation kvs := (list (text * text)).
(** Logger.cpp:78-95 *)
Fixpoint kv_simple (l : kvs) : text :=
  match l with
  | [] => []
  | [(k, v)] => k ++ lit ": " ++ v
  | (k, v) :: r => k ++ lit ": " ++ v ++ lit ", " ++ kv_simple r
  end.
(** Logger.cpp:112-120, StructuredLoggingKeys.hpp:20 *)
Definition json_pair (p : text * text) : text :=
  if text_eqb (fst p) (lit "Raw") then [34] ++ escape (fst p) ++ [34] ++ lit ":" ++ snd p
  else [34] ++ escape (fst p) ++ [34] ++ lit ":" ++ [34] ++ escape (snd p) ++ [34].
(** Logger.cpp:97-126 *)
Fixpoint json_pairs (l : kvs) : text :=
  match l with [] => [] | [p] => json_pair p | p :: r => json_pair p ++ lit "," ++ json_pairs r end.
Definition kv_json (l : kvs) : text := lit "{" ++ json_pairs l ++ lit "}".
Definition has_kv (l : kvs) : bool := match l with [] => false | _ => true end.
(** Logger.cpp:137-160 *)
Definition simple_message (topic : N) (msg : text) (l : kvs) : text :=
  let has_topic := negb (topic =? 0) in
  if has_topic && has_kv l then lit "[" ++ topic_to_string topic ++ lit "] " ++ msg ++ lit ", " ++ kv_simple l
  else if has_topic then lit "[" ++ topic_to_string topic ++ lit "] " ++ msg
  else if has_kv l then msg ++ lit ", " ++ kv_simple l
  else msg.
(** Logger.cpp:172-201 *)
Definition json_message (topic : N) (msg : text) (l : kvs) : text :=
  let has_topic := negb (topic =? 0) in
  let t := lit """topic"": """ ++ escape (topic_to_string topic) ++ lit """, " in
  let m := lit """msg"": """ ++ escape msg ++ [34] in
  let k := lit ", ""kv"": " ++ kv_json l in
  if has_topic && has_kv l then t ++ m ++ k
  else if has_topic then t ++ m
  else if has_kv l then m ++ k
  else m.
(** Logger.cpp:212-219 *)
Definition json_string (topic : N) (msg : text) : text :=
  lit """topic"": """ ++ escape (topic_to_string topic) ++ lit """, " ++ lit """msg"": """ ++ escape msg ++ [34].
(** Logger.cpp:409-420, and 430-450 *)
Definition render (topic : N) (msg : text) (l : kvs) (f : sformat) : text :=
  match f with FJson => json_message topic msg l | FSimple => simple_message topic msg l end.
(** Logger.cpp:473-483 *)
Definition render_text (topic : N) (msg : text) (f : sformat) : text :=
  match f with FJson => json_string topic msg | FSimple => lit "[" ++ topic_to_string topic ++ lit "] " ++ msg end.

(** ** Lines
    What a spdlog sink is given: time in nanoseconds, name of the logger, level of spdlog, payload. *)
Record out := mkOut { o_time : Z; o_name : text; o_level : N; o_payload : text }.
(** Logger.cpp:61-75: microseconds since the epoch *)
Definition epoch (t : Z) : text := let u := Z.quot t 1000 in if (u <? 0)%Z then [45] ++ decimal (Z.to_N (- u)) else decimal (Z.to_N u).
(** the level names of spdlog (its flag %l) *)
Definition level_name (n : N) : text :=
  lit match n with 0 => "trace" | 1 => "debug" | 2 => "info" | 3 => "warning" | 4 => "error" | 5 => "critical" | _ => "off" end.
(** Logger.cpp:298-299: the pattern of Json sinks, and the end of line that spdlog adds. The pattern of Simple sinks is the default one of
    spdlog and not modelled. *)
Definition json_line (o : out) : text :=
  lit "{""ts"":""" ++ epoch (o_time o) ++ lit """,""log"":""" ++ o_name o ++ lit """,""lvl"":""" ++ level_name (o_level o) ++ lit """, "
  ++ o_payload o ++ lit " }" ++ [10].
(** Logger.cpp:333-334, 346-347 *)
Definition file_name (s : sink) (participant stamp : text) : text :=
  s_log s ++ lit "_" ++ printable participant ++ lit "_" ++ stamp ++ lit match s_format s with FJson => ".jsonl" | FSimple => ".txt" end.

(** ** The logger
    A sink is identified by its position in the configuration. A remote sink holds the handler registered last (Logger.hpp:102-114). *)
Record remote := mkRemote { r_id : nat; r_sink : sink; r_handler : option N }.
Record logger := mkLogger { g_name : text; g_local : list (nat * sink); g_remote : list remote }.
Inductive event := EOut (id : nat) (o : out) | ESend (id : nat) (handler : N) (m : LogMsg).

Fixpoint number {A} (i : nat) (l : list A) : list (nat * A) := match l with [] => [] | x :: r => (i, x) :: number (Datatypes.S i) r end.
Definition is_remote (s : sink) : bool := stype_eqb (s_type s) SRemote.
(** Logger.cpp:264-290. The maps are ordered by addresses: [ord] gives the order of iteration. *)
Definition make (ord : list (nat * sink) -> list (nat * sink)) (participant : text) (sinks : list sink) : logger :=
  mkLogger participant (filter (fun x => negb (is_remote (snd x))) (ord (number 0 sinks)))
    (map (fun x => mkRemote (fst x) (snd x) None) (filter (fun x => is_remote (snd x)) (ord (number 0 sinks)))).

(** Logger.hpp:232-249 *)
Definition topic_disabled (enabled disabled : list N) (t : N) : bool :=
  if existsb (N.eqb t) disabled then true
  else match enabled with [] => false | _ => negb (existsb (N.eqb t) enabled) end.
(** Logger.hpp:251-254 *)
Definition level_matching (sinkLevel msgLevel : N) : bool := sinkLevel <=? msgLevel.
(** Logger.cpp:367-375, 383-391 *)
Definition passes (s : sink) (level topic : N) : bool :=
  if negb (level_matching (num (s_level s)) level) then false
  else if topic_disabled (s_enabled s) (s_disabled s) topic then false else true.
(** spdlog: level of the message against the level of the logger and the sink *)
Definition spd_out (i : nat) (s : sink) (o : out) : list event := if spd_level s <=? o_level o then [EOut i o] else [].

(** Outcome of a call: what it put out, and whether it ended in an exception *)
Notation outcome := (list event * bool)%type.
Definition andthen (a : outcome) (b : outcome) : outcome := if snd a then a else (fst a ++ fst b, snd b).

(** Logger.cpp:365-379 *)
Fixpoint to_locals (name : text) (now : Z) (level topic : N) (fmt : sformat -> text) (l : list (nat * sink)) : outcome :=
  match l with
  | [] => ([], false)
  | (i, s) :: r =>
      andthen (if passes s level topic
               then match to_spdlog level with
                    | Some n => (spd_out i s (mkOut now name n (fmt (s_format s))), false)
                    | None => ([], true)
                    end
               else ([], false))
              (to_locals name now level topic fmt r)
  end.
(** Logger.hpp:59-76, 78-89: the level is checked again *)
Definition send (r : remote) (m : LogMsg) : outcome :=
  match r_handler r with
  | Some h => if num (s_level (r_sink r)) <=? lm_level m then ([ESend (r_id r) h m], false) else ([], false)
  | None => ([], false)
  end.
Definition no_source : SerdesModel.SourceLoc := SerdesModel.mkSourceLoc [] 0 [].
(** Logger.cpp:381-401. [msg]: the message that is sent. *)
Fixpoint to_remotes (level topic : N) (msg : LogMsg) (l : list remote) : outcome :=
  match l with
  | [] => ([], false)
  | r :: l => andthen (if passes (r_sink r) level topic then send r msg else ([], false)) (to_remotes level topic msg l)
  end.

(** Logger.cpp:469-484; without a remote dispatcher the payload is the text of the Simple format (399) *)
Definition log_text (g : logger) (now : Z) (level topic : N) (msg : text) : outcome :=
  andthen (to_locals (g_name g) now level topic (render_text topic msg) (g_local g))
    (to_remotes level topic (mkLogMsg (g_name g) level now no_source (render_text topic msg FSimple) [] topic) (g_remote g)).

(** LoggerMessage.hpp:202-208 *)
Record lmsg := mkMsg { m_level : N; m_topic : N; m_text : text; m_kvs : kvs }.
(** Logger.cpp:404-424 *)
Definition process (g : logger) (now : Z) (m : lmsg) : outcome :=
  andthen (to_locals (g_name g) now (m_level m) (m_topic m) (render (m_topic m) (m_text m) (m_kvs m)) (g_local g))
    (to_remotes (m_level m) (m_topic m) (mkLogMsg (g_name g) (m_level m) now no_source (m_text m) (m_kvs m) (m_topic m)) (g_remote g)).

(** Logger.cpp:426-467: the levels are compared on the scale of spdlog; topics do not matter *)
Fixpoint received (m : LogMsg) (l : list (nat * sink)) : outcome :=
  match l with
  | [] => ([], false)
  | (i, s) :: r =>
      andthen (match to_spdlog (lm_level m) with
               | Some n => (if n <? spd_level s then []
                            else [EOut i (mkOut (lm_time m) (lm_loggerName m) n (render (lm_topic m) (lm_payload m) (lm_keyValues m) (s_format s)))], false)
               | None => ([], true)
               end)
              (received m r)
  end.

(** Logger.cpp:503-517 *)
Definition lower_of (a b : N) : N := if a <? b then a else b.
Definition get_level (g : logger) : N :=
  from_spdlog (fold_left (fun l r => lower_of l (spd_level (r_sink r))) (g_remote g)
    (fold_left (fun l x => lower_of l (spd_level (snd x))) (g_local g) 5)).

(** ** Building messages (LoggerMessage.hpp) *)
(** LoggerMessage.hpp:124-133 *)
Fixpoint set_kv (k v : text) (l : kvs) : option kvs :=
  match l with
  | [] => None
  | (k', v') :: r => if text_eqb k' k then Some ((k', v) :: r) else option_map (cons (k', v')) (set_kv k v r)
  end.
Inductive cmd :=
| SetText (t : text)               (* 57-83: FormatMessage, SetMessage *)
| AddKv (k v : text)               (* 91-96, 144-152 *)
| SetKv (k v : text)               (* 119-136; for a service descriptor and labels (98-117, 154-171) one of these for every pair *)
| SetTopic (t : N)                 (* 85-89 *)
| SetLevel (l : N)                 (* 138-142 *)
| Dispatch (now : Z).              (* 193-200 *)
Definition guarded (g : logger) (m : lmsg) (m' : lmsg) : lmsg := if get_level g <=? m_level m then m' else m.
Definition apply_cmd (g : logger) (m : lmsg) (c : cmd) : lmsg * outcome :=
  match c with
  | SetText t => (guarded g m (mkMsg (m_level m) (m_topic m) t (m_kvs m)), ([], false))
  | AddKv k v => (guarded g m (mkMsg (m_level m) (m_topic m) (m_text m) (m_kvs m ++ [(k, v)])), ([], false))
  | SetKv k v => (guarded g m (mkMsg (m_level m) (m_topic m) (m_text m)
                     (match set_kv k v (m_kvs m) with Some l => l | None => m_kvs m ++ [(k, v)] end)), ([], false))
  | SetTopic t => (mkMsg (m_level m) t (m_text m) (m_kvs m), ([], false))
  | SetLevel l => (mkMsg l (m_topic m) (m_text m) (m_kvs m), ([], false))
  | Dispatch now => (m, if get_level g <=? m_level m then process g now m else ([], false))
  end.
Fixpoint build (g : logger) (m : lmsg) (l : list cmd) : outcome :=
  match l with [] => ([], false) | c :: l => let (m, o) := apply_cmd g m c in andthen o (build g m l) end.

(** MessageTracing.hpp:19-64. [own]: the topic of the message type; [descriptor]: the pairs of the service descriptor; [stamp]: the virtual time of
    the message if its type has one. AddKeyValue formats with the pattern it is given, the next argument is "{}" and the number is not used (53,
    LoggerMessage.hpp:91-96); [raw]: for configurations of FlexRay controllers. Messages of the type LogMsg are not traced (24-34). *)
Definition trace_cmds (text : text) (descriptor : kvs) (msg : TextModel.text) (extra : option (TextModel.text * TextModel.text))
    (stamp : option N) (raw : option TextModel.text) (now : Z) : list cmd :=
  [SetText text] ++ map (fun p => SetKv (fst p) (snd p)) descriptor ++ [AddKv (lit "Msg") msg]
  ++ match extra with Some (k, v) => match k, v with [], _ | _, [] => [] | _, _ => [SetKv k v] end | None => [] end
  ++ match stamp with Some _ => [AddKv (lit "VirtualTimeNS") (lit "{}")] | None => [] end
  ++ match raw with Some r => [SetKv (lit "Raw") r] | None => [] end ++ [Dispatch now].
Definition trace_message (g : logger) (own : N) (text : text) (descriptor : kvs) (msg : TextModel.text)
    (extra : option (TextModel.text * TextModel.text)) (stamp : option N) (raw : option TextModel.text) (now : Z) : outcome :=
  if get_level g =? 0
  then build g (mkMsg 0 (if own =? 0 then 4 else own) [] []) (trace_cmds text descriptor msg extra stamp raw now)
  else ([], false).

(** ** Runs *)
Inductive op :=
| Log (now : Z) (level topic : N) (msg : text)
| Message (level topic : N) (l : list cmd)
| Received (m : LogMsg)
| Register (h : N)
| Disable.
Definition with_handler (h : option N) (g : logger) : logger :=
  mkLogger (g_name g) (g_local g) (map (fun r => mkRemote (r_id r) (r_sink r) h) (g_remote g)).
Definition step (g : logger) (o : op) : logger * outcome :=
  match o with
  | Log now level topic msg => (g, log_text g now level topic msg)
  | Message level topic l => (g, build g (mkMsg level topic [] []) l)
  | Received m => (g, received m (g_local g))
  | Register h => (with_handler (Some h) g, ([], false))  (* Logger.cpp:487-493 *)
  | Disable => (with_handler None g, ([], false))         (* Logger.cpp:495-501 *)
  end.
(** an exception ends the call, not the run *)
Fixpoint run (g : logger) (l : list op) : list event :=
  match l with [] => [] | o :: l => let (g, r) := step g o in fst r ++ run g l end.

(** LogFunctions.hpp:20-34, 57-66: a flag that is tested and set in one step, and a function that logs once *)
Definition was_called (once : bool) : bool * bool := (once, true).
Definition log_once (g : logger) (once : bool) (now : Z) (level : N) (msg : text) : bool * outcome :=
  let (called, once) := was_called once in
  (once, if called then ([], false) else if get_level g <=? level then log_text g now level 0 msg else ([], false)).
Fixpoint run_once (g : logger) (once : bool) (l : list (Z * text)) (level : N) : list event :=
  match l with [] => [] | (now, msg) :: l => let (once, o) := log_once g once now level msg in fst o ++ run_once g once l level end.
