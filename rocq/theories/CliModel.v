From Coq Require Import String Ascii NArith ZArith List Bool.
From Verif Require Import Base TextModel YamlModel YamlCheckModel ParticipantModel.
Import ListNotations.
Open Scope Z_scope.
Open Scope list_scope.

(** Model of util/CommandlineParser.hpp (CP below) and of the utilities that use it: Utilities/SilKitRegistry/Registry.cpp (RC),
    Utilities/SilKitSystemController/SystemController.cpp (SC) and Utilities/SilKitMonitor/PassiveSystemMonitor.cpp (PM).
    Texts of messages and of the usage information are left out. *)

(** * The parser *)
(** CP:170-370: declared arguments with their values; usage, description and whether they are hidden are left out *)
Inductive argument :=
| APos (name value : text)
| AList (name : text) (values : list text)
| AOpt (name short default value : text)
| AFlag (name short : text) (value : bool).
(** what an exception says about which argument *)
Inductive cli_error := Bad (a : text) | Unknown (a : text) | NoValue (a : text).

(** CP:72-74, 96-98: the position of the first positional argument at or after [i]; the number of arguments if there is none *)
Definition is_positional (a : argument) : bool := match a with APos _ _ | AList _ _ => true | _ => false end.
Fixpoint next_positional (ds : list argument) (i : nat) : nat :=
  match ds with
  | [] => 0
  | d :: r => match i with
              | O => if is_positional d then 0 else S (next_positional r 0)
              | S j => S (next_positional r j)
              end
  end%nat.
(** CP:372-390, GetByName and GetByShortName for options and flags: the first with that name *)
Definition opt_named (sh : bool) (n : text) (a : argument) : bool :=
  match a with AOpt name s _ _ => if sh then negb (is_nil s) && text_eqb s n else text_eqb name n | _ => false end.
Definition flag_named (sh : bool) (n : text) (a : argument) : bool :=
  match a with AFlag name s _ => if sh then negb (is_nil s) && text_eqb s n else text_eqb name n | _ => false end.
(** the first that satisfies [p] is changed; None if there is none *)
Fixpoint change_first (p : argument -> bool) (f : argument -> argument) (ds : list argument) : option (list argument) :=
  match ds with [] => None | d :: r => if p d then Some (f d :: r) else option_map (cons d) (change_first p f r) end.
Definition set_opt (v : text) (a : argument) : argument := match a with AOpt n s d _ => AOpt n s d v | _ => a end.
Definition set_flag (a : argument) : argument := match a with AFlag n s _ => AFlag n s true | _ => a end.
(** CP:90-108: the value is stored in the argument at [cur]; None if there is none *)
Fixpoint set_positional (v : text) (ds : list argument) (cur : nat) : option (list argument * bool) :=
  match ds with
  | [] => None
  | d :: r => match cur with
              | S j => option_map (fun p => (d :: fst p, snd p)) (set_positional v r j)
              | O => match d with
                     | APos n _ => Some (APos n v :: r, true)
                     | AList n vs => Some (AList n (vs ++ [v]) :: r, false)
                     | _ => None
                     end
              end
  end.
(** CP:114-118: the text before and after the first '='; None without '=' *)
Fixpoint split_eq (s : text) : option (text * text) :=
  match s with [] => None | c :: r => if (c =? 61)%N then Some ([], r) else option_map (fun p => (c :: fst p, snd p)) (split_eq r) end.
(** CP:79-89: the argument without its prefix, and whether it has the short form; None: neither form *)
Definition prefixed (a : text) : option (bool * text) :=
  match a with
  | x :: y :: r => if (x =? 45)%N then if (y =? 45)%N && negb (is_nil r) then Some (false, r) else Some (true, y :: r) else None
  | _ => None
  end.
(** CP:70-155, the arguments after argv[0]. [cur] is the position of the next positional argument. The values set before an exception are lost:
    the callers end. *)
Fixpoint parse_from (ds : list argument) (cur : nat) (args : list text) : list argument + cli_error :=
  match args with
  | [] => inl ds
  | a :: rest =>
      match prefixed a with
      | None => match set_positional a ds cur with
                | Some (ds', true) => parse_from ds' (next_positional ds' (S cur)) rest
                | Some (ds', false) => parse_from ds' cur rest
                | None => inr (Bad a)
                end
      | Some (sh, arg) =>
          match split_eq arg with
          | Some (n, v) => match change_first (opt_named sh n) (set_opt v) ds with
                           | Some ds' => parse_from ds' cur rest
                           | None => inr (Unknown a)
                           end
          | None => if existsb (opt_named sh arg) ds
                    then match rest with
                         | [] => inr (NoValue a)
                         | v :: rest' => match change_first (opt_named sh arg) (set_opt v) ds with
                                         | Some ds' => parse_from ds' cur rest'
                                         | None => inr (Unknown a)
                                         end
                         end
                    else match change_first (flag_named sh arg) set_flag ds with
                         | Some ds' => parse_from ds' cur rest
                         | None => inr (Unknown a)
                         end
          end
      end
  end.
Definition parse (ds : list argument) (args : list text) : list argument + cli_error := parse_from ds (next_positional ds 0) args.

(** CP:35-44, Get: an exception for a name that was not declared *)
Fixpoint get_arg {A} (f : argument -> option A) (ds : list argument) : res A :=
  match ds with [] => Exn | d :: r => match f d with Some v => Ok v | None => get_arg f r end end.
(** CP:314-321, Value and HasValue of an option; 362-365 Value of a flag; 264-271 Values *)
Record optv := mkOptv { o_value : text; o_default : text; o_has : bool }.
Definition get_option (n : string) : list argument -> res optv :=
  get_arg (fun a => match a with AOpt m _ d v => if text_eqb m (lit n) then Some (mkOptv (if is_nil v then d else v) d (negb (is_nil v))) else None | _ => None end).
Definition get_flag (n : string) : list argument -> res bool :=
  get_arg (fun a => match a with AFlag m _ v => if text_eqb m (lit n) then Some v else None | _ => None end).
Definition get_list (n : string) : list argument -> res (list text) :=
  get_arg (fun a => match a with AList m vs => if text_eqb m (lit n) then Some vs else None | _ => None end).

(** * The utilities *)
Definition opt (n s d : string) : argument := AOpt (lit n) (lit s) (lit d) [].
Definition flag (n s : string) : argument := AFlag (lit n) (lit s) false.
(** how a utility ends before it does its work: the usage information or the version on stdout, an exit code, or it goes on *)
Inductive start (A : Type) := ShowUsage | ShowVersion | Fail (code : Z) | Run (a : A).
Arguments ShowUsage {A}. Arguments ShowVersion {A}. Arguments Fail {A} code. Arguments Run {A} a.
(** what is read from a file: a value, ConfigurationError, or another exception *)
Inductive from_file (A : Type) := FileOk (a : A) | FileConfig | FileOther.
Arguments FileOk {A} a. Arguments FileConfig {A}. Arguments FileOther {A}.

(** RC:46-51, SC:263-274: the levels in any case; [lower] is std::tolower in the C locale *)
Definition level_words : list string := ["trace"; "debug"; "warn"; "info"; "error"; "critical"; "off"]%string.
Definition valid_level (s : text) : bool := existsb (fun w => text_eqb (lower s) (lit w)) level_words.
(** include/silkit/services/logging/string_utils.hpp:65-87 *)
Definition level_from_string (s : text) : level :=
  let l := lower s in
  if text_eqb l (lit "trace") then LTrace else if text_eqb l (lit "debug") then LDebug else if text_eqb l (lit "warn") then LWarn
  else if text_eqb l (lit "info") then LInfo else if text_eqb l (lit "error") then LError else if text_eqb l (lit "critical") then LCritical
  else if text_eqb l (lit "off") then LOff else LOff.
(** the tree of {"Logging":{"Sinks":[{"Type":"Stdout","Level":"..."}]}}, SC:401, PM:53. The text is the level unless it has a quote or a backslash:
    for these the tree is not modelled (what comes out is an exception of the parser, or another configuration). *)
Definition stdout_config (lv : text) : node :=
  NMap [("Logging"%string, NMap [("Sinks"%string, NSeq [NMap [("Type"%string, NVal true (lit "Stdout")); ("Level"%string, NVal true lv)]])])].

(** ** The system controller *)
(** SC:280-305 *)
Definition controller_args : list argument :=
  [flag "version" "v"; flag "help" "h"; opt "connect-uri" "u" "silkit://localhost:8500"; opt "name" "n" "SystemController"; opt "configuration" "c" "";
   opt "log" "l" "info"; AList (lit "participantNames") []; flag "non-interactive" "ni"].
(** SC:398: the first character, std::toupper in the C locale *)
Definition upper1 (s : text) : text :=
  match s with [] => [] | c :: r => (if (97 <=? c)%N && (c <=? 122)%N then (c - 32)%N else c) :: r end.
Record controller := mkController { k_name : text; k_uri : text; k_required : list text; k_config : pcfg }.
Fixpoint distinct (l : list text) : bool := match l with [] => true | x :: r => negb (existsb (text_eqb x) r) && distinct r end.
(** SC:310-440 until the SilKitController is created; [file] reads a configuration. [join]: whether the participant was created (418). The duplicates
    are looked for afterwards (434): [Fail (-2)] there ends a participant that has joined. *)
Definition controller_main (D : dbl) (file : text -> from_file pcfg) (join : pcfg -> text -> text -> bool) (args : list text) : res (start controller) :=
  match parse controller_args args with
  | inr _ => Ok (Fail (-1))
  | inl ds =>
      help <- get_flag "help" ds ;;
      if help : bool then Ok ShowUsage
      else
      version <- get_flag "version" ds ;;
      if version : bool then Ok ShowVersion
      else
      names <- get_list "participantNames" ds ;;
      if is_nil names then Ok (Fail (-1))
      else
      name <- get_option "name" ds ;; log <- get_option "log" ds ;; cfg <- get_option "configuration" ds ;;
      if o_has log && o_has cfg then Ok (Fail (-1))
      else
      uri <- get_option "connect-uri" ds ;;
      if negb (valid_level (o_value log)) then Ok (Fail (-1))
      else
        match (if o_has cfg then file (o_value cfg)
               else match load D (stdout_config (upper1 (o_value log))) with Ok c => FileOk c | _ => FileConfig end) with
        | FileConfig => Ok (Fail (-2))
        | FileOther => Exn
        | FileOk c =>
            if negb (join c (o_value name) (o_value uri)) then Ok (Fail (-3))
            else if negb (distinct names) then Ok (Fail (-2))
            else Ok (Run (mkController (o_value name) (o_value uri) names c))
        end
  end.

(** SC:51-101: the handlers of the system monitor. A std::set is a list without duplicates; [k_req] has the order of the set, which is that of the
    workflow. *)
Record ctl := mkCtl { c_connected : list text; c_set : bool; c_workflow : list (list text) }.
Inductive ctl_op := Connected (n : text) | Disconnected (n : text).
Definition tmem (n : text) (l : list text) : bool := existsb (text_eqb n) l.
Definition set_eqb (a b : list text) : bool := forallb (fun x => tmem x b) a && forallb (fun x => tmem x a) b.
Definition ctl0 : ctl := mkCtl [] false [].
Definition ctl_step (req : list text) (own : text) (s : ctl) (o : ctl_op) : ctl :=
  if c_set s then s
  else match o with
       | Connected n =>
           if negb (tmem n req) then s
           else
             let con := if tmem n (c_connected s) then c_connected s else n :: c_connected s in
             if set_eqb con req then mkCtl con true (c_workflow s ++ [req ++ [own]]) else mkCtl con false (c_workflow s)
       | Disconnected n =>
           if tmem n req then mkCtl (filter (fun x => negb (text_eqb x n)) (c_connected s)) false (c_workflow s) else s
       end.
Definition ctl_run (req : list text) (own : text) (os : list ctl_op) : ctl := fold_left (ctl_step req own) os ctl0.

(** SC:175-199 StopOrAbort and 201-231 WaitForFinalStateWithRetries, in the handler of a signal. [ready k]: whether the final state is there at
    the end of the k-th wait of 5 seconds; [st]: the state of the system when the signal arrives. The recursion is twice deep: [fuel]. *)
Inductive sys := SRunning | SPaused | SAborting | SShutdown | SOther.
Inductive act := DoStop | DoAbort | DoWait | DoReportError.
Fixpoint retries (fuel : nat) (ready : nat -> bool) (k : nat) (aborted : bool) : option (list act) :=
  match fuel with
  | O => None
  | S f =>
      if ready k then Some [DoWait]
      else if ready (S k) then Some [DoWait; DoWait]
      else if ready (S (S k)) then Some [DoWait; DoWait; DoWait]
      else if aborted then Some [DoWait; DoWait; DoWait; DoReportError]
      else option_map (fun l => [DoWait; DoWait; DoWait; DoAbort] ++ l) (retries f ready (3 + k) true)
  end.
Definition on_signal (st : sys) (ready : nat -> bool) : option (list act) :=
  match st with
  | SRunning | SPaused => option_map (cons DoStop) (retries 3 ready 0 false)
  | SAborting => retries 3 ready 0 true
  | SShutdown => retries 3 ready 0 false
  | SOther => option_map (cons DoAbort) (retries 3 ready 0 true)
  end.

(** ** The system monitor *)
(** PM:61-83 *)
Definition monitor_args : list argument :=
  [flag "version" "v"; flag "help" "h"; opt "connect-uri" "u" "silkit://localhost:8500"; opt "name" "n" "SystemMonitor"; opt "loglevel" "l" "";
   opt "configuration" "c" ""; flag "autonomous" "a"; flag "coordinated" "r"; flag "sync" "s"].
Inductive opmode := MAutonomous | MCoordinated.
Record monitor := mkMonitor { m_pname : text; m_uri : text; m_config : pcfg; m_lifecycle : option opmode; m_sync : bool }.
(** PM:88-206, 38-56 *)
Definition monitor_main (D : dbl) (file : text -> from_file pcfg) (join : pcfg -> text -> text -> bool) (args : list text) : res (start monitor) :=
  match parse monitor_args args with
  | inr _ => Ok (Fail (-1))
  | inl ds =>
      help <- get_flag "help" ds ;;
      if help : bool then Ok ShowUsage
      else
      version <- get_flag "version" ds ;;
      if version : bool then Ok ShowVersion
      else
      uri <- get_option "connect-uri" ds ;; name <- get_option "name" ds ;; cfg <- get_option "configuration" ds ;; log <- get_option "loglevel" ds ;;
      let lv := if o_has log then o_value log else lit "Info" in
      au <- get_flag "autonomous" ds ;; co <- get_flag "coordinated" ds ;; sy <- get_flag "sync" ds ;;
      if (au : bool) && co then Ok (Fail (-1))
      else if (sy : bool) && negb co && negb au then Ok (Fail (-1))
      else
        match (if negb (is_nil (o_value cfg)) then file (o_value cfg)
               else match load D (stdout_config lv) with Ok c => FileOk c | _ => FileConfig end) with
        | FileConfig => Ok (Fail (-2))
        | FileOther => Exn
        | FileOk c =>
            if negb (join c (o_value name) (o_value uri)) then Ok (Fail (-3))
            else Ok (Run (mkMonitor (o_value name) (o_value uri) c (if au || co then Some (if au then MAutonomous else MCoordinated) else None)
                                    ((au || co) && sy)))
        end
  end.

(** ** The registry *)
(** RC:378-423 *)
Definition registry_args (win : bool) : list argument :=
  [flag "version" "v"; flag "help" "h"; opt "listen-uri" "u" "silkit://localhost:8500"; opt "generate-configuration" "g" "";
   opt "dashboard-uri" "d" "http://localhost:8082"; opt "log" "l" "info"; opt "registry-configuration" "c" ""; opt "directory" "C" "";
   flag "enable-dashboard" "Q"; flag "use-signal-handler" "s"; opt "x-status-file" "" ""] ++ (if win then [flag "windows-service" "W"] else []).
(** changes of a configuration *)
Definition with_sinks (s : list sink) (c : pcfg) : pcfg :=
  mkPc (p_schema c) (p_description c) (p_file c) (p_name c) (p_can c) (p_lin c) (p_eth c) (p_flexray c) (p_pubs c) (p_subs c) (p_servers c) (p_clients c)
       (mkLog (lg_remote (p_logging c)) (lg_flush (p_logging c)) s) (p_health c) (p_tracing c) (p_ext c) (p_includes c) (p_middleware c) (p_exp c).
Definition with_description (d : text) (c : pcfg) : pcfg :=
  mkPc (p_schema c) d (p_file c) (p_name c) (p_can c) (p_lin c) (p_eth c) (p_flexray c) (p_pubs c) (p_subs c) (p_servers c) (p_clients c)
       (p_logging c) (p_health c) (p_tracing c) (p_ext c) (p_includes c) (p_middleware c) (p_exp c).
Definition with_domain (b : bool) (c : pcfg) : pcfg :=
  let m := p_middleware c in
  mkPc (p_schema c) (p_description c) (p_file c) (p_name c) (p_can c) (p_lin c) (p_eth c) (p_flexray c) (p_pubs c) (p_subs c) (p_servers c) (p_clients c)
       (p_logging c) (p_health c) (p_tracing c) (p_ext c) (p_includes c)
       (mkMw (mw_uri m) (mw_attempts m) (mw_rcvbuf m) (mw_sndbuf m) (mw_nodelay m) (mw_quickack m) b (mw_acceptors m) (mw_proxy m) (mw_remote m) (mw_timeout m))
       (p_exp c).
Definition with_metrics (x : metrics) (c : pcfg) : pcfg :=
  mkPc (p_schema c) (p_description c) (p_file c) (p_name c) (p_can c) (p_lin c) (p_eth c) (p_flexray c) (p_pubs c) (p_subs c) (p_servers c) (p_clients c)
       (p_logging c) (p_health c) (p_tracing c) (p_ext c) (p_includes c) (p_middleware c) (mkExp (ex_time (p_exp c)) x).
(** RC:53-63 and 65-95; [tmp] is the path of the log file in the directory for temporary files *)
Definition configure_logging (lv : text) (c : pcfg) : pcfg :=
  with_sinks (lg_sinks (p_logging c) ++ [mkSink FSimple SStdout (level_from_string lv) [] [] []]) c.
Definition configure_service (tmp lv : text) (explicit : bool) (c : pcfg) : pcfg :=
  let l := level_from_string lv in
  with_domain false
    (if level_eqb l LOff then c
     else with_sinks (lg_sinks (p_logging c) ++ [mkSink FSimple SFile l (if explicit then lit "VectorSilKitRegistry_WindowsService" else tmp) [] []]) c).
(** RC:97-137: the configuration, the URI of the dashboard, whether it is used *)
Definition override (r : rcfg) (c : pcfg) (dash : text) (enable : bool) : pcfg * text * bool :=
  let c := if is_nil (rc_description r) then c else with_description (rc_description r) c in
  let c := match rc_listen r with Some u => set_uri u c | None => c end in
  let c := if is_nil (lg_sinks (rc_logging r)) then c else with_sinks (lg_sinks (rc_logging r)) c in
  let enable := enable || match rc_dashboard r with Some _ => true | None => false end in
  let dash := match rc_dashboard r with Some u => u | None => dash end in
  let c := match rc_domain r with Some b => with_domain b c | None => c end in
  let m := rc_metrics r in
  (with_metrics (match me_collect m with Some _ => m | None => mkMetrics (me_sinks m) (Some true) (me_interval m) end) c, dash, enable).
(** RC:148-167 *)
Definition sanitize_registry (D : dbl) (c : pcfg) (listen : text) : res pcfg :=
  let n := if is_nil (p_name c) then lit "SIL Kit Registry" else p_name c in
  r <- sanitize D (Some c) n listen ;; Ok (set_name (p_name c) (fst r)).

(** what is around: the working directory can be changed to a path; the text and tree of a configuration file; the path of the log file *)
Record reg_env := mkEnv { e_win : bool; e_chdir : text -> bool; e_file : text -> from_file rcfg; e_tmp : text }.
Record registry := mkRegistry { g_config : pcfg; g_listen : text; g_dashboard : option text; g_generate : option text; g_service : bool; g_status : option text }.
(** RC:427-558 until StartRegistry. [RegFail] has the path of the status file, which is written and removed also when the registry fails. *)
Inductive reg_start := RegShow (usage : bool) | RegFail (code : Z) (status : option text) | RegRun (r : registry).
Definition registry_main (D : dbl) (e : reg_env) (args : list text) : res reg_start :=
  match parse (registry_args (e_win e)) args with
  | inr _ => Ok (RegFail (-1) None)
  | inl ds =>
      help <- get_flag "help" ds ;;
      if help : bool then Ok (RegShow true)
      else
      dir <- get_option "directory" ds ;;
      if o_has dir && negb (is_nil (o_value dir)) && negb (e_chdir e (o_value dir)) then Ok (RegFail (-1) None)
      else
      version <- get_flag "version" ds ;;
      if version : bool then Ok (RegShow false)
      else
      listen <- get_option "listen-uri" ds ;; log <- get_option "log" ds ;; da <- get_option "dashboard-uri" ds ;;
      st <- get_option "x-status-file" ds ;; ed <- get_flag "enable-dashboard" ds ;;
      let '(dash, enable) := if ed : bool then if o_has da then (o_value da, true) else (o_default da, true) else (o_value da, o_has da) in
      svc <- (if e_win e then get_flag "windows-service" ds else Ok false) ;;
      let status := if is_nil (o_value st) || svc then None else Some (o_value st) in
      if negb (valid_level (o_value log)) then Ok (RegFail (-1) status)
      else
      rc <- get_option "registry-configuration" ds ;;
      match (if o_has rc then e_file e (o_value rc) else FileOk rcfg0) with
      | FileConfig => Ok (RegFail (-2) status)
      | FileOther => Ok (RegFail (-3) status)
      | FileOk r =>
          let c := if svc : bool then configure_service (e_tmp e) (o_value log) (o_has dir) (pcfg0 D) else configure_logging (o_value log) (pcfg0 D) in
          let '(c, dash, enable) := override r c dash enable in
          match sanitize_registry D c (o_value listen) with
          | Ok c =>
              gen <- get_option "generate-configuration" ds ;;
              Ok (RegRun (mkRegistry c (mw_uri (p_middleware c)) (if enable then Some dash else None)
                                     (if o_has gen then Some (o_value gen) else None) svc status))
          | _ => Ok (RegFail (-2) status)
          end
      end
  end.

(** RC:194-303, StartRegistry with 566-591: what the parts do. [t_instance], [t_registry], [t_connect]: creating the dashboard, creating the registry,
    and connecting to the dashboard end without an exception; [t_listen]: the URI the registry listens on, None for an exception; [t_write]: the file can be
    written and renamed. ConfigurationError is not told apart from other exceptions here. *)
Record start_env := mkStart { t_instance : bool; t_registry : bool; t_connect : bool; t_listen : text -> option text; t_write : bool }.
Record started := mkStarted { x_uri : text; x_dashboard : option text; x_file : option (text * bool * node) }.
(** RC:281-293: the suffix .json *)
Definition ends_with (suf s : text) : bool := (length suf <=? length s)%nat && text_eqb (skipn (length s - length suf) s) suf.
Definition start_registry (D : dbl) (t : start_env) (r : registry) : option started :=
  let dash := if t_instance t then g_dashboard r else None in
  if negb (t_registry t) then None
  else if match dash with Some _ => negb (t_connect t) | None => false end then None
  else match t_listen t (g_listen r) with
       | None => None
       | Some u =>
           match g_generate r with
           | None => Some (mkStarted u dash None)
           | Some p => if t_write t then Some (mkStarted u dash (Some (p, ends_with (lit ".json") p, serialize D (set_uri u (pcfg0 D))))) else None
           end
       end.
(** RC:305-372, 507, 568: what is written to the status file one after another, before it is removed at the end; [None]: nothing *)
Definition status_writes (D : dbl) (t : start_env) (s : reg_start) : list string :=
  match s with
  | RegShow _ => []
  | RegFail _ None => []
  | RegFail _ (Some _) => ["starting"; "stopped"]%string
  | RegRun r =>
      match g_status r with
      | None => []
      | Some _ => match start_registry D t r with Some _ => ["starting"; "running"; "stopped"]%string | None => ["starting"; "stopped"]%string end
      end
  end.
