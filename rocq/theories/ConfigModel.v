From Coq Require Import String Ascii NArith List Arith Bool.
From Verif Require Import Base TextModel AcceptorModel.
Import ListNotations.
Open Scope N_scope.
Open Scope list_scope.

(** Model of config/Validation.cpp and of the include and merge logic of config/ParticipantConfigurationFromXImpl.cpp.
    The YAML parser and the schema check are not modelled: a file is its deserialised configuration, or cannot be opened or read.
    File names are looked up in one function [files]; the search path hints are not modelled. Every ConfigurationError is [Exn]. *)

(** config/ParticipantConfiguration.hpp:38-228, config/Configuration.hpp:103-128: the named list items. The fields that not all kinds have
    are [None], [[]] or 0 for the others; [e_net] is the network, topic or function name. *)
Inductive kind := KCan | KLin | KEth | KFlexray | KPub | KSub | KServer | KClient | KSink | KSource.
Definition kind_eqb (a b : kind) : bool :=
  match a, b with
  | KCan, KCan | KLin, KLin | KEth, KEth | KFlexray, KFlexray | KPub, KPub | KSub, KSub | KServer, KServer | KClient, KClient | KSink, KSink | KSource, KSource => true
  | _, _ => false
  end.
Record element := mkEl {
  e_kind : kind; e_name : text; e_net : option text; e_labels : list N; e_history : option N; e_params : list N; e_bufs : list N;
  e_sinks : list text; e_source : text; e_replay : N; e_path : text; e_type : N }.
Definition otext_eqb (x y : option text) : bool := match x, y with Some x, Some y => text_eqb x y | None, None => true | _, _ => false end.
Definition texts_eqb (x y : list text) : bool := if list_eq_dec (list_eq_dec N.eq_dec) x y then true else false.
Definition replay_eqb (x y : element) : bool := text_eqb (e_source x) (e_source y) && (e_replay x =? e_replay y).
(** config/ParticipantConfiguration.cpp:71-118, Configuration.hpp:252-260: operator== of the items *)
Definition item_eqb (x y : element) : bool :=
  match e_kind x with
  | KCan | KLin | KEth => text_eqb (e_name x) (e_name y) && otext_eqb (e_net x) (e_net y) && texts_eqb (e_sinks x) (e_sinks y) && replay_eqb x y
  | KFlexray => text_eqb (e_name x) (e_name y) && otext_eqb (e_net x) (e_net y) && text_eqb (e_params x) (e_params y) && texts_eqb (e_sinks x) (e_sinks y) && replay_eqb x y
  | KPub | KSub | KServer | KClient => texts_eqb (e_sinks x) (e_sinks y) && replay_eqb x y
  | KSink | KSource => text_eqb (e_name x) (e_name y) && text_eqb (e_path x) (e_path y) && (e_type x =? e_type y)
  end.

(** Configuration.hpp:66-97 (Sink; [l_rest] stands for format, level and topics) and ParticipantConfiguration.hpp:248-259 (MetricsSink) *)
Inductive ltype := LRemote | LStdout | LFile.
Record lsink := mkLsink { l_type : ltype; l_name : text; l_rest : N }.
Inductive mtype := MUndefined | MJson | MRemote.
Record msink := mkMsink { m_type : mtype; m_name : text }.

(** ParticipantConfiguration.hpp:353-397. [c_middle]: the ten scalar options of Middleware in the order of Cache (268-285), encoded as
    numbers; [c_log]: flushLevel and logFromRemotes; [c_time]: animationFactor and enableMessageAggregation. *)
Record cfg := mkCfg {
  c_name : text; c_els : list element; c_middle : list N; c_acceptors : list text; c_log : list N; c_lsinks : list lsink;
  c_time : list N; c_dynamic : option bool; c_msinks : list msink; c_collect : option bool; c_interval : N;
  c_soft : option N; c_hard : option N; c_ext : list text; c_includes : list text }.
(** The default values: connectAttempts 1, tcpNoDelay true, tcpQuickAck false, buffer sizes -1 (encoded as 0), enableDomainSockets true,
    registryAsFallbackProxy true, registryUri empty (0), experimentalRemoteParticipantConnection true, connectTimeoutSeconds 5;
    flushLevel Off (encoded as 6), logFromRemotes false; animationFactor 0, aggregation Off *)
Definition d_middle : list N := [1; 1; 0; 0; 0; 1; 1; 0; 1; 5].
Definition d_log : list N := [6; 0].
Definition d_time : list N := [0; 0].
Definition cfg0 : cfg := mkCfg [] [] d_middle [] d_log [] d_time None [] None 1 None None [] [].

(** ** config/Validation.cpp *)
Definition is_controller (e : element) : bool := match e_kind e with KSink | KSource => false | _ => true end.
Definition is_kind (k : kind) (e : element) : bool := kind_eqb (e_kind e) k.
Definition mem (x : text) (l : list text) : bool := existsb (text_eqb x) l.
Definition check {A} (b : bool) (r : res A) : res A := if b then r else Exn.
Fixpoint nodup (l : list text) : list text := match l with [] => [] | x :: l => if mem x l then nodup l else x :: nodup l end.
(** 21-77; the number of distinct names is the size of the std::set *)
Definition validate_sinks (c : cfg) : res unit :=
  let sinks := filter (is_kind KSink) (c_els c) in
  let names := nodup (map e_name sinks) in
  check (forallb (fun s => negb (text_eqb (e_name s) []) && negb (text_eqb (e_path s) [])) sinks) (
  check (Nat.eqb (length names) (length sinks)) (
  check (forallb (fun x => forallb (fun t => negb (text_eqb t []) && mem t names) (e_sinks x)) (filter is_controller (c_els c))) (Ok tt))).
(** 79-134 *)
Fixpoint source_names (l : list element) (names : list text) : res (list text) :=
  match l with
  | [] => Ok names
  | s :: l => if text_eqb (e_name s) [] || text_eqb (e_path s) [] || mem (e_name s) names then Exn else source_names l (names ++ [e_name s])
  end.
Definition validate_sources (c : cfg) : res unit :=
  bind (source_names (filter (is_kind KSource) (c_els c)) []) (fun names =>
  check (forallb (fun x => text_eqb (e_source x) [] || mem (e_source x) names) (filter is_controller (c_els c))) (Ok tt)).
(** 138-144 *)
Definition validate (c : cfg) : res unit := bind (validate_sinks c) (fun _ => validate_sources c).

(** ** config/ParticipantConfigurationFromXImpl.cpp: reading the included files *)
Definition files := text -> option cfg.
Definition buffer := list (text * cfg).
(** 630-655: one level *)
Fixpoint level (fs : files) (todo : list text) (buf : buffer) (next : list text) : res (buffer * list text) :=
  match todo with
  | [] => Ok (buf, next)
  | f :: todo =>
      if mem f (map fst buf) then level fs todo buf next
      else match fs f with None => Exn | Some c => level fs todo (buf ++ [(f, c)]) (next ++ c_includes c) end
  end.
(** 625-664: the loop over the levels *)
Fixpoint levels (fs : files) (n : nat) (todo : list text) (buf : buffer) : res buffer :=
  match n with
  | O => Ok buf
  | S n => bind (level fs todo buf []) (fun r => match snd r with [] => Ok (fst r) | next => levels fs n next (fst r) end)
  end.
(** 610-664, upperbound = 127; the buffer does not contain the root. Simplification: the caches are filled afterwards from the buffer;
    both steps fail only with a ConfigurationError. *)
Definition process_includes (fs : files) (root : cfg) : res buffer := levels fs 127 (c_includes root) [].

(** ** Merging *)
(** 196-225 MergeNamedVector; [parent] holds the items of all kinds, the cache of a kind is its items by name. Items of different kinds
    do not interact, so they can be processed in any order. *)
Definition same_name (x y : element) : bool := kind_eqb (e_kind x) (e_kind y) && text_eqb (e_name x) (e_name y).
Definition merge_item (parent : list element) (e : element) : res (list element) :=
  match find (fun x => same_name x e) parent with
  | None => Ok (parent ++ [e])
  | Some d => if item_eqb d e then Ok parent else Exn
  end.
Fixpoint merge_items (es : list element) (parent : list element) : res (list element) :=
  match es with [] => Ok parent | e :: es => bind (merge_item parent e) (merge_items es) end.

(** 240-256 CacheNonDefault *)
Definition cache_value (d v : N) (c : option N) : res (option N) :=
  if d =? v then Ok c else match c with Some w => if w =? v then Ok (Some v) else Exn | None => Ok (Some v) end.
Fixpoint cache_values (ds vs : list N) (cs : list (option N)) : res (list (option N)) :=
  match ds, vs, cs with
  | d :: ds, v :: vs, c :: cs => bind (cache_value d v c) (fun c => bind (cache_values ds vs cs) (fun cs => Ok (c :: cs)))
  | _, _, _ => Ok []
  end.
(** 187-194 MergeCacheField *)
Fixpoint merge_values (ds : list N) (cs : list (option N)) : list N :=
  match ds, cs with
  | d :: ds, c :: cs => match c with Some v => v | None => d end :: merge_values ds cs
  | _, _ => ds
  end.

Record caches := mkCaches {
  k_middle : list (option N); k_acceptors : list text; k_log : list (option N); k_stdout : option lsink; k_remote : option lsink; k_files : list lsink;
  k_time : list (option N); k_dynamic : option bool; k_collect : option bool; k_json : list msink; k_mremote : option msink }.
Definition caches0 : caches := mkCaches (repeat None 10) [] (repeat None 2) None None [] (repeat None 2) None None [] None.
Definition nonempty {A} (l : list A) : bool := match l with [] => false | _ => true end.
(** 260-267 *)
Definition cache_acceptors (us cs : list text) : res (list text) :=
  if nonempty us then (if nonempty cs then Exn else Ok us) else Ok cs.
(** 296-341 CacheLoggingSinks *)
Definition cache_lsink (k : option lsink * option lsink * list lsink) (s : lsink) : res (option lsink * option lsink * list lsink) :=
  let '(o, r, fl) := k in
  match l_type s with
  | LStdout => match o with None => Ok (Some s, r, fl) | Some _ => Exn end
  | LRemote => match r with None => Ok (o, Some s, fl) | Some _ => Exn end
  | LFile => if mem (l_name s) (map l_name fl) then Exn else Ok (o, r, fl ++ [s])
  end.
Fixpoint cache_lsinks (ss : list lsink) k : res (option lsink * option lsink * list lsink) :=
  match ss with [] => Ok k | s :: ss => bind (cache_lsink k s) (cache_lsinks ss) end.
(** 350-357 *)
Definition cache_dynamic (v c : option bool) : res (option bool) :=
  match v with
  | None => Ok c
  | Some b => match c with Some w => if Bool.eqb w b then Ok (Some b) else Exn | None => Ok (Some b) end
  end.
(** 363-366: the default passed is false *)
Definition cache_collect (v c : option bool) : res (option bool) :=
  match v with
  | Some true => Ok (Some true)
  | _ => Ok c
  end.
(** 368-406 *)
Definition cache_msink (k : list msink * option msink) (s : msink) : res (list msink * option msink) :=
  match m_type s with
  | MJson => if mem (m_name s) (map m_name (fst k)) then Exn else Ok (fst k ++ [s], snd k)
  | MRemote => match snd k with None => Ok (fst k, Some s) | Some _ => Exn end
  | MUndefined => Exn
  end.
Fixpoint cache_msinks (ss : list msink) k : res (list msink * option msink) :=
  match ss with [] => Ok k | s :: ss => bind (cache_msink k s) (cache_msinks ss) end.
(** 416-437 PopulateCaches, with 258-415. A section equal to the default one is skipped there, which makes no difference: caching default
    values and no sinks changes nothing. *)
Definition populate (k : caches) (c : cfg) : res caches :=
  bind (cache_acceptors (c_acceptors c) (k_acceptors k)) (fun acc =>
  bind (cache_values d_middle (c_middle c) (k_middle k)) (fun mid =>
  bind (cache_values d_log (c_log c) (k_log k)) (fun lg =>
  bind (cache_lsinks (c_lsinks c) (k_stdout k, k_remote k, k_files k)) (fun ls =>
  bind (cache_values d_time (c_time c) (k_time k)) (fun tm =>
  bind (cache_dynamic (c_dynamic c) (k_dynamic k)) (fun dy =>
  bind (cache_collect (c_collect c) (k_collect k)) (fun co =>
  bind (cache_msinks (c_msinks c) (k_json k, k_mremote k)) (fun ms =>
  Ok (mkCaches mid acc lg (fst (fst ls)) (snd (fst ls)) (snd ls) tm dy co (fst ms) (snd ms)))))))))).
Fixpoint populate_all (cs : list cfg) (k : caches) : res caches :=
  match cs with [] => Ok k | c :: cs => bind (populate k c) (populate_all cs) end.

(** 446-475 MergeHealthCheck, one of the two timeouts *)
Definition merge_health (v cur : option N) : res (option N) :=
  match v with
  | None => Ok cur
  | Some x => match cur with Some y => if y =? x then Exn else Ok (Some x) | None => Ok (Some x) end
  end.
(** 477-491 *)
Definition merge_name (v cur : text) : res text :=
  if nonempty v then (if nonempty cur then Exn else Ok v) else Ok cur.
(** 564-595: the loop of MergeConfigs: items, extensions, health check and name *)
Definition merge_one (r : cfg) (c : cfg) : res cfg :=
  bind (merge_items (c_els c) (c_els r)) (fun els =>
  bind (merge_health (c_soft c) (c_soft r)) (fun so =>
  bind (merge_health (c_hard c) (c_hard r)) (fun ha =>
  bind (merge_name (c_name c) (c_name r)) (fun nm =>
  Ok (mkCfg nm els (c_middle r) (c_acceptors r) (c_log r) (c_lsinks r) (c_time r) (c_dynamic r) (c_msinks r) (c_collect r) (c_interval r) so ha (c_ext r ++ c_ext c) (c_includes r)))))).
Fixpoint merge_configs (cs : list cfg) (r : cfg) : res cfg :=
  match cs with [] => Ok r | c :: cs => bind (merge_one r c) (merge_configs cs) end.
(** std::set<Sink> ordered by type and name (Configuration.hpp:237-240); all elements are files *)
Fixpoint byname (s : lsink) (l : list lsink) : list lsink :=
  match l with [] => [s] | x :: r => if text_lt (l_name s) (l_name x) then s :: l else x :: byname s r end.
Fixpoint mbyname (s : msink) (l : list msink) : list msink :=
  match l with [] => [s] | x :: r => if text_lt (m_name s) (m_name x) then s :: l else x :: mbyname s r end.
Definition opt {A} (o : option A) : list A := match o with Some x => [x] | None => [] end.
(** 493-561 *)
Definition merge_caches (k : caches) (r : cfg) : res cfg :=
  match k_mremote k, k_collect k with
  | Some _, Some true => Exn
  | _, _ =>
    Ok (mkCfg (c_name r) (c_els r) (merge_values (c_middle r) (k_middle k)) (k_acceptors k) (merge_values (c_log r) (k_log k))
        (c_lsinks r ++ fold_left (fun l s => byname s l) (k_files k) [] ++ opt (k_stdout k) ++ opt (k_remote k))
        (merge_values (c_time r) (k_time k)) (match k_dynamic k with Some b => Some b | None => c_dynamic r end)
        (c_msinks r ++ fold_left (fun l s => mbyname s l) (k_json k) [] ++ opt (k_mremote k))
        (match c_collect r with Some x => Some (match k_collect k with Some y => y | None => x end) | None => None end)
        (c_interval r) (c_soft r) (c_hard r) (c_ext r) (c_includes r))
  end.
(** 667-696 PaticipantConfigurationWithIncludes (the schema version check is not modelled) *)
Definition load (fs : files) (root : cfg) : res cfg :=
  bind (process_includes fs root) (fun buf =>
  let cs := root :: map snd buf in
  bind (populate_all cs caches0) (fun k => bind (merge_configs cs cfg0) (merge_caches k))).
