From Coq Require Import String Ascii NArith ZArith List Bool.
From Verif Require Import Base TextModel YamlModel.
Import ListNotations.
Open Scope Z_scope.
Open Scope list_scope.

(** Model of a participant as the creator of its services: core/participant/ValidateAndSanitizeConfig.cpp,
    core/participant/Participant_impl.hpp (P below), CreateParticipantT.hpp, CreateParticipantImpl.cpp and
    experimental/participant/ParticipantExtensionsImpl.cpp.
    Calls are executed one after another: two threads that create services at the same time race on the maps of P, which have no lock,
    and that is not modelled. Texts of log messages are left out, as are the messages for a created controller (level Trace). *)

(** ** ValidateAndSanitizeConfig.cpp:13-87 *)
Inductive note := NoConfiguration | OtherName (given configured : text) | NoUri | OtherUri (given configured : text).
Definition set_name (n : text) (c : pcfg) : pcfg :=
  mkPc (p_schema c) (p_description c) (p_file c) n (p_can c) (p_lin c) (p_eth c) (p_flexray c) (p_pubs c) (p_subs c) (p_servers c) (p_clients c)
       (p_logging c) (p_health c) (p_tracing c) (p_ext c) (p_includes c) (p_middleware c) (p_exp c).
Definition set_uri (u : text) (c : pcfg) : pcfg :=
  let m := p_middleware c in
  mkPc (p_schema c) (p_description c) (p_file c) (p_name c) (p_can c) (p_lin c) (p_eth c) (p_flexray c) (p_pubs c) (p_subs c) (p_servers c) (p_clients c)
       (p_logging c) (p_health c) (p_tracing c) (p_ext c) (p_includes c)
       (mkMw u (mw_attempts m) (mw_rcvbuf m) (mw_sndbuf m) (mw_nodelay m) (mw_quickack m) (mw_domain m) (mw_acceptors m) (mw_proxy m) (mw_remote m) (mw_timeout m))
       (p_exp c).
Definition is_nil {A} (l : list A) : bool := match l with [] => true | _ => false end.
(** [None] is the null pointer. The result has the configuration and the messages for the log. *)
Definition sanitize (D : dbl) (given : option pcfg) (name uri : text) : res (pcfg * list note) :=
  let '(c, l) := match given with None => (pcfg0 D, [NoConfiguration]) | Some c => (c, []) end in
  if is_nil name then Exn
  else
    let '(c, l) := if is_nil (p_name c) then (set_name name c, l)
                   else if negb (text_eqb (p_name c) name) then (c, l ++ [OtherName name (p_name c)]) else (c, l) in
    let u := mw_uri (p_middleware c) in
    Ok (if is_nil u then if is_nil uri then (set_uri (lit "silkit://localhost:8500") c, l ++ [NoUri]) else (set_uri uri c, l)
        else if negb (text_eqb u uri) then (c, l ++ [OtherUri uri u]) else (c, l)).

(** ** Services *)
(** Participant.hpp:461-474: one map for each of them *)
Inductive kind := KCan | KEth | KFlexray | KLin | KPub | KSub | KSubInt | KClient | KServer | KServerInt | KLogSender | KLogReceiver | KLifecycle
                | KMonitor | KController | KTimeSync | KDiscovery | KReqRep | KMetReceiver | KMetSender.
Definition kind_eq_dec (a b : kind) : {a = b} + {a <> b}.
Proof. decide equality. Defined.
Definition kind_eqb (a b : kind) : bool := if kind_eq_dec a b then true else false.
(** SilKitServiceConfigTraits.hpp:65-101: ServiceType::InternalController, or Controller *)
Definition internal (k : kind) : bool :=
  match k with KLogSender | KLogReceiver | KLifecycle | KMonitor | KController | KTimeSync | KDiscovery | KReqRep | KMetReceiver | KMetSender => true | _ => false end.
(** GetNetworkType of the types of configuration, ParticipantConfiguration.hpp:35, 51, 70, 89, 108, 152, 171, 191, 207, and
    SilKitServiceConfigTraits.hpp:32-58 *)
Inductive ntype := NtUndefined | NtCan | NtLin | NtEthernet | NtFlexray | NtData | NtRpc.
Definition nettype (k : kind) : ntype :=
  match k with KCan => NtCan | KEth => NtEthernet | KFlexray => NtFlexray | KLin => NtLin | KPub | KSub | KSubInt => NtData
             | KClient | KServer | KServerInt => NtRpc | _ => NtUndefined end.
(** Supplemental data: a text, or the labels, which travel as the text of [w_mlabels] (see C69) *)
Inductive sval := SText (s : text) | SLabels (l : list mlabel).
(** ServiceDescriptor.hpp:112-119 *)
Record desc := mkDesc { d_part : text; d_net : text; d_name : text; d_ntype : ntype; d_id : N; d_internal : bool; d_supp : list (string * sval) }.
(** ServiceDescriptor.hpp:264-268, operator==, where [hash] computes the id of a participant from its name (168-172) *)
Definition desc_eqb (hash : text -> N) (a b : desc) : bool :=
  (hash (d_part a) =? hash (d_part b))%N && text_eqb (d_net a) (d_net b) && Bool.eqb (d_internal a) (d_internal b) && (d_id a =? d_id b)%N.

(** what the participant does with the others: RegisterSilKitService, NotifyServiceCreated, SetHistoryLengthForLink, AddSink with the number of the
    sink; [Mismatch] and [NoSink] are messages of the log *)
Inductive act := Registered (d : desc) | Announced (d : desc) | HistoryLength (d : desc) (n : N) | SinkAdded (d : desc) (i : nat)
               | Mismatch (name : text) | NoSink (name sink : text).
Record st := mkSt {
  s_ctrls : list (kind * desc); s_next : N;
  s_life : bool; s_mon : bool; s_sysc : bool; s_netsim : bool; s_sync : bool;
  s_sinks : list text; s_log : list act }.
Definition init : st := mkSt [] 0 false false false false false [] [].
Definition log (a : act) (s : st) : st :=
  mkSt (s_ctrls s) (s_next s) (s_life s) (s_mon s) (s_sysc s) (s_netsim s) (s_sync s) (s_sinks s) (s_log s ++ [a]).

(** A computation changes the state and may throw; what was done before the exception stays. *)
Definition M (A : Type) := st -> st * option A.
Definition ret {A} (a : A) : M A := fun s => (s, Some a).
Definition throw {A} : M A := fun s => (s, None).
Definition bnd {A B} (m : M A) (f : A -> M B) : M B := fun s => match m s with (s, Some a) => f a s | (s, None) => (s, None) end.
Definition upd (f : st -> st) : M unit := fun s => (f s, Some tt).
Notation "x <~ m ;~ f" := (bnd m (fun x => f)) (at level 61, m at next level, right associativity).
Definition when (b : bool) (m : M unit) : M unit := if b then m else ret tt.
Fixpoint each {A} (f : A -> M unit) (l : list A) : M unit := match l with [] => ret tt | a :: l => _ <~ f a ;~ each f l end.

(** Calls of the user and of the services. A UUID that a call generates is an argument. [OSubInt], [OServerInt]: a subscriber or a server
    with that service id has discovered a publisher or a client; they may be executed inside of [OSub] and [OServer]
    (RegisterServiceDiscovery), but after the service was created and announced: here they follow the call. [OGet]: one of the Get functions. *)
Inductive bus := BCan | BEth | BFlexray | BLin.
Record spec := mkSpec { sp_topic : text; sp_media : text; sp_labels : list mlabel }.
Inductive op :=
| OBus (b : bus) (name net : text)
| OPub (name : text) (sp : spec) (history : N) (uuid : text) | OSub (name : text) (sp : spec) | OSubInt (parent : N) (link uuid : text)
| OClient (name : text) (sp : spec) (uuid : text) | OServer (name : text) (sp : spec) | OServerInt (parent : N) (client uuid : text)
| OLifecycle (valid : bool) | OTimeSync | OMonitor | OController | ONetSim | OGet (k : kind).
Definition bus_kind (b : bus) : kind := match b with BCan => KCan | BEth => KEth | BFlexray => KFlexray | BLin => KLin end.

(** the order of std::string *)
Fixpoint text_ltb (a b : text) : bool :=
  match a, b with
  | [], [] => false | [], _ :: _ => true | _ :: _, [] => false
  | x :: a, y :: b => if (x <? y)%N then true else if (y <? x)%N then false else text_ltb a b
  end.
Definition label_eqb (a b : label) : bool :=
  text_eqb (lb_key a) (lb_key b) && text_eqb (lb_value a) (lb_value b)
  && match lb_kind a, lb_kind b with LkOptional, LkOptional | LkMandatory, LkMandatory => true | _, _ => false end.

(** silkit/services/pubsub/PubSubSpec.hpp:59-77, rpc/RpcSpec.hpp:59-77, AddLabel; the kinds are valid where it is used here *)
Fixpoint add_label (ls : list mlabel) (l : mlabel) : list mlabel :=
  match ls with [] => [l] | x :: r => if text_eqb (ml_key x) (ml_key l) then l :: r else x :: add_label r l end.

Section Participant.
  Variable c : pcfg.                        (* _participantConfig *)
  Variable srt : list label -> list label.  (* std::sort by the key: any function that sorts, see [sorts] *)

  (** P:1647-1659, GetController *)
  Definition exists_ (k : kind) (name : text) (s : st) : bool := existsb (fun x => kind_eqb (fst x) k && text_eqb (d_name (snd x)) name) (s_ctrls s).
  (** P:1675-1717, CreateController up to the insertion into the map. [before]: what the constructor of the service creates. *)
  Definition create0 (before : M unit) (k : kind) (name net : text) (supp : list (string * sval)) (register : bool) : M desc := fun s =>
    if is_nil name then throw s
    else if exists_ k name s then throw s
    else (_ <~ before ;~
          (fun s => let d := mkDesc (p_name c) net name (nettype k) (s_next s) (internal k) supp in
                    let s := if register then log (Registered d) s else s in
                    (mkSt (s_ctrls s ++ [(k, d)]) ((s_next s + 1) mod 2 ^ 64)%N (s_life s) (s_mon s) (s_sysc s) (s_netsim s) (s_sync s) (s_sinks s) (s_log s), Some d))) s.
  Definition default : text := lit "default".
  Definition ctype (t : string) : list (string * sval) := [("controller.type"%string, SText (lit t))].
  (** P:922-942: the discovery is in its map when its own creation is published, so the call in P:1721 finds it *)
  Definition get_discovery : M unit := fun s =>
    if exists_ KDiscovery (lit "ServiceDiscovery") s then ret tt s
    else (d <~ create0 (ret tt) KDiscovery (lit "ServiceDiscovery") default (ctype "ServiceDiscovery") true ;~ upd (log (Announced d))) s.
  (** P:1675-1724 *)
  Definition create (k : kind) (name net : text) (supp : list (string * sval)) : M desc :=
    d <~ create0 (ret tt) k name net supp true ;~ _ <~ get_discovery ;~ _ <~ upd (log (Announced d)) ;~ ret d.

  (** P:874-887, 946-965, 1011-1028 *)
  Definition get_or_create (k : kind) (name : string) : M unit := fun s =>
    if exists_ k (lit name) s then ret tt s else (_ <~ create k (lit name) default (ctype name) ;~ ret tt) s.
  (** P:770-794; registered later, P:1727-1734 *)
  Definition create_time_sync : M unit := fun s =>
    if exists_ KTimeSync (lit "TimeSyncService") s then throw s
    else (_ <~ create0 (ret tt) KTimeSync (lit "TimeSyncService") default (ctype "TimeSyncService") false ;~ ret tt) s.
  (** P:797-815; the constructor of the LifecycleService creates the TimeSyncService (LifecycleService.cpp:30) *)
  Definition get_lifecycle : M unit := fun s =>
    if exists_ KLifecycle (lit "LifecycleService") s then ret tt s
    else (_ <~ create0 create_time_sync KLifecycle (lit "LifecycleService") default (ctype "LifecycleService") true ;~ ret tt) s.
  (** The services that other code asks for *)
  Definition get (k : kind) : M unit :=
    match k with
    | KDiscovery => get_discovery | KMonitor => get_or_create KMonitor "SystemMonitor" | KController => get_or_create KController "SystemController"
    | KReqRep => get_or_create KReqRep "RequestReplyService" | KLifecycle => get_lifecycle | _ => ret tt
    end.

  (** tracing/Tracing.cpp:22-100, CreateTraceMessageSinks: the names; an Mdf4 sink is supplied by an extension, which may fail, and that is not
      modelled; opening a file neither *)
  Definition create_sinks (l : list tsink) : option (list text) :=
    if existsb (fun t => tktype_eqb (tk_type t) TkUndefined) l then None else Some (map tk_name l).
  (** P:120-161 with 164-239 and 1969-2008, OnSilKitSimulationJoined. The metrics sinks and the attributes are in MetricsModel.v; of the
      replay scheduler only the exception for an undefined source is here (ReplayScheduler.cpp:303, Tracing.cpp:102-132). *)
  Definition join : M unit :=
    _ <~ when (lg_remote (p_logging c)) (_ <~ create KLogReceiver (lit "LogMsgReceiver") default (ctype "LoggerReceiver") ;~ ret tt) ;~
    _ <~ when (existsb (fun s => stype_eqb (s_type s) SRemote) (lg_sinks (p_logging c)))
              (_ <~ create KLogSender (lit "LogMsgSender") default (ctype "LoggerSender") ;~ ret tt) ;~
    _ <~ when (existsb (fun s => mtype_eqb (m_type s) MRemote) (me_sinks (ex_metrics (p_exp c)))) (get_or_create KMetSender "MetricsSender") ;~
    _ <~ when (match me_collect (ex_metrics (p_exp c)) with Some b => b | None => false end)
              (_ <~ create KMetReceiver (lit "MetricsReceiver") default (ctype "MetricsReceiver") ;~ ret tt) ;~
    _ <~ get KController ;~ _ <~ get KDiscovery ;~ _ <~ get KReqRep ;~
    _ <~ (fun s => match create_sinks (tr_sinks (p_tracing c)) with
                   | None => throw s
                   | Some l => upd (fun s => mkSt (s_ctrls s) (s_next s) (s_life s) (s_mon s) (s_sysc s) (s_netsim s) (s_sync s) l (s_log s)) s
                   end) ;~
    _ <~ get KLifecycle ;~ _ <~ get KMonitor ;~
    if existsb (fun t => tctype_eqb (tc_type t) TcUndefined) (tr_sources (p_tracing c)) then throw else ret tt.

  (** P:260-276 *)
  Definition by_name {A} (name_of : A -> text) (rename : A) (l : list A) (name : text) : A :=
    match find (fun x => text_eqb (name_of x) name) l with Some x => x | None => rename end.
  (** P:280-294 *)
  Definition update {A} (eqb : A -> A -> bool) (name : text) (configured : option A) (passed : A) : M A :=
    match configured with
    | None => ret passed
    | Some v => _ <~ when (negb (eqb v passed)) (upd (log (Mismatch name))) ;~ ret v
    end.
  Definition bus_config (b : bus) : list ctrl :=
    match b with BCan => p_can c | BEth => p_eth c | BFlexray => map fr_ctrl (p_flexray c) | BLin => p_lin c end.
  Definition bus_type (b : bus) : string := match b with BCan => "CAN" | BEth => "Ethernet" | BFlexray => "FlexRay" | BLin => "LIN" end.

  (** P:1745-1771 *)
  Fixpoint sink_index (i : nat) (name : text) (l : list text) : option nat :=
    match l with [] => None | x :: l => if text_eqb x name then Some i else sink_index (S i) name l end.
  Definition add_sinks (d : desc) (use : list text) : M unit :=
    each (fun n => fun s => match sink_index 0 n (s_sinks s) with
                            | Some i => upd (log (SinkAdded d i)) s | None => upd (log (NoSink (d_name d) n)) s end) use.

  Definition lift {A} (r : res A) : M A := match r with Ok a => ret a | _ => throw end.
  (** P:496-517, 571-586, 664-678, 722-736: topic and labels, the configured ones if there are any. The arguments are computed before the
      call: the labels that were passed are converted in any case. *)
  Definition merge (name : text) (x : svc) (sp : spec) : M (text * list mlabel) :=
    t <~ update text_eqb name (sv_topic x) (sp_topic sp) ;~
    l <~ lift (mapM from_public (sp_labels sp)) ;~
    l <~ update (list_eqb label_eqb) name (sv_labels x) l ;~
    ret (t, fold_left add_label (map to_public (srt l)) []).
  Definition svc_named (l : list svc) (name : text) : svc := by_name sv_name (mkSvc name None None None [] replay0) l name.

  Definition step (o : op) : M (option desc) :=
    match o with
    (** P:296-445; the replay scheduler (320-324) is not here *)
    | OBus b name net =>
        let x := by_name ct_name (mkCtrl name None [] replay0) (bus_config b) name in
        net <~ update text_eqb name (ct_net x) net ;~
        d <~ create (bus_kind b) (ct_name x) net (ctype (bus_type b)) ;~
        _ <~ add_sinks d (ct_sinks x) ;~ ret (Some d)
    (** P:484-559 *)
    | OPub name sp history uuid =>
        if (1 <? history)%N then throw
        else
          let x := svc_named (p_pubs c) name in
          t <~ update text_eqb name (sv_topic x) (sp_topic sp) ;~
          h <~ update Z.eqb name (sv_history x) (Z.of_N history) ;~
          l <~ lift (mapM from_public (sp_labels sp)) ;~
          l <~ update (list_eqb label_eqb) name (sv_labels x) l ;~
          if (1 <? h)%Z then throw
          else
            let ls := fold_left add_label (map to_public (srt l)) [] in
            d <~ create KPub (sv_name x) uuid (ctype "DataPublisher" ++ [("PubSub::topic"%string, SText t); ("PubSub::pubUUID"%string, SText uuid);
                                ("PubSub::pubMediaType"%string, SText (sp_media sp)); ("PubSub::pubLabels"%string, SLabels ls)]) ;~
            _ <~ upd (log (HistoryLength d (Z.to_N h))) ;~
            _ <~ add_sinks d (sv_sinks x) ;~ ret (Some d)
    (** P:562-622 *)
    | OSub name sp =>
        let x := svc_named (p_subs c) name in
        tl <~ merge name x sp ;~
        d <~ create KSub (sv_name x) default (ctype "DataSubscriber" ++ [("PubSub::topic"%string, SText (fst tl)); ("PubSub::subMediaType"%string, SText (sp_media sp));
                            ("PubSub::subLabels"%string, SLabels (snd tl))]) ;~
        _ <~ add_sinks d (sv_sinks x) ;~ ret (Some d)
    (** P:447-481 *)
    | OSubInt parent link uuid =>
        d <~ create KSubInt uuid link (ctype "DataSubscriberInternal" ++ [("PubSub::subIntParentServiceId"%string, SText (decimal parent))]) ;~ ret (Some d)
    (** P:656-711 *)
    | OClient name sp uuid =>
        let x := svc_named (p_clients c) name in
        tl <~ merge name x sp ;~
        d <~ create KClient (sv_name x) uuid (ctype "RpcClient" ++ [("Rpc::client::functionName"%string, SText (fst tl)); ("Rpc::client::mediaType"%string, SText (sp_media sp));
                               ("Rpc::client::labels"%string, SLabels (snd tl)); ("Rpc::client::UUID"%string, SText uuid)]) ;~ ret (Some d)
    (** P:713-767 *)
    | OServer name sp =>
        let x := svc_named (p_servers c) name in
        tl <~ merge name x sp ;~
        d <~ create KServer (sv_name x) default (ctype "RpcServer" ++ [("Rpc::server::functionName"%string, SText (fst tl)); ("Rpc::server::mediaType"%string, SText (sp_media sp));
                               ("Rpc::server::labels"%string, SLabels (snd tl))]) ;~ ret (Some d)
    (** P:624-654 *)
    | OServerInt parent client uuid =>
        d <~ create KServerInt uuid client (ctype "RpcServerInternal" ++ [("Rpc::serverinternal::clientUUID"%string, SText client);
                                  ("Rpc::serverinternal::parentServiceId"%string, SText (decimal parent))]) ;~ ret (Some d)
    (** P:847-871; [valid]: the mode is not OperationMode::Invalid *)
    | OLifecycle valid => fun s =>
        if negb valid then throw s else if s_life s then throw s
        else (_ <~ upd (fun s => mkSt (s_ctrls s) (s_next s) true (s_mon s) (s_sysc s) (s_netsim s) (s_sync s) (s_sinks s) (s_log s)) ;~ _ <~ get KLifecycle ;~ ret None) s
    (** LifecycleService.cpp:425-444, P:1727-1734 *)
    | OTimeSync => fun s =>
        if s_sync s then throw s
        else (_ <~ upd (fun s => match find (fun x => kind_eqb (fst x) KTimeSync) (s_ctrls s) with Some x => log (Registered (snd x)) s | None => s end) ;~
              _ <~ upd (fun s => mkSt (s_ctrls s) (s_next s) (s_life s) (s_mon s) (s_sysc s) (s_netsim s) true (s_sinks s) (s_log s)) ;~ ret None) s
    (** P:911-919 *)
    | OMonitor => fun s =>
        if s_mon s then throw s
        else (_ <~ upd (fun s => mkSt (s_ctrls s) (s_next s) (s_life s) true (s_sysc s) (s_netsim s) (s_sync s) (s_sinks s) (s_log s)) ;~ _ <~ get KMonitor ;~ ret None) s
    (** ParticipantExtensionsImpl.cpp:12-26 *)
    | OController => fun s =>
        if s_sysc s then throw s
        else (_ <~ upd (fun s => mkSt (s_ctrls s) (s_next s) (s_life s) (s_mon s) true (s_netsim s) (s_sync s) (s_sinks s) (s_log s)) ;~ _ <~ get KController ;~ ret None) s
    (** ParticipantExtensionsImpl.cpp:28-42; P:1032-1041 is called from there only *)
    | ONetSim => fun s =>
        if s_netsim s then throw s
        else (_ <~ upd (fun s => mkSt (s_ctrls s) (s_next s) (s_life s) (s_mon s) (s_sysc s) true (s_sync s) (s_sinks s) (s_log s)) ;~ ret None) s
    | OGet k => _ <~ get k ;~ ret None
    end.
  Definition run (ops : list op) (s : st) : st := fold_left (fun s o => fst (step o s)) ops s.
  (** CreateParticipantImpl.cpp:12-19: a participant joins when it is created *)
  Definition start : st * option unit := join init.
End Participant.
