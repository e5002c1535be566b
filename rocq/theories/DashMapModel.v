(** Model of what the dashboard is sent: SilKit/source/dashboard/service/SilKitToOatppMapper.cpp (M), dto/*.hpp, the worker of DashboardInstance.cpp (D)
    as far as exceptions are concerned. The text of the requests (oatpp's ObjectMapper) and HTTP are not
    modelled. The parser of labels is [yaml], those of the values of metrics [json_int] and [json_floats]. *)
From Coq Require Import String Ascii NArith ZArith List Bool Lia.
From Verif Require Import Base TextModel YamlModel ParticipantModel.
Import ListNotations.
Open Scope Z_scope.
Open Scope list_scope.

(** core/internal/ServiceDescriptor.hpp:23-30; any other number in the byte is [SvUndefined] here: both go to the default cases *)
Inductive svtype := SvUndefined | SvLink | SvController | SvSimulated | SvInternal.
(** ServiceDescriptor.hpp:112-119 as received *)
Record sdesc := mkSd { v_part : text; v_type : svtype; v_ntype : ntype; v_net : text; v_name : text; v_id : N; v_supp : list (text * text) }.
(** ServiceDescriptor.hpp:91-101 *)
Fixpoint supp_find (k : text) (l : list (text * text)) : option text :=
  match l with [] => None | (a, v) :: r => if text_eqb a k then Some v else supp_find k r end.
(** M:37-45 *)
Definition supp (d : sdesc) (k : string) : res text := match supp_find (lit k) (v_supp d) with Some v => Ok v | None => Exn end.

(** M:23-35: std::stoul of 64 bits: blanks, a sign, digits; what follows is ignored. The value of a negative number is negated modulo 2^64. *)
Definition blank (c : N) : bool := ((9 <=? c) && (c <=? 13) || (c =? 32))%N.
Fixpoint skip_blanks (s : text) : text := match s with c :: r => if blank c then skip_blanks r else s | [] => [] end.
Fixpoint leading (acc : N) (s : text) : N := match s with c :: r => if digit c then leading (10 * acc + (c - 48)) r else acc | [] => acc end%N.
Definition stou (s : text) : res N :=
  let s := skip_blanks s in
  let '(neg, s) := match s with c :: r => if (c =? 45)%N then (true, r) else if (c =? 43)%N then (false, r) else (false, s) | [] => (false, []) end in
  match s with
  | c :: _ => if digit c then let v := leading 0 s in if (2 ^ 64 <=? v)%N then Exn else Ok (if neg then (2 ^ 64 - v) mod 2 ^ 64 else v)%N else Exn
  | [] => Exn
  end.

(** dto/BulkUpdateDto.hpp: the vectors of BulkParticipantDto. The DTO of a participant has the list of all entries with the vector each is in:
    a vector is the list of its entries. *)
Inductive slot := CanC | EthC | FlexC | LinC | PubS | SubS | SubI | CliS | SrvS | SrvI | CanN | EthN | FlexN | LinN.
Record spec_dto := mkSpecDto { sd_topic : text; sd_media : text; sd_labels : list (text * text * string) }.
Inductive entry := ECtrl (id : N) (name net : text) | EServ (id : N) (name net : text) (s : spec_dto) | EIntern (id : N) (name net : text) (parent : N) | ENet (net : text).
Record pdto := mkPdto { q_name : text; q_statuses : list (string * text * Z); q_entries : list (slot * entry) }.

Section Mapper.
  Variable yaml : text -> res node.
  (** M:168-178, MatchingLabelDto.hpp *)
  Definition label_kind (k : Z) : res string := if (k =? 1) then Ok "optional"%string else if (k =? 2) then Ok "mandatory"%string else Exn.
  (** M:180-207 *)
  Definition label_dto (l : mlabel) : res (text * text * string) := k <- label_kind (ml_kind l) ;; Ok (ml_key l, ml_value l, k).
  Definition labels_dto (d : sdesc) (k : string) : res (list (text * text * string)) :=
    t <- supp d k ;; n <- yaml t ;; l <- r_mlabels n ;; mapM label_dto l.
  (** M:217-238 *)
  Definition make_spec (d : sdesc) (topic media labels : string) : res spec_dto :=
    t <- supp d topic ;; m <- supp d media ;; l <- labels_dto d labels ;; Ok (mkSpecDto t m l).
  (** M:240-250 *)
  Definition ctrl_dto (d : sdesc) : entry := ECtrl (v_id d) (v_name d) (v_net d).
  (** M:252-280 *)
  Definition data_dto (d : sdesc) : res entry :=
    ct <- supp d "controller.type" ;;
    s <- (if text_eqb ct (lit "DataSubscriber") then make_spec d "PubSub::topic" "PubSub::subMediaType" "PubSub::subLabels"
          else if text_eqb ct (lit "DataPublisher") then make_spec d "PubSub::topic" "PubSub::pubMediaType" "PubSub::pubLabels" else Exn) ;;
    Ok (EServ (v_id d) (v_name d) (v_net d) s).
  (** M:282-310 *)
  Definition rpc_dto (d : sdesc) : res entry :=
    ct <- supp d "controller.type" ;;
    s <- (if text_eqb ct (lit "RpcClient") then make_spec d "Rpc::client::functionName" "Rpc::client::mediaType" "Rpc::client::labels"
          else if text_eqb ct (lit "RpcServer") then make_spec d "Rpc::server::functionName" "Rpc::server::mediaType" "Rpc::server::labels" else Exn) ;;
    Ok (EServ (v_id d) (v_name d) (v_net d) s).
  (** M:312-338 *)
  Definition intern_dto (d : sdesc) : res entry :=
    ct <- supp d "controller.type" ;;
    p <- (if text_eqb ct (lit "DataSubscriberInternal") then (t <- supp d "PubSub::subIntParentServiceId" ;; stou t)
          else if text_eqb ct (lit "RpcServerInternal") then (t <- supp d "Rpc::serverinternal::parentServiceId" ;; stou t) else Exn) ;;
    Ok (EIntern (v_id d) (v_name d) (v_net d) p).
  (** M:468-523 *)
  Definition controller_entry (d : sdesc) : res (slot * entry) :=
    ct <- supp d "controller.type" ;;
    let is s := text_eqb ct (lit s) in
    if is "CAN"%string then Ok (CanC, ctrl_dto d) else if is "Ethernet"%string then Ok (EthC, ctrl_dto d)
    else if is "FlexRay"%string then Ok (FlexC, ctrl_dto d) else if is "LIN"%string then Ok (LinC, ctrl_dto d)
    else if is "DataPublisher"%string then (e <- data_dto d ;; Ok (PubS, e)) else if is "DataSubscriber"%string then (e <- data_dto d ;; Ok (SubS, e))
    else if is "DataSubscriberInternal"%string then (e <- intern_dto d ;; Ok (SubI, e))
    else if is "RpcClient"%string then (e <- rpc_dto d ;; Ok (CliS, e)) else if is "RpcServer"%string then (e <- rpc_dto d ;; Ok (SrvS, e))
    else if is "RpcServerInternal"%string then (e <- intern_dto d ;; Ok (SrvI, e)) else Exn.
  (** M:525-544 *)
  Definition link_entry (d : sdesc) : list (slot * entry) :=
    match v_ntype d with
    | NtCan => [(CanN, ENet (v_net d))] | NtEthernet => [(EthN, ENet (v_net d))] | NtFlexray => [(FlexN, ENet (v_net d))] | NtLin => [(LinN, ENet (v_net d))]
    | _ => []
    end.
  (** M:453-466 *)
  Definition service_entry (d : sdesc) : res (list (slot * entry)) :=
    match v_type d with SvController => e <- controller_entry d ;; Ok [e] | SvLink => Ok (link_entry d) | _ => Ok [] end.

  (** M:78-111, 121-154; the enumerators of both (capi/Orchestration.h:28-83, SystemStatusDto.hpp, ParticipantStatusDto.hpp) have the same numbers and texts *)
  Definition states : list (Z * string) :=
    [(0, "invalid"); (10, "servicescreated"); (20, "communicationinitializing"); (30, "communicationinitialized"); (40, "readytorun"); (50, "running");
     (60, "paused"); (70, "stopping"); (80, "stopped"); (90, "error"); (100, "shuttingdown"); (110, "shutdown"); (120, "aborting")]%string.
  Definition map_state (s : Z) : res string := match find (fun p => fst p =? s) states with Some p => Ok (snd p) | None => Exn end.
  (** M:156-166: the time is in nanoseconds since 1970 and cast to milliseconds, towards zero; the field is a UInt64 *)
  Record pstat := mkPstat { ps_part : text; ps_state : Z; ps_reason : text; ps_time : Z }.
  Definition status_dto (p : pstat) : res (string * text * Z) := s <- map_state (ps_state p) ;; Ok (s, ps_reason p, Z.quot (ps_time p) 1000000 mod 2 ^ 64).

  (** DashboardBulkUpdate.hpp *)
  Record bulk := mkBulk { b_stopped : option N; b_states : list Z; b_connected : list text; b_statuses : list pstat; b_services : list (bool * sdesc) }.
  Record sim_dto := mkSim { z_stopped : option Z; z_states : list string; z_parts : list pdto }.
  (** M:353-364, getOrCreateParticipantDto, and the change of what it returns. The order of the unordered map is that of the list here. *)
  Fixpoint with_part (n : text) (f : pdto -> pdto) (l : list pdto) : list pdto :=
    match l with [] => [f (mkPdto n [] [])] | p :: r => if text_eqb (q_name p) n then f p :: r else p :: with_part n f r end.
  Definition add_status (x : string * text * Z) (p : pdto) : pdto := mkPdto (q_name p) (q_statuses p ++ [x]) (q_entries p).
  Definition add_entries (x : list (slot * entry)) (p : pdto) : pdto := mkPdto (q_name p) (q_statuses p) (q_entries p ++ x).
  Fixpoint foldM {A B} (f : B -> A -> res B) (l : list A) (b : B) : res B := match l with [] => Ok b | x :: r => c <- f b x ;; foldM f r c end.
  (** M:340-398; the cast of the time of the end is to a signed number *)
  Definition bulk_dto (b : bulk) : res sim_dto :=
    st <- mapM map_state (b_states b) ;;
    let ps := fold_left (fun l n => with_part n (fun p => p) l) (b_connected b) [] in
    ps <- foldM (fun l s => x <- status_dto s ;; Ok (with_part (ps_part s) (add_status x) l)) (b_statuses b) ps ;;
    ps <- foldM (fun l cd => if fst cd : bool then (x <- service_entry (snd cd) ;; Ok (with_part (v_part (snd cd)) (add_entries x) l)) else Ok l) (b_services b) ps ;;
    Ok (mkSim (option_map (fun n => let m := Z.of_N n mod 2 ^ 64 in if m <? 2 ^ 63 then m else m - 2 ^ 64) (b_stopped b)) st ps).

  (** ** Metrics *)
  Variable F : Type.
  Variable json_int : text -> res Z.
  Variable json_floats : text -> res F.
  (** services/metrics/MetricsDatatypes.hpp; [MkOther]: any other number *)
  Inductive mkind := MkCounter | MkStatistic | MkStringList | MkAttribute | MkOther.
  Record metric := mkMetric { x_time : Z; x_name : text; x_kind : mkind; x_value : text }.
  Record head := mkHead { h_ts : Z; h_pn : text; h_mn : list text }.
  Record met_dto := mkMet { y_attributes : list (head * text); y_counters : list (head * Z); y_statistics : list (head * F) }.
  (** M:400-448 *)
  Definition metric_step (pn : text) (d : met_dto) (m : metric) : res met_dto :=
    let head := (mn <- split (lit "/") (x_name m) ;; Ok (mkHead (x_time m) pn mn)) in
    match x_kind m with
    | MkCounter => h <- head ;; v <- json_int (x_value m) ;; Ok (mkMet (y_attributes d) (y_counters d ++ [(h, v)]) (y_statistics d))
    | MkStatistic => h <- head ;; v <- json_floats (x_value m) ;; Ok (mkMet (y_attributes d) (y_counters d) (y_statistics d ++ [(h, v)]))
    | MkAttribute | MkStringList => h <- head ;; Ok (mkMet (y_attributes d ++ [(h, x_value m)]) (y_counters d) (y_statistics d))
    | MkOther => Exn
    end.
  Definition metrics_dto (pn : text) (l : list metric) : res met_dto := foldM (metric_step pn) l (mkMet [] [] []).

  (** ** The worker, D:113-269: what it sends of the updates in the order in which they are due; an exception of the mapper ends it *)
  Inductive due := DueBulk (id : N) (b : bulk) | DueMetrics (id : N) (pn : text) (l : list metric).
  Inductive request := SendBulk (id : N) (d : sim_dto) | SendMetrics (id : N) (d : met_dto).
  Definition to_request (u : due) : res request :=
    match u with DueBulk id b => d <- bulk_dto b ;; Ok (SendBulk id d) | DueMetrics id pn l => d <- metrics_dto pn l ;; Ok (SendMetrics id d) end.
  Fixpoint worker (l : list due) : list request * bool :=
    match l with
    | [] => ([], true)
    | u :: r => match to_request u with Ok q => let '(s, ok) := worker r in (q :: s, ok) | _ => ([], false) end
    end.
End Mapper.

(** what a participant announces (ParticipantModel.v) as it is received; [emit] is the text of the labels *)
Definition received (emit : list mlabel -> text) (d : desc) : sdesc :=
  mkSd (d_part d) (if d_internal d then SvInternal else SvController) (d_ntype d) (d_net d) (d_name d) (d_id d)
       (map (fun kv => (lit (fst kv), match snd kv with SText t => t | SLabels l => emit l end)) (d_supp d)).
