From Coq Require Import NArith ZArith List Arith Bool.
From Verif Require Import Base.
Import ListNotations.
Open Scope N_scope.

(** Model of services/flexray/Validation.cpp and services/flexray/FlexrayController.cpp.
    Unsigned parameters are [N], FlexrayMicroTick (int32_t) is [Z]; enumerations are their underlying uint32_t values. *)

(** include/silkit/services/flexray/FlexrayDatatypes.hpp:46-125 *)
Record cluster := mkCluster {
  gColdstartAttempts : N; gCycleCountMax : N; gdActionPointOffset : N; gdDynamicSlotIdlePhase : N; gdMiniSlot : N;
  gdMiniSlotActionPointOffset : N; gdStaticSlot : N; gdSymbolWindow : N; gdSymbolWindowActionPointOffset : N; gdTSSTransmitter : N;
  gdWakeupTxActive : N; gdWakeupTxIdle : N; gListenNoise : N; gMacroPerCycle : N; gMaxWithoutClockCorrectionFatal : N;
  gMaxWithoutClockCorrectionPassive : N; gNumberOfMiniSlots : N; gNumberOfStaticSlots : N; gPayloadLengthStatic : N; gSyncFrameIDCountMax : N }.
(** FlexrayDatatypes.hpp:132-241 *)
Record node := mkNode {
  pAllowHaltDueToClock : N; pAllowPassiveToActive : N; pChannels : N; pClusterDriftDamping : N; pdAcceptedStartupRange : Z; pdListenTimeout : Z;
  pKeySlotId : N; pKeySlotOnlyEnabled : N; pKeySlotUsedForStartup : N; pKeySlotUsedForSync : N; pLatestTx : N; pMacroInitialOffsetA : N; pMacroInitialOffsetB : N;
  pMicroInitialOffsetA : Z; pMicroInitialOffsetB : Z; pMicroPerCycle : Z; pOffsetCorrectionOut : Z; pOffsetCorrectionStart : N; pRateCorrectionOut : Z;
  pWakeupChannel : N; pWakeupPattern : N; pdMicrotick : N; pSamplesPerMicrotick : N; pSecondKeySlotId : N; pTwoKeySlotMode : N }.
(** include/silkit/capi/Flexray.h:24-36 *)
Definition ChNone : N := 0.  Definition ChA : N := 1.  Definition ChB : N := 2.  Definition ChAB : N := 3.
Definition T12_5NS : N := 1. Definition T25NS : N := 2. Definition T50NS : N := 3.

(** [throw_if b r]: if (b) throw ConfigurationError *)
Definition throw_if {A} (b : bool) (r : res A) : res A := if b then Exn else r.

(** Validation.cpp:13-78 *)
Definition validate_cluster (c : cluster) : res unit :=
  throw_if ((gColdstartAttempts c <? 2) || (31 <? gColdstartAttempts c)) (
  throw_if (negb (gCycleCountMax c mod 2 =? 1)) (
  throw_if ((gCycleCountMax c <? 7) || (63 <? gCycleCountMax c)) (
  throw_if ((gdActionPointOffset c <? 1) || (63 <? gdActionPointOffset c)) (
  throw_if (2 <? gdDynamicSlotIdlePhase c) (
  throw_if ((gdMiniSlot c <? 2) || (63 <? gdMiniSlot c)) (
  throw_if ((gdMiniSlotActionPointOffset c <? 1) || (31 <? gdMiniSlotActionPointOffset c)) (
  throw_if ((gdStaticSlot c <? 3) || (664 <? gdStaticSlot c)) (
  throw_if (162 <? gdSymbolWindow c) (
  throw_if ((gdSymbolWindowActionPointOffset c <? 1) || (63 <? gdSymbolWindowActionPointOffset c)) (
  throw_if ((gdTSSTransmitter c <? 1) || (15 <? gdTSSTransmitter c)) (
  throw_if ((gdWakeupTxActive c <? 15) || (60 <? gdWakeupTxActive c)) (
  throw_if ((gdWakeupTxIdle c <? 45) || (180 <? gdWakeupTxIdle c)) (
  throw_if ((gListenNoise c <? 2) || (16 <? gListenNoise c)) (
  throw_if ((gMacroPerCycle c <? 8) || (16000 <? gMacroPerCycle c)) (
  throw_if ((gMaxWithoutClockCorrectionFatal c <? 1) || (15 <? gMaxWithoutClockCorrectionFatal c)) (
  throw_if ((gMaxWithoutClockCorrectionPassive c <? 1) || (15 <? gMaxWithoutClockCorrectionPassive c)) (
  throw_if (7988 <? gNumberOfMiniSlots c) (
  throw_if ((gNumberOfStaticSlots c <? 2) || (1023 <? gNumberOfStaticSlots c)) (
  throw_if (127 <? gPayloadLengthStatic c) (
  throw_if ((gSyncFrameIDCountMax c <? 2) || (15 <? gSyncFrameIDCountMax c)) (Ok tt))))))))))))))))))))).
(** Validation.cpp:80-144 *)
Definition validate_node (n : node) : res unit :=
  throw_if (1 <? pAllowHaltDueToClock n) (
  throw_if (31 <? pAllowPassiveToActive n) (
  throw_if (10 <? pClusterDriftDamping n) (
  throw_if ((pdAcceptedStartupRange n <? 29)%Z || (2743 <? pdAcceptedStartupRange n)%Z) (
  throw_if ((pdListenTimeout n <? 1926)%Z || (2567692 <? pdListenTimeout n)%Z) (
  throw_if (1023 <? pKeySlotId n) (
  throw_if (1 <? pKeySlotOnlyEnabled n) (
  throw_if (1 <? pKeySlotUsedForStartup n) (
  throw_if (1 <? pKeySlotUsedForSync n) (
  throw_if (7988 <? pLatestTx n) (
  throw_if ((pMacroInitialOffsetA n <? 2) || (68 <? pMacroInitialOffsetA n)) (
  throw_if ((pMacroInitialOffsetB n <? 2) || (68 <? pMacroInitialOffsetB n)) (
  throw_if ((pMicroInitialOffsetA n <? 0)%Z || (239 <? pMicroInitialOffsetA n)%Z) (
  throw_if ((pMicroInitialOffsetB n <? 0)%Z || (239 <? pMicroInitialOffsetB n)%Z) (
  throw_if ((pMicroPerCycle n <? 960)%Z || (1280000 <? pMicroPerCycle n)%Z) (
  throw_if ((pOffsetCorrectionOut n <? 15)%Z || (16082 <? pOffsetCorrectionOut n)%Z) (
  throw_if ((pOffsetCorrectionStart n <? 7) || (15999 <? pOffsetCorrectionStart n)) (
  throw_if ((pRateCorrectionOut n <? 3)%Z || (3846 <? pRateCorrectionOut n)%Z) (
  throw_if (negb (pWakeupChannel n =? ChA) && negb (pWakeupChannel n =? ChB)) (
  throw_if (63 <? pWakeupPattern n) (
  throw_if ((pSamplesPerMicrotick n <? 1) || (2 <? pSamplesPerMicrotick n)) (Ok tt))))))))))))))))))))).

(** FlexrayDatatypes.hpp:251-274 *)
Record txbuf := mkTxbuf { b_channels : N; b_slotId : N; b_offset : N; b_repetition : N; b_ppi : bool; b_crc : N; b_mode : N }.
(** FlexrayDatatypes.hpp:277-287 *)
Record fconfig := mkFconfig { c_cluster : cluster; c_node : node; c_bufs : list txbuf }.
(** config/ParticipantConfiguration.hpp, FlexrayController: predefined parameters *)
Record predef := mkPredef { d_cluster : option cluster; d_node : option node; d_bufs : list txbuf }.

(** Messages to the network simulator; the target is a participant name (here a number), [None] is the empty name *)
Inductive payload :=
| PConfig (c : fconfig)
| PBufConfig (idx : N) (b : txbuf)
| PBufUpdate (idx : N) (valid : bool) (bytes : list N)
| PCommand (k : N).
(** FlexrayController.hpp: _bufferConfigs, _simulatedLinkDetected with _simulatedLink *)
Record fctl := mkFctl { f_predef : predef; f_network : N; f_id : N; f_bufs : list txbuf; f_sim : option N }.
Definition fctl0 (d : predef) (network id : N) : fctl := mkFctl d network id [] None.

(** Service descriptors seen in service discovery: participant, network, whether the service type is Link *)
Record fsvc := mkFsvc { s_participant : N; s_network : N; s_link : bool }.
Inductive fop :=
| FDiscover (created : bool) (d : fsvc)
| FConfigure (c : fconfig)
| FReconfigure (idx : N) (b : txbuf)
| FUpdate (idx : N) (valid : bool) (bytes : list N)
| FCommand (k : N)
| FReceive (participant id : N) (symbol wakeup : bool) (m : N).
Inductive fevt :=
| ESend (to : option N) (p : payload)
| EThrow
| ECall (symbol wakeup : bool) (m : N)
| ELost (participant : N).

(** FlexrayController.cpp:71-76 *)
Definition relevant (c : fctl) (d : fsvc) : bool := s_link d && (s_network d =? f_network c).
(** 63-68 *)
Definition allow (c : fctl) (participant id : N) : bool :=
  match f_sim c with Some s => (s =? participant) && (f_id c =? id) | None => false end.
Definition nonempty {A} (l : list A) : bool := match l with [] => false | _ => true end.
(** 112-138 *)
Definition effective (d : predef) (c : fconfig) : fconfig :=
  mkFconfig (match d_cluster d with Some x => x | None => c_cluster c end) (match d_node d with Some x => x | None => c_node c end)
            (if nonempty (d_bufs d) then d_bufs d else c_bufs c).

(** 28-61 discovery; 112-138 Configure; 140-163 ReconfigureTxBuffer; 165-201 UpdateTxBuffer (the warnings on the payload length are not
    modelled: the payload is sent unchanged); 203-243 commands; 249-330 ReceiveMsg: [symbol] marks a FlexraySymbolEvent, [wakeup] one with
    the pattern Wus or Wudop, for which a wakeup event is delivered first. Simplification: one number [m] stands for the content. *)
Definition fstep (c : fctl) (o : fop) : fctl * list fevt :=
  match o with
  | FDiscover created d =>
      match f_sim c with
      | None => if created && relevant c d then (mkFctl (f_predef c) (f_network c) (f_id c) (f_bufs c) (Some (s_participant d)), []) else (c, [])
      | Some _ => if negb created && relevant c d then (c, [ELost (s_participant d)]) else (c, [])
      end
  | FConfigure cfg =>
      let cfg := effective (f_predef c) cfg in
      match validate_cluster (c_cluster cfg) with
      | Ok _ => match validate_node (c_node cfg) with
                | Ok _ => (mkFctl (f_predef c) (f_network c) (f_id c) (c_bufs cfg) (f_sim c), [ESend (f_sim c) (PConfig cfg)])
                | _ => (c, [EThrow])
                end
      | _ => (c, [EThrow])
      end
  | FReconfigure idx b =>
      if N.of_nat (length (f_bufs c)) <=? idx then (c, [EThrow])
      else if nonempty (d_bufs (f_predef c)) then (c, []) else (c, [ESend (f_sim c) (PBufConfig idx b)])
  | FUpdate idx valid bytes =>
      if N.of_nat (length (f_bufs c)) <=? idx then (c, [EThrow]) else (c, [ESend (f_sim c) (PBufUpdate idx valid bytes)])
  | FCommand k => (c, [ESend (f_sim c) (PCommand k)])
  | FReceive participant id symbol wakeup m =>
      if allow c participant id
      then (c, (if symbol && wakeup then [ECall false true m] else []) ++ [ECall symbol wakeup m])
      else (c, [])
  end.
Fixpoint frun (c : fctl) (ops : list fop) : fctl * list (list fevt) :=
  match ops with
  | [] => (c, [])
  | o :: ops => let '(c1, e) := fstep c o in let '(c2, es) := frun c1 ops in (c2, e :: es)
  end.
