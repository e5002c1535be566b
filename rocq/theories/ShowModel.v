(** Model of the texts of values and messages that are logged when messages are traced (services/logging/MessageTracing.hpp:20-62, level Trace):
    include/silkit/services/*/string_utils.hpp, include/silkit/util/PrintableHexString.hpp, source/wire/*/*.hpp.
    The text of a time (a floating-point number of milliseconds with six digits) and of a pointer are left out. *)
From Coq Require Import String NArith List Arith Bool.
From Verif Require Import Base TextModel.
Import ListNotations.
Open Scope N_scope.
Open Scope list_scope.

(** ** PrintableHexString.hpp:19-63 *)
Definition byte_hex (b : N) : text := hex false 2 b.
Definition join_with (sep : text) (l : list text) : text := match l with [] => [] | x :: l => x ++ flat_map (fun y => sep ++ y) l end.
(** [max]: what WithMaxLength was given; without it the size of the data *)
Definition as_hex (sep : text) (max : nat) (data : text) : text :=
  let n := Nat.min max (length data) in
  if Nat.eqb n 0 then [] else join_with sep (map byte_hex (firstn n data)) ++ if Nat.ltb n (length data) then sep ++ lit "..." else [].
Definition as_hex_all (sep : text) (data : text) : text := as_hex sep (length data) data.

(** ** Enumerations *)
(** what happens to a value that is none of the enumerators: TypeConversionError, its number between [p] and [s], one text for all, the character with this number between [p] and [s] (an uint8_t given to a stream) *)
Inductive other := Throws | Number (p s : string) | Always (t : string) | Raw (p s : string).
Definition enum : Type := list (N * string) * other.
Fixpoint lookup (t : list (N * string)) (v : N) : option string := match t with [] => None | (w, s) :: t => if N.eqb v w then Some s else lookup t v end.
Definition enum_text (e : enum) (v : N) : res text :=
  match lookup (fst e) v with
  | Some s => Ok (lit s)
  | None => match snd e with Throws => Exn | Number p s => Ok (lit p ++ decimal v ++ lit s) | Always t => Ok (lit t) | Raw p s => Ok (lit p ++ [v] ++ lit s) end
  end.
Definition can_flag : enum := ([(512, "ide"); (16, "rtr"); (4096, "fdf"); (8192, "brs"); (16384, "esi"); (32768, "xlf"); (65536, "sec")], Number "unknown(" ")")%string. (* can/string_utils.hpp:117-139 *)
Definition can_state : enum := ([(0, "Uninit"); (1, "Stopped"); (2, "Started"); (3, "Sleep")], Throws)%string. (* can:48-62 *)
Definition can_error : enum := ([(0, "NotAvailable"); (1, "ErrorActive"); (2, "ErrorPassive"); (3, "BusOff")], Throws)%string. (* can:64-78 *)
Definition can_status : enum := ([(1, "Transmitted"); (2, "Canceled"); (4, "TransmitQueueFull")], Throws)%string. (* can:80-92 *)
Definition direction : enum := ([(0, "Undefined"); (1, "TX"); (2, "RX"); (3, "TXRX")], Raw "TransmitDirection{" "}")%string. (* services/string_utils.hpp:23-49 *)
Definition eth_status : enum := ([(1, "Transmitted"); (2, "ControllerInactive"); (4, "LinkDown"); (8, "Dropped"); (32, "InvalidFrameFormat")], Throws)%string. (* ethernet/string_utils.hpp *)
Definition eth_state : enum := ([(0, "Inactive"); (1, "LinkDown"); (2, "LinkUp")], Throws)%string.
Definition lin_checksum_ (o : other) : enum := ([(0, "Undefined"); (1, "Enhanced"); (2, "Classic")], o)%string. (* lin/string_utils.hpp: to_string throws, operator<< shows the number *)
Definition lin_checksum := lin_checksum_ (Number "LinChecksumModel{" "}").
Definition lin_response_type : enum := ([(0, "MasterResponse"); (1, "SlaveResponse"); (2, "SlaveToSlave")], Number "LinFrameResponseType{" "}")%string.
Definition lin_response_mode : enum := ([(0, "Unused"); (1, "Rx"); (2, "TxUnconditional")], Number "LinFrameResponseMode{" "}")%string.
Definition lin_frame_status : enum := ([(0, "NOT_OK"); (1, "LIN_TX_OK"); (2, "LIN_TX_BUSY"); (3, "LIN_TX_HEADER_ERROR"); (4, "LIN_TX_ERROR"); (5, "LIN_RX_OK"); (6, "LIN_RX_BUSY"); (7, "LIN_RX_ERROR"); (8, "LIN_RX_NO_RESPONSE")], Number "LinFrameStatus{" "}")%string.
Definition lin_mode : enum := ([(0, "Inactive"); (1, "Master"); (2, "Slave")], Number "LinControllerMode{" "}")%string.
Definition lin_status : enum := ([(0, "Unknown"); (1, "Operational"); (2, "Sleep"); (3, "SleepPending")], Number "LinControllerStatus{" "}")%string.
Definition flexray_channel : enum := ([(1, "A"); (2, "B"); (3, "AB"); (0, "None")], Number "FlexrayChannel=" "")%string. (* flexray/string_utils.hpp *)
Definition flexray_clock : enum := ([(1, "12.5ns"); (2, "25ns"); (3, "50ns")], Throws)%string.
Definition flexray_mode : enum := ([(0, "SingleShot"); (1, "Continuous")], Throws)%string.
Definition flexray_symbol : enum := ([(0, "CasMts"); (1, "Wus"); (2, "Wudop")], Number "FlexraySymbolPattern=" "")%string.
Definition flexray_poc : enum := ([(0, "DefaultConfig"); (1, "Config"); (2, "Ready"); (3, "Startup"); (4, "Wakeup"); (5, "NormalActive"); (6, "NormalPassive"); (7, "Halt")], Throws)%string.
Definition flexray_command : enum := ([(0, "RUN"); (1, "DEFERRED_HALT"); (2, "FREEZE"); (3, "ALLOW_COLDSTART"); (4, "ALL_SLOTS"); (5, "WAKEUP")], Throws)%string. (* wire/flexray/WireFlexrayMessages.hpp:178-196 *)
Definition flexray_slot : enum := ([(0, "KeySlot"); (1, "AllPending"); (2, "All")], Throws)%string.
Definition flexray_error : enum := ([(0, "Active"); (1, "Passive"); (2, "CommHalt")], Throws)%string.
Definition flexray_startup : enum := ([(0, "Undefined"); (1, "ColdStartListen"); (2, "IntegrationColdstartCheck"); (3, "ColdStartJoin"); (4, "ColdStartCollisionResolution"); (5, "ColdStartConsistencyCheck"); (6, "IntegrationListen"); (7, "InitializeSchedule"); (8, "IntegrationConsistencyCheck"); (9, "ColdStartGap"); (10, "ExternalStartup")], Throws)%string.
Definition flexray_wakeup : enum := ([(0, "Undefined"); (1, "ReceivedHeader"); (2, "ReceivedWup"); (3, "CollisionHeader"); (4, "CollisionWup"); (5, "CollisionUnknown"); (6, "Transmitted")], Throws)%string.
Definition states : list (N * string) := [(0, "Invalid"); (10, "ServicesCreated"); (20, "CommunicationInitializing"); (30, "CommunicationInitialized"); (40, "ReadyToRun"); (50, "Running"); (60, "Paused"); (70, "Stopping"); (80, "Stopped"); (90, "Error"); (100, "ShuttingDown"); (110, "Shutdown"); (120, "Aborting")]%string.
Definition participant_state : enum := (states, Number "ParticipantState{" "}"). (* orchestration/string_utils.hpp *)
Definition system_state : enum := (states, Number "SystemState{" "}").
Definition rpc_status : enum := ([(0, "FunctionCallResponse::Status::Success"); (1, "FunctionCallResponse::Status::InternalError")], Number "FunctionCallResponse::Status(" ")")%string. (* wire/rpc/WireRpcMessages.hpp:96-109 *)
Definition log_level : enum := ([(0, "Trace"); (1, "Debug"); (2, "Info"); (3, "Warn"); (4, "Error"); (5, "Critical"); (4294967295, "Off")], Always "Invalid Logging::Level")%string. (* logging/string_utils.hpp:32-63 *)
(** all but the level, where the text does not tell the values apart *)
Definition enums : list enum :=
  [can_flag; can_state; can_error; can_status; direction; eth_status; eth_state; lin_checksum; lin_checksum_ Throws; lin_response_type; lin_response_mode; lin_frame_status; lin_mode; lin_status;
   flexray_channel; flexray_clock; flexray_mode; flexray_symbol; flexray_poc; flexray_command; flexray_slot; flexray_error; flexray_startup; flexray_wakeup; participant_state; system_state; rpc_status].

(** ** Messages *)
(** CanFrame *)
Record can_frame := mkCan { cf_id : N; cf_flags : N; cf_dlc : N; cf_sdt : N; cf_vcid : N; cf_af : N; cf_data : text }.
(** the flag of one bit; the fall-back of [can_flag] does not throw *)
Definition flag_text (bit : nat) : text := match enum_text can_flag (2 ^ N.of_nat bit) with Ok t => t | _ => [] end.
(** can/string_utils.hpp:157-190; the comma after the first brace is there *)
Definition can_frame_text (m : can_frame) : text :=
  lit "Can::CanFrame{, canId=" ++ decimal (cf_id m) ++ lit ", flags=[" ++ join_with (lit ",") (map flag_text (filter (fun b => N.testbit (cf_flags m) (N.of_nat b)) (seq 0 32)))
  ++ lit "], dlc=" ++ decimal (cf_dlc m) ++ lit ", sdt=" ++ decimal (cf_sdt m) ++ lit ", vcid=" ++ decimal (cf_vcid m) ++ lit ", af=" ++ decimal (cf_af m)
  ++ lit ", data=[" ++ as_hex (lit " ") 8 (cf_data m) ++ lit "], data.size=" ++ decimal (N.of_nat (length (cf_data m))) ++ lit "}".
(** wire/can/WireCanMessages.hpp:163-166: baudRate, fdBaudRate, xlBaudRate *)
Definition can_baudrate_text (m : N * N * N) : text := let '(b, fd, xl) := m in lit "can::CanConfigureBaudrate{" ++ decimal b ++ lit ", " ++ decimal fd ++ lit "}".
(** WireCanMessages.hpp:168-178: mode, cancelTransmitRequests, resetErrorHandling *)
Definition can_mode_text (m : N * bool * bool) : res text :=
  let '(mode, c, r) := m in
  match enum_text can_state mode with
  | Ok t => Ok (lit "can::CanSetControllerMode{" ++ t ++ (if c then lit ", cancelTX" else []) ++ (if r then lit ", resetErrorHandling" else []) ++ lit "}")
  | _ => Exn
  end.
(** ethernet/string_utils.hpp: EthernetFrame *)
Definition eth_frame_text (raw : text) : text :=
  if Nat.eqb (length raw) 0 then lit "EthernetFrame{size=0}"
  else lit "EthernetFrame{size=" ++ decimal (N.of_nat (length raw))
       ++ (if Nat.leb 12 (length raw) then lit ", src = " ++ as_hex_all (lit ":") (firstn 6 (skipn 6 raw)) ++ lit ", dst=" ++ as_hex_all (lit ":") (firstn 6 raw) else [])
       ++ lit ", data=[" ++ as_hex (lit " ") 8 raw ++ lit "]}".
(** LinFrame; [lf_data] is an array of 8 bytes *)
Record lin_frame := mkLin { lf_id : N; lf_checksum : N; lf_length : N; lf_data : text }.
(** lin/string_utils.hpp: the checksum model is shown by to_string, not by the operator *)
Definition lin_frame_text (m : lin_frame) : res text :=
  match enum_text (lin_checksum_ Throws) (lf_checksum m) with
  | Ok t => Ok (lit "Lin::LinFrame{id=" ++ decimal (lf_id m) ++ lit ", cs=" ++ t ++ lit ", dl=" ++ decimal (lf_length m) ++ lit ", d={" ++ as_hex_all (lit " ") (lf_data m) ++ lit "}}")
  | _ => Exn
  end.
(** wire/lin/WireLinMessages.hpp:164-167 *)
Definition lin_request_text (m : lin_frame * N) : res text :=
  match lin_frame_text (fst m), enum_text lin_response_type (snd m) with
  | Ok f, Ok r => Ok (lit "lin::LinSendFrameRequest{fr=" ++ f ++ lit ", rt=" ++ r ++ lit "}")
  | _, _ => Exn
  end.
(** WireLinMessages.hpp:174-177: the time is in nanoseconds *)
Definition lin_wakeup_text (t : N) : text := lit "lin::LinWakeupPulse{@" ++ decimal t ++ lit "ms}".
(** WireLinMessages.hpp:187-203: the identifiers of the responses *)
Definition lin_update_text (ids : list N) : text := lit "lin::LinFrameResponseUpdate{ids=[" ++ join_with (lit ",") (map decimal ids) ++ lit "]}".
(** FlexrayHeader *)
Record flexray_header := mkFh { fh_flags : N; fh_frame : N; fh_length : N; fh_crc : N; fh_cycle : N }.
Definition mark (b : bool) (x y : string) : text := lit (if b then x else y).
Definition hex_any (n : N) : text := hex false 1 n.
(** flexray/string_utils.hpp: FlexrayHeader *)
Definition flexray_header_text (h : flexray_header) : text :=
  lit "Flexray::FlexrayHeader{f=[" ++ mark (N.testbit (fh_flags h) 0) "U" "-" ++ mark (N.testbit (fh_flags h) 1) "Y" "-" ++ mark (N.testbit (fh_flags h) 2) "-" "N" ++ mark (N.testbit (fh_flags h) 3) "P" "-"
  ++ lit "],s=" ++ decimal (fh_frame h) ++ lit ",l=" ++ decimal (fh_length h) ++ lit ",crc=" ++ hex_any (fh_crc h) ++ lit ",c=" ++ decimal (fh_cycle h) ++ lit "}".
(** FlexrayFrameEvent; [time] is the text of the time *)
Definition flexray_frame_text (channel : N) (h : flexray_header) (time payload : text) : res text :=
  match enum_text flexray_channel channel with
  | Ok c => Ok (lit "Flexray::FlexrayFrameEvent{ch=" ++ c ++ lit ", " ++ flexray_header_text h ++ lit " @" ++ time ++ lit "ms"
                ++ (if N.testbit (fh_flags h) 2 then lit ", payload=" ++ as_hex (lit " ") (N.to_nat (fh_length h)) payload else []) ++ lit "}")
  | _ => Exn
  end.
(** FlexrayTxBufferConfig; offset and repetition are given to the stream as uint8_t *)
Record flexray_buffer := mkFb { fb_channels : N; fb_slot : N; fb_pp : bool; fb_crc : N; fb_offset : N; fb_repetition : N; fb_mode : N }.
Definition flexray_buffer_text (m : flexray_buffer) : res text :=
  match enum_text flexray_channel (fb_channels m), enum_text flexray_mode (fb_mode m) with
  | Ok c, Ok t => Ok (lit "Flexray::FlexrayTxBufferConfig{ch=" ++ c ++ lit ", slot=" ++ decimal (fb_slot m) ++ (if fb_pp m then lit ", PP" else []) ++ lit ", crc=" ++ decimal (fb_crc m)
                      ++ lit ", off=" ++ [fb_offset m] ++ lit ", rep=" ++ [fb_repetition m] ++ lit ", txMode=" ++ t ++ lit "}")
  | _, _ => Exn
  end.
(** FlexrayTxBufferUpdate: index, whether the payload is valid, payload *)
Definition flexray_update_text (m : N * bool * text) : text :=
  let '(i, v, p) := m in
  lit "Flexray::FlexrayTxBufferUpdate{idx=" ++ decimal i ++ lit ", payloadValid="
  ++ (if v then lit "t, payload=[" ++ as_hex (lit " ") 8 p ++ lit "], payloadSize=" ++ decimal (N.of_nat (length p)) else lit "f").
(** pubsub/string_utils.hpp *)
Definition data_text (d : text) : text := lit "PubSub::DataMessageEvent{data=" ++ as_hex (lit " ") 16 d ++ lit ", size=" ++ decimal (N.of_nat (length d)) ++ lit "}".
(** orchestration/string_utils.hpp: WorkflowConfiguration *)
Definition workflow_text (names : list text) : text := lit "Orchestration::WorkflowConfiguration{requiredParticipantNames=" ++ join_with (lit ", ") names ++ lit "}".
