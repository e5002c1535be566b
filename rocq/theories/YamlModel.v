From Coq Require Import String Ascii NArith ZArith List Bool.
From Verif Require Import Base TextModel.
Import ListNotations.
Open Scope Z_scope.
Open Scope list_scope.

(** Model of config/YamlReader.hpp, YamlReader.cpp, YamlWriter.hpp and YamlWriter.cpp on the trees of rapidyaml (ThirdParty/rapidyaml).
    The emitter and the parser of rapidyaml are not modelled: writing ends and reading begins with the tree. A document with a leading
    "---" (is_stream) is not modelled, nor are anchors and tags. The library is compiled without its assertions (NDEBUG).
    Every exception is [Exn]; messages and locations are not modelled. *)

(** ** The tree. A scalar with [true] was quoted in the document; [NNull] is a key or an item without a value
    (VALNIL, rapidyaml.hpp:29867); the words null and ~ are scalars like others. *)
Inductive node := NNull | NVal (quoted : bool) (s : text) | NSeq (l : list node) | NMap (l : list (string * node)).
Definition is_map (n : node) : bool := match n with NMap _ => true | _ => false end.
Definition plain (s : text) : node := NVal false s.
(** rapidyaml.hpp:33915-33936, Tree::find_child: the first child with that key *)
Fixpoint lookup (k : string) (l : list (string * node)) : option node :=
  match l with [] => None | (k', n) :: l => if String.eqb k k' then Some n else lookup k l end.

Notation "x <- e ;; f" := (bind e (fun x => f)) (at level 61, e at next level, right associativity).
Fixpoint mapM {A B} (f : A -> res B) (l : list A) : res (list B) :=
  match l with [] => Ok [] | a :: l => b <- f a ;; bs <- mapM f l ;; Ok (b :: bs) end.

(** ** Scalars *)
(** rapidyaml.hpp:13272-13284, 13300-13319 and the same for the other bases: digits of the base only *)
Definition digit_of (b c : N) : option N :=
  let d := if (48 <=? c)%N && (c <=? 57)%N then Some (c - 48)%N
           else if (97 <=? c)%N && (c <=? 102)%N then Some (c - 87)%N
           else if (65 <=? c)%N && (c <=? 70)%N then Some (c - 55)%N else None in
  match d with Some d => if (d <? b)%N then Some d else None | None => None end.
Fixpoint read_digits (b acc : N) (s : text) : option N :=
  match s with [] => Some acc | c :: s => match digit_of b c with Some d => read_digits b (acc * b + d)%N s | None => None end end.
(** 13884-13904, 13964-13987: decimal, or with the prefix 0x, 0b, 0o *)
Definition magnitude (s : text) : option N :=
  match s with
  | [] => None
  | c :: p :: r => if (c =? 48)%N then
                     if (p =? 120)%N || (p =? 88)%N then match r with [] => None | _ => read_digits 16 0 r end
                     else if (p =? 98)%N || (p =? 66)%N then match r with [] => None | _ => read_digits 2 0 r end
                     else if (p =? 111)%N || (p =? 79)%N then match r with [] => None | _ => read_digits 8 0 r end
                     else read_digits 10 0 (p :: r)
                   else read_digits 10 0 s
  | _ => read_digits 10 0 s
  end.
(** the integral types of the configuration: uint8_t, uint16_t, uint32_t, int32_t (int), size_t and int64_t *)
Inductive ity := U8 | U16 | U32 | U64 | I32 | I64.
Definition signed (t : ity) : bool := match t with I32 | I64 => true | _ => false end.
Definition bits (t : ity) : Z := match t with U8 => 8 | U16 => 16 | U32 | I32 => 32 | U64 | I64 => 64 end.
Definition lo (t : ity) : Z := if signed t then - 2 ^ (bits t - 1) else 0.
Definition hi (t : ity) : Z := if signed t then 2 ^ (bits t - 1) - 1 else 2 ^ bits t - 1.
Definition fits (t : ity) (z : Z) : bool := (lo t <=? z) && (z <=? hi t).
(** 13864-13908 atoi, 13957-13989 atou: the sign and the magnitude; a minus is only accepted by the signed types *)
Definition scan_int (sg : bool) (s : text) : option (bool * N) :=
  match s with
  | c :: r => if (c =? 45)%N then if sg then match magnitude r with Some m => Some (true, m) | None => None end else None
              else match magnitude s with Some m => Some (false, m) | None => None end
  | [] => None
  end.
Definition value (p : bool * N) : Z := if fst p then - Z.of_N (snd p) else Z.of_N (snd p).
(** 13272-13284, the arithmetic of read_dec and its siblings in the type of the result: the unsigned types wrap, for the signed ones an
    overflow is undefined; the magnitude is accumulated before the sign is applied, so the least number overflows too *)
Definition conv (t : ity) (p : bool * N) : res Z :=
  if signed t then if hi t <? Z.of_N (snd p) then UB else Ok (value p) else Ok (Z.of_N (snd p) mod 2 ^ bits t).
(** 23874-23892, read of an arithmetic type: a quoted number is refused unless it begins with 0 or is read into a char type; a plus is skipped *)
Definition arith (t8 : bool) (n : node) : option text :=
  match n with
  | NVal q (c :: r) => if q && negb (c =? 48)%N && negb t8 then None else if (c =? 43)%N then Some r else Some (c :: r)
  | _ => None
  end.
Definition read_int (t : ity) (n : node) : res Z :=
  match arith (match t with U8 => true | _ => false end) n with
  | Some s => match scan_int (signed t) s with Some p => conv t p | None => Exn end
  | None => Exn
  end.
(** 14027-14039, 14054-14218 overflows, 15535-15549, read through overflow_checked: the comparison of the digits with those of the limits is
    modelled as the comparison of the numbers *)
Definition read_checked (t : ity) (n : node) : res Z :=
  match n with
  | NVal _ s => match scan_int (signed t) s with Some p => if fits t (value p) then conv t p else Exn | None => Exn end
  | _ => Exn
  end.
(** 14856-14898, from_chars of bool *)
Definition read_bool (n : node) : res bool :=
  match arith false n with
  | Some s => if text_eqb s (lit "0") || text_eqb s (lit "false") || text_eqb s (lit "False") || text_eqb s (lit "FALSE") then Ok false
              else if text_eqb s (lit "1") || text_eqb s (lit "true") || text_eqb s (lit "True") || text_eqb s (lit "TRUE") then Ok true
              else match scan_int true s with Some p => z <- conv I32 p ;; Ok (negb (z =? 0)) | None => Exn end
  | None => Exn
  end.
(** 23848-23853: a string is the text of the scalar, also of a quoted one; without a value it cannot be read; of a map or a sequence the
    (empty) text is taken, as the assertion that there is one is off *)
Definition read_text (n : node) : res text := match n with NVal _ s => Ok s | NNull => Exn | _ => Ok [] end.
(** 13518-13540 itoa, 13713-13718 utoa; std::to_string *)
Definition write_int (z : Z) : node := plain (if z <? 0 then 45%N :: decimal (Z.to_N (- z)) else decimal (Z.to_N z)).
(** 14849-14853 *)
Definition write_bool (b : bool) : node := plain (if b then lit "1" else lit "0").

(** Floating point numbers are their bit patterns; their printing, parsing and comparison (14497, 23996-24002) are parameters. *)
Record dbl := mkDbl { d_print : N -> text; d_scan : text -> option N; d_eqb : N -> N -> bool; d_zero : N; d_five : N }.
Definition read_dbl (D : dbl) (n : node) : res N :=
  match n with NVal _ (c :: s) => match d_scan D (c :: s) with Some d => Ok d | None => Exn end | _ => Exn end.

(** ** YamlReader.hpp *)
(** 207-210 and 183-186, IsString: a scalar with that text; the text of a missing value is empty *)
Definition is_str (n : node) (s : string) : bool :=
  match n with NVal _ t => text_eqb t (lit s) | NNull => text_eqb [] (lit s) | _ => false end.
(** 228-271, GetChildSafe *)
Definition child (n : node) (k : string) : res (option node) :=
  match n with NMap l => Ok (lookup k l) | NSeq _ => Exn | _ => Ok None end.
(** 212-220, HasKey *)
Definition has_key (n : node) (k : string) : bool := match n with NMap l => match lookup k l with Some _ => true | None => false end | _ => false end.
(** A reader gets the node and the present value of the object. 36-53, OptionalRead of a value that is not an integer *)
Definition opt_read {A} (rd : node -> A -> res A) (n : node) (k : string) (cur : A) : res A :=
  c <- child n k ;; match c with Some m => rd m cur | None => Ok cur end.
(** 55-65, OptionalRead of a std::optional: the value is read into a new object *)
Definition opt_some {A} (rd : node -> A -> res A) (d : A) (n : node) (k : string) (cur : option A) : res (option A) :=
  c <- child n k ;; match c with Some m => a <- rd m d ;; Ok (Some a) | None => Ok cur end.
(** 68-73, OptionalRead of an integer, and rapidyaml.hpp:24714-24723: no exception for a sequence *)
Definition opt_int (t : ity) (n : node) (k : string) (cur : Z) : res Z :=
  match n with NMap l => match lookup k l with Some m => read_checked t m | None => Ok cur end | _ => Ok cur end.
(** 125-138, ReadKeyValue *)
Definition key_read {A} (rd : node -> A -> res A) (n : node) (k : string) (cur : A) : res A :=
  c <- child n k ;; match c with Some m => rd m cur | None => Exn end.
(** 156-170, Read of a vector: the elements are appended *)
Definition r_vec {A} (rd : node -> A -> res A) (d : A) (n : node) (cur : list A) : res (list A) :=
  match n with NSeq l => v <- mapM (fun m => rd m d) l ;; Ok (cur ++ v) | _ => Exn end.
(** 75-122, OptionalRead_deprecated_alternative; a sequence or a map passes the first test, HasKey and GetChildSafe do the rest *)
Definition opt_deprecated {A} (read1 : node -> string -> A -> res A) (n : node) (k : string) (old : list string) (cur : A) : res A :=
  match n with
  | NMap l =>
    let present := filter (fun o => match lookup o l with Some _ => true | None => false end) old in
    if has_key n k && (1 <=? length present)%nat then Exn
    else if (2 <=? length present)%nat then Exn
    else v <- read1 n k cur ;; fold_left (fun r o => v <- r ;; read1 n o v) old (Ok v)
  | NSeq _ => Exn
  | _ => Ok cur
  end.
Definition r_text (n : node) (_ : text) : res text := read_text n.
Definition r_bool (n : node) (_ : bool) : res bool := read_bool n.
Definition r_dbl (D : dbl) (n : node) (_ : N) : res N := read_dbl D n.
Definition r_int (t : ity) (n : node) (_ : Z) : res Z := read_int t n.
(** 147-154, Read of a std::chrono::duration *)
Definition r_ms (n : node) (_ : Z) : res Z := read_checked I64 n.
Definition r_texts : node -> list text -> res (list text) := r_vec r_text [].

(** ** YamlWriter.hpp *)
(** 66-82, WriteKeyValue, Write: [node.is_map()] holds after MakeMap *)
Definition kv (k : string) (n : node) : list (string * node) := [(k, n)].
(** 31-38 *)
Definition w_opt {A} (w : A -> node) (o : option A) (k : string) : list (string * node) := match o with Some a => kv k (w a) | None => [] end.
(** 40-47, 84-93 *)
Definition w_vec {A} (w : A -> node) (l : list A) : node := NSeq (map w l).
Definition w_list {A} (w : A -> node) (l : list A) (k : string) : list (string * node) := match l with [] => [] | _ => kv k (w_vec w l) end.
(** 49-55 *)
Definition w_str (s : text) (k : string) : list (string * node) := match s with [] => [] | _ => kv k (plain s) end.
(** 57-64, NonDefaultWrite; [eqb] is the operator== of the type *)
Definition w_nd {A} (eqb : A -> A -> bool) (w : A -> node) (v : A) (k : string) (d : A) : list (string * node) := if eqb v d then [] else kv k (w v).
Definition w_texts (l : list text) (k : string) := w_list plain l k.

(** ** Equality as in C++ *)
Fixpoint list_eqb {A} (eqb : A -> A -> bool) (x y : list A) : bool :=
  match x, y with [], [] => true | a :: x, b :: y => eqb a b && list_eqb eqb x y | _, _ => false end.
Definition opt_eqb {A} (eqb : A -> A -> bool) (x y : option A) : bool :=
  match x, y with Some a, Some b => eqb a b | None, None => true | _, _ => false end.

(** ** Enumerations: declaration, writer, reader *)
(** YamlWriter.cpp:44-70, YamlReader.cpp:30-50 *)
Inductive level := LTrace | LDebug | LInfo | LWarn | LError | LCritical | LOff.
Definition level_eqb (a b : level) : bool :=
  match a, b with LTrace, LTrace | LDebug, LDebug | LInfo, LInfo | LWarn, LWarn | LError, LError | LCritical, LCritical | LOff, LOff => true | _, _ => false end.
Definition w_level (l : level) : node :=
  plain (lit match l with LCritical => "Critical" | LError => "Error" | LWarn => "Warn" | LInfo => "Info" | LDebug => "Debug" | LTrace => "Trace" | LOff => "Off" end).
Definition r_level (n : node) (_ : level) : res level :=
  if is_str n "Critical" then Ok LCritical else if is_str n "Error" then Ok LError else if is_str n "Warn" then Ok LWarn
  else if is_str n "Info" then Ok LInfo else if is_str n "Debug" then Ok LDebug else if is_str n "Trace" then Ok LTrace
  else if is_str n "Off" then Ok LOff else Exn.
(** YamlReader.cpp:52-69, core/internal/string_utils_internal.hpp:152-202, util/StringHelpers.hpp:43-50; the topics are numbered as in core/internal/LoggingTopics.hpp:15-41.
    There is no writer for topics. *)
Definition lower (s : text) : text := map (fun c => if (65 <=? c)%N && (c <=? 90)%N then (c + 32)%N else c) s.
Definition topic_names : list (string * N) :=
  [("none", 0); ("user", 1); ("timesync", 7); ("lifecycle", 2); ("systemstate", 3); ("messagetracing", 4); ("servicediscovery", 5); ("participant", 8);
   ("timeconfig", 9); ("asio", 6); ("requestreply", 10); ("systemmonitor", 11); ("can", 12); ("ethernet", 13); ("flexray", 14); ("lin", 15);
   ("metrics", 16); ("pubsub", 17); ("rpc", 18); ("tracing", 19); ("dashboard", 20); ("netsim", 21); ("extension", 22)]%N%string.
Definition r_topic (n : node) (_ : N) : res N :=
  match n with
  | NVal _ s => match find (fun p => text_eqb (lower s) (lit (fst p))) topic_names with Some p => Ok (snd p) | None => Exn end
  | _ => Exn
  end.
(** YamlWriter.cpp:145-162, YamlReader.cpp:136-150 *)
Inductive channel := ChNone | ChA | ChB | ChAB.
Definition w_channel (c : channel) : node := plain (lit match c with ChA => "A" | ChB => "B" | ChAB => "AB" | ChNone => "None" end).
Definition r_channel (n : node) (_ : channel) : res channel :=
  if is_str n "A" then Ok ChA else if is_str n "B" then Ok ChB else if is_str n "AB" then Ok ChAB
  else if is_str n "None" || is_str n "" then Ok ChNone else Exn.
(** YamlWriter.cpp:165-181, YamlReader.cpp:152-164 *)
Inductive clock := T12_5 | T25 | T50.
Definition w_clock (c : clock) : node := plain (lit match c with T12_5 => "12.5ns" | T25 => "25ns" | T50 => "50ns" end).
Definition r_clock (n : node) (_ : clock) : res clock :=
  if is_str n "12.5ns" then Ok T12_5 else if is_str n "25ns" then Ok T25 else if is_str n "50ns" then Ok T50 else Exn.
(** YamlWriter.cpp:184-197, YamlReader.cpp:166-176 *)
Inductive txmode := SingleShot | Continuous.
Definition w_txmode (m : txmode) : node := plain (lit match m with Continuous => "Continuous" | SingleShot => "SingleShot" end).
Definition r_txmode (n : node) (_ : txmode) : res txmode :=
  if is_str n "Continuous" then Ok Continuous else if is_str n "SingleShot" then Ok SingleShot else Exn.
(** YamlWriter.cpp:200-228, YamlReader.cpp:178-212 *)
Inductive stype := SRemote | SStdout | SFile.
Inductive sformat := FSimple | FJson.
Definition stype_eqb (a b : stype) : bool := match a, b with SRemote, SRemote | SStdout, SStdout | SFile, SFile => true | _, _ => false end.
Definition sformat_eqb (a b : sformat) : bool := match a, b with FSimple, FSimple | FJson, FJson => true | _, _ => false end.
Definition w_stype (t : stype) : node := plain (lit match t with SRemote => "Remote" | SStdout => "Stdout" | SFile => "File" end).
Definition r_stype (n : node) (_ : stype) : res stype :=
  if is_str n "Remote" || is_str n "" then Ok SRemote else if is_str n "Stdout" then Ok SStdout else if is_str n "File" then Ok SFile else Exn.
Definition r_sformat (n : node) (_ : sformat) : res sformat :=
  if is_str n "Simple" || is_str n "" then Ok FSimple else if is_str n "Json" then Ok FJson else Exn.
(** YamlWriter.cpp:254-270, YamlReader.cpp:251-269 *)
Inductive mtype := MUndefined | MJsonFile | MRemote.
Definition mtype_eqb (a b : mtype) : bool := match a, b with MUndefined, MUndefined | MJsonFile, MJsonFile | MRemote, MRemote => true | _, _ => false end.
Definition w_mtype (t : mtype) : node := plain (lit match t with MUndefined => "Undefined" | MJsonFile => "JsonFile" | MRemote => "Remote" end).
Definition r_mtype (n : node) (_ : mtype) : res mtype :=
  if is_str n "Undefined" || is_str n "" then Ok MUndefined else if is_str n "JsonFile" then Ok MJsonFile else if is_str n "Remote" then Ok MRemote else Exn.
(** YamlWriter.cpp:320-337, YamlReader.cpp:309-323 *)
Inductive dir := DUndefined | DSend | DReceive | DBoth.
Definition dir_eqb (a b : dir) : bool := match a, b with DUndefined, DUndefined | DSend, DSend | DReceive, DReceive | DBoth, DBoth => true | _, _ => false end.
Definition w_dir (d : dir) : node := plain (lit match d with DSend => "Send" | DReceive => "Receive" | DBoth => "Both" | DUndefined => "Undefined" end).
Definition r_dir (n : node) (_ : dir) : res dir :=
  if is_str n "Undefined" || is_str n "" then Ok DUndefined else if is_str n "Send" then Ok DSend else if is_str n "Receive" then Ok DReceive
  else if is_str n "Both" then Ok DBoth else Exn.
(** YamlWriter.cpp:382-395, YamlReader.cpp:347-357 *)
Inductive lkind := LkOptional | LkMandatory.
Definition w_lkind (k : lkind) : node := plain (lit match k with LkMandatory => "Mandatory" | LkOptional => "Optional" end).
Definition r_lkind (n : node) (_ : lkind) : res lkind :=
  if is_str n "Mandatory" then Ok LkMandatory else if is_str n "Optional" then Ok LkOptional else Exn.
(** YamlWriter.cpp:465-484, YamlReader.cpp:417-431 *)
Inductive tktype := TkUndefined | TkPcapFile | TkPcapPipe | TkMdf4.
Definition tktype_eqb (a b : tktype) : bool := match a, b with TkUndefined, TkUndefined | TkPcapFile, TkPcapFile | TkPcapPipe, TkPcapPipe | TkMdf4, TkMdf4 => true | _, _ => false end.
Definition w_tktype (t : tktype) : node := plain (lit match t with TkUndefined => "Undefined" | TkMdf4 => "Mdf4File" | TkPcapFile => "PcapFile" | TkPcapPipe => "PcapPipe" end).
Definition r_tktype (n : node) (_ : tktype) : res tktype :=
  if is_str n "Undefined" || is_str n "" then Ok TkUndefined else if is_str n "Mdf4File" then Ok TkMdf4 else if is_str n "PcapFile" then Ok TkPcapFile
  else if is_str n "PcapPipe" then Ok TkPcapPipe else Exn.
(** YamlWriter.cpp:496-512, YamlReader.cpp:439-451 *)
Inductive tctype := TcUndefined | TcPcapFile | TcMdf4.
Definition tctype_eqb (a b : tctype) : bool := match a, b with TcUndefined, TcUndefined | TcPcapFile, TcPcapFile | TcMdf4, TcMdf4 => true | _, _ => false end.
Definition w_tctype (t : tctype) : node := plain (lit match t with TcUndefined => "Undefined" | TcMdf4 => "Mdf4File" | TcPcapFile => "PcapFile" end).
Definition r_tctype (n : node) (_ : tctype) : res tctype :=
  if is_str n "Undefined" || is_str n "" then Ok TcUndefined else if is_str n "Mdf4File" then Ok TcMdf4 else if is_str n "PcapFile" then Ok TcPcapFile else Exn.
(** YamlWriter.cpp:549-565, YamlReader.cpp:479-491 *)
Inductive aggr := AOff | AOn | AAuto.
Definition aggr_eqb (a b : aggr) : bool := match a, b with AOff, AOff | AOn, AOn | AAuto, AAuto => true | _, _ => false end.
Definition w_aggr (a : aggr) : node := plain (lit match a with AOff => "Off" | AOn => "On" | AAuto => "Auto" end).
Definition r_aggr (n : node) (_ : aggr) : res aggr :=
  if is_str n "Off" || is_str n "" then Ok AOff else if is_str n "On" then Ok AOn else if is_str n "Auto" then Ok AAuto else Exn.

(** ** FlexRay parameters. The members of the three structs (FlexrayDatatypes.hpp:46-275) are held in the order of the tables, which is the
    order in which YamlReader.cpp:71-134 reads them; enumerations are [MChan], [MClock], [MMode]. *)
Inductive mty := MInt (t : ity) | MBool | MChan | MClock | MMode.
Inductive mval := VInt (z : Z) | VBool (b : bool) | VChan (c : channel) | VClock (c : clock) | VMode (m : txmode).
Definition r_member (t : mty) (n : node) : res mval :=
  match t with
  | MInt t => z <- r_int t n 0 ;; Ok (VInt z)
  | MBool => b <- r_bool n false ;; Ok (VBool b)
  | MChan => c <- r_channel n ChNone ;; Ok (VChan c)
  | MClock => c <- r_clock n T25 ;; Ok (VClock c)
  | MMode => m <- r_txmode n SingleShot ;; Ok (VMode m)
  end.
Definition w_member (v : mval) : node :=
  match v with VInt z => write_int z | VBool b => write_bool b | VChan c => w_channel c | VClock c => w_clock c | VMode m => w_txmode m end.
Open Scope string_scope.
(** YamlReader.cpp:71-94, types from FlexrayDatatypes.hpp:46-125 *)
Definition cluster_members : list (string * mty) :=
  [("gColdstartAttempts", MInt U8); ("gCycleCountMax", MInt U8); ("gdActionPointOffset", MInt U16); ("gdDynamicSlotIdlePhase", MInt U16);
   ("gdMiniSlot", MInt U16); ("gdMiniSlotActionPointOffset", MInt U16); ("gdStaticSlot", MInt U16); ("gdSymbolWindow", MInt U16);
   ("gdSymbolWindowActionPointOffset", MInt U16); ("gdTSSTransmitter", MInt U16); ("gdWakeupTxActive", MInt U16); ("gdWakeupTxIdle", MInt U16);
   ("gListenNoise", MInt U8); ("gMacroPerCycle", MInt U16); ("gMaxWithoutClockCorrectionFatal", MInt U8); ("gMaxWithoutClockCorrectionPassive", MInt U8);
   ("gNumberOfMiniSlots", MInt U16); ("gNumberOfStaticSlots", MInt U16); ("gPayloadLengthStatic", MInt U16); ("gSyncFrameIDCountMax", MInt U8)].
(** YamlReader.cpp:96-123, types from FlexrayDatatypes.hpp:132-243 *)
Definition node_members : list (string * mty) :=
  [("pAllowHaltDueToClock", MInt U8); ("pAllowPassiveToActive", MInt U8); ("pClusterDriftDamping", MInt U8); ("pdAcceptedStartupRange", MInt I32);
   ("pdListenTimeout", MInt I32); ("pKeySlotId", MInt U16); ("pKeySlotOnlyEnabled", MInt U8); ("pKeySlotUsedForStartup", MInt U8);
   ("pKeySlotUsedForSync", MInt U8); ("pLatestTx", MInt U16); ("pMacroInitialOffsetA", MInt U8); ("pMacroInitialOffsetB", MInt U8);
   ("pMicroInitialOffsetA", MInt I32); ("pMicroInitialOffsetB", MInt I32); ("pMicroPerCycle", MInt I32); ("pOffsetCorrectionOut", MInt I32);
   ("pOffsetCorrectionStart", MInt U16); ("pRateCorrectionOut", MInt I32); ("pWakeupPattern", MInt U8); ("pSamplesPerMicrotick", MInt U8);
   ("pWakeupChannel", MChan); ("pdMicrotick", MClock); ("pChannels", MChan)].
(** YamlReader.cpp:125-134, types from FlexrayDatatypes.hpp:253-275 *)
Definition buffer_members : list (string * mty) :=
  [("channels", MChan); ("slotId", MInt U16); ("offset", MInt U8); ("repetition", MInt U8); ("PPindicator", MBool); ("headerCrc", MInt U16); ("transmissionMode", MMode)].
(** ReadKeyValue of all members of a table *)
Definition r_members (ms : list (string * mty)) (n : node) : res (list mval) :=
  mapM (fun m => c <- child n (fst m) ;; match c with Some x => r_member (snd m) x | None => Exn end) ms.
(** the names under which the members are written: YamlWriter.cpp:73-97, 100-129, 132-142 *)
Definition cluster_keys : list string :=
  ["gColdstartAttempts"; "gCycleCountMax"; "gdActionPointOffset"; "gdDynamicSlotIdlePhase"; "gdMiniSlot"; "gdMiniSlotActionPointOffset"; "gdStaticSlot";
   "gdSymbolWindow"; "gdSymbolWindowActionPointOffset"; "gdTSSTransmitter"; "gdWakeupTxActive"; "gdWakeupTxIdle"; "gListenNoise"; "gMacroPerCycle";
   "gMaxWithoutClockCorrectionFatal"; "gMaxWithoutClockCorrectionPassive"; "gNumberOfMiniSlots"; "gNumberOfStaticSlots"; "gPayloadLengthStatic";
   "gSyncFrameIDCountMax"].
Definition node_keys : list string :=
  ["pAllowHaltDueToClock"; "pAllowPassiveToActive"; "pClusterDriftDamping"; "pdAcceptedStartupRange"; "pdListenTimeout"; "pKeySlotId"; "pKeySlotOnlyEnabled";
   "pKeySlotUsedForStartup"; "pKeySlotUsedForSync"; "pLatestTx"; "pMacroInitialOffsetA"; "pMacroInitialOffsetB"; "pMicroInitialOffsetA"; "pMicroInitialOffsetB";
   "pMicroPerCycle"; "pOffsetCorrectionOut"; "pOffsetCorrectionStart"; "pRateCorrectionOut"; "pWakeupPattern"; "pSamplesPerMicrotick"; "pWakeupChannel";
   "pdMicrotick"; "pChannels"].
Definition buffer_keys : list string := ["channels"; "slotId"; "offset"; "repetition"; "PPindicator"; "headerCrc"; "transmissionMode"].
Definition w_members (ks : list string) (vs : list mval) : list (string * node) := combine ks (map w_member vs).
Definition cluster := list mval.
Definition w_cluster (c : cluster) : node := NMap (w_members cluster_keys c).
Definition r_cluster (n : node) (_ : cluster) : res cluster := r_members cluster_members n.
(** the two members that were added later have a default (0) *)
Record nparams := mkNp { np_members : list mval; np_second : Z; np_two : Z }.
Definition w_nparams (p : nparams) : node :=
  NMap (w_members node_keys (np_members p) ++ w_nd Z.eqb write_int (np_second p) "pSecondKeySlotId" 0 ++ w_nd Z.eqb write_int (np_two p) "pTwoKeySlotMode" 0).
Definition r_nparams (n : node) (cur : nparams) : res nparams :=
  ms <- r_members node_members n ;; a <- opt_int U16 n "pSecondKeySlotId" (np_second cur) ;; b <- opt_int U8 n "pTwoKeySlotMode" (np_two cur) ;;
  Ok (mkNp ms a b).
Definition buffer := list mval.
Definition w_buffer (b : buffer) : node := NMap (w_members buffer_keys b).
Definition r_buffer (n : node) (_ : buffer) : res buffer := r_members buffer_members n.

(** ** The records of config/Configuration.hpp and config/ParticipantConfiguration.hpp *)
(** Configuration.hpp:66-97; YamlWriter.cpp:231-250, YamlReader.cpp:214-249 *)
Record sink := mkSink { s_format : sformat; s_type : stype; s_level : level; s_log : text; s_disabled : list N; s_enabled : list N }.
Definition sink0 : sink := mkSink FSimple SRemote LInfo [] [] [].
Record logging := mkLog { lg_remote : bool; lg_flush : level; lg_sinks : list sink }.
Definition logging0 : logging := mkLog false LOff [].
(** Configuration.hpp:231-235, 247-250 *)
Definition sink_eqb (a b : sink) : bool :=
  stype_eqb (s_type a) (s_type b) && level_eqb (s_level a) (s_level b) && sformat_eqb (s_format a) (s_format b) && text_eqb (s_log a) (s_log b)
  && list_eqb N.eqb (s_disabled a) (s_disabled b) && list_eqb N.eqb (s_enabled a) (s_enabled b).
Definition logging_eqb (a b : logging) : bool :=
  Bool.eqb (lg_remote a) (lg_remote b) && level_eqb (lg_flush a) (lg_flush b) && list_eqb sink_eqb (lg_sinks a) (lg_sinks b).
Definition w_sink (s : sink) : node :=
  NMap (kv "Type" (w_stype (s_type s)) ++ w_nd level_eqb w_level (s_level s) "Level" (s_level sink0) ++ w_nd text_eqb plain (s_log s) "LogName" (s_log sink0)).
Definition r_sink (n : node) (cur : sink) : res sink :=
  ty <- opt_read r_stype n "Type" (s_type cur) ;;
  lv <- opt_read r_level n "Level" (s_level cur) ;;
  let f0 := if stype_eqb ty SFile then FJson else s_format cur in
  f <- opt_read r_sformat n "Format" f0 ;;
  e <- child n "Experimental" ;;
  dis <- match e with Some m => opt_read (r_vec r_topic 0%N) m "DisabledTopics" (s_disabled cur) | None => Ok (s_disabled cur) end ;;
  en <- match e with Some m => opt_read (r_vec r_topic 0%N) m "EnabledTopics" (s_enabled cur) | None => Ok (s_enabled cur) end ;;
  nm <- (if stype_eqb ty SFile then if has_key n "LogName" then key_read r_text n "LogName" (s_log cur) else Exn else Ok (s_log cur)) ;;
  Ok (mkSink f ty lv nm dis en).
Definition w_logging (l : logging) : node :=
  NMap (w_nd Bool.eqb write_bool (lg_remote l) "LogFromRemotes" (lg_remote logging0) ++ w_nd level_eqb w_level (lg_flush l) "FlushLevel" (lg_flush logging0)
        ++ kv "Sinks" (w_vec w_sink (lg_sinks l))).
Definition r_logging (n : node) (cur : logging) : res logging :=
  a <- opt_read r_bool n "LogFromRemotes" (lg_remote cur) ;; b <- opt_read r_level n "FlushLevel" (lg_flush cur) ;;
  c <- opt_read (r_vec r_sink sink0) n "Sinks" (lg_sinks cur) ;; Ok (mkLog a b c).

(** ParticipantConfiguration.hpp:246-265, ParticipantConfiguration.cpp:128-136 (updateInterval is not compared); YamlWriter.cpp:273-295, YamlReader.cpp:271-286 *)
Record msink := mkMs { m_type : mtype; m_name : text }.
Record metrics := mkMetrics { me_sinks : list msink; me_collect : option bool; me_interval : Z }.
Definition metrics0 : metrics := mkMetrics [] None 1.
Definition msink_eqb (a b : msink) : bool := mtype_eqb (m_type a) (m_type b) && text_eqb (m_name a) (m_name b).
Definition metrics_eqb (a b : metrics) : bool := list_eqb msink_eqb (me_sinks a) (me_sinks b) && opt_eqb Bool.eqb (me_collect a) (me_collect b).
Definition w_msink (s : msink) : node := NMap (kv "Type" (w_mtype (m_type s)) ++ w_str (m_name s) "Name").
Definition r_msink (n : node) (cur : msink) : res msink :=
  t <- key_read r_mtype n "Type" (m_type cur) ;; s <- opt_read r_text n "Name" (m_name cur) ;; Ok (mkMs t s).
Definition w_metrics (m : metrics) : node :=
  NMap (w_list w_msink (me_sinks m) "Sinks" ++ w_opt write_bool (me_collect m) "CollectFromRemote"
        ++ w_nd Z.eqb write_int (me_interval m) "UpdateInterval" (me_interval metrics0)).
Definition r_metrics (n : node) (cur : metrics) : res metrics :=
  a <- opt_read (r_vec r_msink (mkMs MUndefined [])) n "Sinks" (me_sinks cur) ;; b <- opt_some r_bool false n "CollectFromRemote" (me_collect cur) ;;
  c <- opt_int I64 n "UpdateInterval" (me_interval cur) ;; Ok (mkMetrics a b c).

(** Configuration.hpp:133-158, 262-273; YamlWriter.cpp:298-317, YamlReader.cpp:288-307 *)
Record mdf := mkMdf { md_name : option text; md_source : option text; md_path : option text; md_gname : option text; md_gsource : option text; md_gpath : option text }.
Definition mdf0 : mdf := mkMdf None None None None None None.
Definition ot_eqb := opt_eqb text_eqb.
Definition mdf_eqb (a b : mdf) : bool :=
  ot_eqb (md_name a) (md_name b) && ot_eqb (md_source a) (md_source b) && ot_eqb (md_path a) (md_path b) && ot_eqb (md_gname a) (md_gname b)
  && ot_eqb (md_gsource a) (md_gsource b) && ot_eqb (md_gpath a) (md_gpath b).
Definition w_mdf (m : mdf) : node :=
  NMap (w_opt plain (md_name m) "ChannelName" ++ w_opt plain (md_path m) "ChannelPath" ++ w_opt plain (md_source m) "ChannelSource"
        ++ w_opt plain (md_gname m) "GroupName" ++ w_opt plain (md_gpath m) "GroupPath" ++ w_opt plain (md_gsource m) "GroupSource").
Definition r_mdf (n : node) (cur : mdf) : res mdf :=
  if is_map n then
    a <- opt_some r_text [] n "ChannelName" (md_name cur) ;; b <- opt_some r_text [] n "ChannelPath" (md_path cur) ;;
    c <- opt_some r_text [] n "ChannelSource" (md_source cur) ;; d <- opt_some r_text [] n "GroupName" (md_gname cur) ;;
    e <- opt_some r_text [] n "GroupPath" (md_gpath cur) ;; f <- opt_some r_text [] n "GroupSource" (md_gsource cur) ;;
    Ok (mkMdf a c b d f e)
  else Exn.
Record replay := mkReplay { rp_source : text; rp_dir : dir; rp_mdf : mdf }.
Definition replay0 : replay := mkReplay [] DUndefined mdf0.
Definition w_replay (r : replay) : node :=
  NMap (kv "UseTraceSource" (plain (rp_source r)) ++ w_nd dir_eqb w_dir (rp_dir r) "Direction" (rp_dir replay0) ++ w_nd mdf_eqb w_mdf (rp_mdf r) "MdfChannel" (rp_mdf replay0)).
(** YamlWriter.hpp:135-141 *)
Definition w_replay_opt (r : replay) (k : string) : list (string * node) := match rp_source r with [] => [] | _ => kv k (w_replay r) end.
Definition r_replay (n : node) (cur : replay) : res replay :=
  a <- key_read r_text n "UseTraceSource" (rp_source cur) ;; b <- opt_read r_dir n "Direction" (rp_dir cur) ;;
  c <- opt_read r_mdf n "MdfChannel" (rp_mdf cur) ;; Ok (mkReplay a b c).

(** CanController, LinController, EthernetController (ParticipantConfiguration.hpp:49-99); YamlWriter.cpp:340-367, YamlReader.hpp:296-303, YamlReader.cpp:324-337 *)
Record ctrl := mkCtrl { ct_name : text; ct_net : option text; ct_sinks : list text; ct_replay : replay }.
Definition ctrl0 : ctrl := mkCtrl [] None [] replay0.
Definition w_ctrl (c : ctrl) : node :=
  NMap (kv "Name" (plain (ct_name c)) ++ w_opt plain (ct_net c) "Network" ++ w_texts (ct_sinks c) "UseTraceSinks" ++ w_replay_opt (ct_replay c) "Replay").
Definition r_ctrl (n : node) (cur : ctrl) : res ctrl :=
  a <- key_read r_text n "Name" (ct_name cur) ;; b <- opt_some r_text [] n "Network" (ct_net cur) ;;
  c <- opt_read r_texts n "UseTraceSinks" (ct_sinks cur) ;; d <- opt_read r_replay n "Replay" (ct_replay cur) ;; Ok (mkCtrl a b c d).
(** FlexrayController (106-122); YamlWriter.cpp:370-380, YamlReader.cpp:339-345 *)
Record flexray := mkFr { fr_ctrl : ctrl; fr_cluster : option cluster; fr_node : option nparams; fr_bufs : list buffer }.
Definition flexray0 : flexray := mkFr ctrl0 None None [].
Definition w_flexray (f : flexray) : node :=
  NMap (kv "Name" (plain (ct_name (fr_ctrl f))) ++ w_opt plain (ct_net (fr_ctrl f)) "Network" ++ w_opt w_cluster (fr_cluster f) "ClusterParameters"
        ++ w_opt w_nparams (fr_node f) "NodeParameters" ++ w_list w_buffer (fr_bufs f) "TxBufferConfigurations"
        ++ w_texts (ct_sinks (fr_ctrl f)) "UseTraceSinks" ++ w_replay_opt (ct_replay (fr_ctrl f)) "Replay").
Definition r_flexray (n : node) (cur : flexray) : res flexray :=
  a <- r_ctrl n (fr_ctrl cur) ;; b <- opt_some r_cluster [] n "ClusterParameters" (fr_cluster cur) ;;
  c <- opt_some r_nparams (mkNp [] 0 0) n "NodeParameters" (fr_node cur) ;; d <- opt_read (r_vec r_buffer []) n "TxBufferConfigurations" (fr_bufs cur) ;;
  Ok (mkFr a b c d).
(** Label (128-143); YamlWriter.cpp:398-404, YamlReader.cpp:359-364; [Label{}] has the kind Optional (0) *)
Record label := mkLabel { lb_key : text; lb_value : text; lb_kind : lkind }.
Definition label0 : label := mkLabel [] [] LkOptional.
Definition w_label (l : label) : node := NMap (kv "Key" (plain (lb_key l)) ++ kv "Value" (plain (lb_value l)) ++ kv "Kind" (w_lkind (lb_kind l))).
Definition r_label (n : node) (cur : label) : res label :=
  a <- opt_read r_text n "Key" (lb_key cur) ;; b <- opt_read r_text n "Value" (lb_value cur) ;; c <- opt_read r_lkind n "Kind" (lb_kind cur) ;; Ok (mkLabel a b c).
(** DataPublisher, DataSubscriber, RpcServer, RpcClient (150-218); [sv_topic] is the topic or the function name; [sv_history] is used by the
    publisher only *)
Record svc := mkSvc { sv_name : text; sv_topic : option text; sv_labels : option (list label); sv_history : option Z; sv_sinks : list text; sv_replay : replay }.
Definition svc0 : svc := mkSvc [] None None None [] replay0.
(** YamlWriter.cpp:406-447 *)
Definition w_svc (topic : string) (hist : bool) (s : svc) : node :=
  NMap (kv "Name" (plain (sv_name s)) ++ w_opt plain (sv_topic s) topic ++ w_opt (w_vec w_label) (sv_labels s) "Labels"
        ++ (if hist then w_opt write_int (sv_history s) "History" else [])
        ++ w_texts (sv_sinks s) "UseTraceSinks" ++ w_replay_opt (sv_replay s) "Replay").
Definition w_pub := w_svc "Topic" true.
Definition w_sub := w_svc "Topic" false.
Definition w_server := w_svc "FunctionName" false.
Definition w_client := w_svc "Channel" false.
(** YamlReader.cpp:366-382 *)
Definition r_pubsub (hist : bool) (n : node) (cur : svc) : res svc :=
  a <- key_read r_text n "Name" (sv_name cur) ;; b <- opt_some r_text [] n "Topic" (sv_topic cur) ;;
  c <- opt_some (r_vec r_label label0) [] n "Labels" (sv_labels cur) ;;
  d <- (if hist then opt_some (r_int U64) 0 n "History" (sv_history cur) else Ok (sv_history cur)) ;;
  e <- opt_read r_texts n "UseTraceSinks" (sv_sinks cur) ;; f <- opt_read r_replay n "Replay" (sv_replay cur) ;; Ok (mkSvc a b c d e f).
Definition r_pub := r_pubsub true.
Definition r_sub := r_pubsub false.
(** YamlReader.cpp:384-401 *)
Definition r_rpc (n : node) (cur : svc) : res svc :=
  a <- key_read r_text n "Name" (sv_name cur) ;;
  b <- opt_deprecated (opt_some r_text []) n "FunctionName" ["Channel"; "RpcChannel"] (sv_topic cur) ;;
  c <- opt_some (r_vec r_label label0) [] n "Labels" (sv_labels cur) ;;
  e <- opt_read r_texts n "UseTraceSinks" (sv_sinks cur) ;; f <- opt_read r_replay n "Replay" (sv_replay cur) ;; Ok (mkSvc a b c (sv_history cur) e f).

(** HealthCheck (225-229, ParticipantConfiguration.cpp:118-121); YamlWriter.cpp:9-12, 615-620, YamlReader.cpp:531-535 *)
Record health := mkHealth { h_soft : option Z; h_hard : option Z }.
Definition health0 : health := mkHealth None None.
Definition health_eqb (a b : health) : bool := opt_eqb Z.eqb (h_soft a) (h_soft b) && opt_eqb Z.eqb (h_hard a) (h_hard b).
Definition w_health (h : health) : node := NMap (w_opt write_int (h_soft h) "SoftResponseTimeout" ++ w_opt write_int (h_hard h) "HardResponseTimeout").
Definition r_health (n : node) (cur : health) : res health :=
  a <- opt_some r_ms 0 n "SoftResponseTimeout" (h_soft cur) ;; b <- opt_some r_ms 0 n "HardResponseTimeout" (h_hard cur) ;; Ok (mkHealth a b).

(** Tracing (236-240), TraceSink and TraceSource (Configuration.hpp:103-130, 252-260); YamlWriter.cpp:449-462, 487-493, YamlReader.cpp:403-437 *)
Record tsink := mkTsink { tk_type : tktype; tk_name : text; tk_path : text }.
Record tsource := mkTsource { tc_type : tctype; tc_name : text; tc_path : text }.
Record tracing := mkTracing { tr_sinks : list tsink; tr_sources : list tsource }.
Definition tracing0 : tracing := mkTracing [] [].
Definition tsink_eqb (a b : tsink) : bool := text_eqb (tk_name a) (tk_name b) && text_eqb (tk_path a) (tk_path b) && tktype_eqb (tk_type a) (tk_type b).
Definition tsource_eqb (a b : tsource) : bool := text_eqb (tc_path a) (tc_path b) && tctype_eqb (tc_type a) (tc_type b) && text_eqb (tc_name a) (tc_name b).
Definition tracing_eqb (a b : tracing) : bool := list_eqb tsink_eqb (tr_sinks a) (tr_sinks b) && list_eqb tsource_eqb (tr_sources a) (tr_sources b).
Definition w_tsink (s : tsink) : node := NMap (kv "Name" (plain (tk_name s)) ++ kv "Type" (w_tktype (tk_type s)) ++ kv "OutputPath" (plain (tk_path s))).
Definition w_tsource (s : tsource) : node := NMap (kv "Name" (plain (tc_name s)) ++ kv "Type" (w_tctype (tc_type s)) ++ kv "InputPath" (plain (tc_path s))).
Definition r_tsink (n : node) (cur : tsink) : res tsink :=
  a <- key_read r_text n "Name" (tk_name cur) ;; b <- key_read r_tktype n "Type" (tk_type cur) ;; c <- key_read r_text n "OutputPath" (tk_path cur) ;; Ok (mkTsink b a c).
Definition r_tsource (n : node) (cur : tsource) : res tsource :=
  a <- key_read r_text n "Name" (tc_name cur) ;; b <- key_read r_tctype n "Type" (tc_type cur) ;; c <- key_read r_text n "InputPath" (tc_path cur) ;; Ok (mkTsource b a c).
Definition w_tracing (t : tracing) : node := NMap (w_list w_tsink (tr_sinks t) "TraceSinks" ++ w_list w_tsource (tr_sources t) "TraceSources").
Definition r_tracing (n : node) (cur : tracing) : res tracing :=
  a <- opt_read (r_vec r_tsink (mkTsink TkUndefined [] [])) n "TraceSinks" (tr_sinks cur) ;;
  b <- opt_read (r_vec r_tsource (mkTsource TcUndefined [] [])) n "TraceSources" (tr_sources cur) ;; Ok (mkTracing a b).

(** Extensions (272-276, ParticipantConfiguration.cpp:138-141): a list of hints; YamlWriter.cpp:515-520, YamlReader.cpp:453-456 *)
Definition w_ext (e : list text) : node := NMap (w_nd (list_eqb text_eqb) (w_vec plain) e "SearchPathHints" []).
Definition r_ext (n : node) (cur : list text) : res (list text) := opt_read r_texts n "SearchPathHints" cur.
(** Includes (336-340); YamlWriter.cpp:542-547, YamlReader.cpp:473-477, ParticipantConfiguration.cpp:155-158 *)
Record includes := mkInc { in_hints : list text; in_files : list text }.
Definition includes0 : includes := mkInc [] [].
Definition includes_eqb (a b : includes) : bool := list_eqb text_eqb (in_files a) (in_files b) && list_eqb text_eqb (in_hints a) (in_hints b).
Definition w_includes (i : includes) : node := NMap (w_texts (in_files i) "Files" ++ w_texts (in_hints i) "SearchPathHints").
Definition r_includes (n : node) (cur : includes) : res includes :=
  a <- opt_read r_texts n "Files" (in_files cur) ;; b <- opt_read r_texts n "SearchPathHints" (in_hints cur) ;; Ok (mkInc b a).

(** Middleware (282-300), ParticipantConfiguration.cpp:144-153; YamlWriter.cpp:523-539, YamlReader.cpp:458-471 *)
Record middleware := mkMw {
  mw_uri : text; mw_attempts : Z; mw_rcvbuf : Z; mw_sndbuf : Z; mw_nodelay : bool; mw_quickack : bool; mw_domain : bool; mw_acceptors : list text;
  mw_proxy : bool; mw_remote : bool; mw_timeout : N }.
Definition middleware0 (D : dbl) : middleware := mkMw [] 1 (-1) (-1) true false true [] true true (d_five D).
Definition middleware_eqb (D : dbl) (a b : middleware) : bool :=
  text_eqb (mw_uri a) (mw_uri b) && (mw_attempts a =? mw_attempts b)%Z && Bool.eqb (mw_domain a) (mw_domain b) && Bool.eqb (mw_nodelay a) (mw_nodelay b)
  && Bool.eqb (mw_quickack a) (mw_quickack b) && (mw_rcvbuf a =? mw_rcvbuf b)%Z && (mw_sndbuf a =? mw_sndbuf b)%Z
  && list_eqb text_eqb (mw_acceptors a) (mw_acceptors b) && Bool.eqb (mw_proxy a) (mw_proxy b) && d_eqb D (mw_timeout a) (mw_timeout b)
  && Bool.eqb (mw_remote a) (mw_remote b).
Definition w_middleware (D : dbl) (m : middleware) : node :=
  let d := middleware0 D in
  NMap (w_nd text_eqb plain (mw_uri m) "RegistryUri" (mw_uri d) ++ w_nd Z.eqb write_int (mw_attempts m) "ConnectAttempts" (mw_attempts d)
        ++ w_nd Bool.eqb write_bool (mw_nodelay m) "TcpNoDelay" (mw_nodelay d) ++ w_nd Bool.eqb write_bool (mw_quickack m) "TcpQuickAck" (mw_quickack d)
        ++ w_nd Z.eqb write_int (mw_rcvbuf m) "TcpReceiveBufferSize" (mw_rcvbuf d) ++ w_nd Z.eqb write_int (mw_sndbuf m) "TcpSendBufferSize" (mw_sndbuf d)
        ++ w_nd Bool.eqb write_bool (mw_domain m) "EnableDomainSockets" (mw_domain d)
        ++ w_nd (list_eqb text_eqb) (w_vec plain) (mw_acceptors m) "AcceptorUris" (mw_acceptors d)
        ++ w_nd Bool.eqb write_bool (mw_proxy m) "RegistryAsFallbackProxy" (mw_proxy d)
        ++ w_nd Bool.eqb write_bool (mw_remote m) "ExperimentalRemoteParticipantConnection" (mw_remote d)
        ++ w_nd (d_eqb D) (fun x => plain (d_print D x)) (mw_timeout m) "ConnectTimeoutSeconds" (mw_timeout d)).
Definition r_middleware (D : dbl) (n : node) (cur : middleware) : res middleware :=
  uri <- opt_read r_text n "RegistryUri" (mw_uri cur) ;; att <- opt_int I32 n "ConnectAttempts" (mw_attempts cur) ;;
  nd <- opt_read r_bool n "TcpNoDelay" (mw_nodelay cur) ;; qa <- opt_read r_bool n "TcpQuickAck" (mw_quickack cur) ;;
  rb <- opt_int I32 n "TcpReceiveBufferSize" (mw_rcvbuf cur) ;; sb <- opt_int I32 n "TcpSendBufferSize" (mw_sndbuf cur) ;;
  ds <- opt_read r_bool n "EnableDomainSockets" (mw_domain cur) ;; ac <- opt_read r_texts n "AcceptorUris" (mw_acceptors cur) ;;
  px <- opt_read r_bool n "RegistryAsFallbackProxy" (mw_proxy cur) ;; rm <- opt_read r_bool n "ExperimentalRemoteParticipantConnection" (mw_remote cur) ;;
  ct <- opt_read (r_dbl D) n "ConnectTimeoutSeconds" (mw_timeout cur) ;; Ok (mkMw uri att rb sb nd qa ds ac px rm ct).

(** TimeSynchronization (308-318), Experimental (325-329), ParticipantConfiguration.cpp:171-180; YamlWriter.cpp:567-587, YamlReader.cpp:493-504 *)
Record timesync := mkTs { ts_factor : N; ts_aggr : aggr; ts_dynamic : option bool }.
Definition timesync0 (D : dbl) : timesync := mkTs (d_zero D) AOff None.
Definition timesync_eqb (D : dbl) (a b : timesync) : bool :=
  d_eqb D (ts_factor a) (ts_factor b) && aggr_eqb (ts_aggr a) (ts_aggr b) && opt_eqb Bool.eqb (ts_dynamic a) (ts_dynamic b).
Definition w_timesync (D : dbl) (t : timesync) : node :=
  NMap (w_nd (d_eqb D) (fun x => plain (d_print D x)) (ts_factor t) "AnimationFactor" (d_zero D)
        ++ w_nd aggr_eqb w_aggr (ts_aggr t) "EnableMessageAggregation" AOff ++ w_opt write_bool (ts_dynamic t) "DynamicSimulationStep").
Definition r_timesync (D : dbl) (n : node) (cur : timesync) : res timesync :=
  a <- opt_read (r_dbl D) n "AnimationFactor" (ts_factor cur) ;; b <- opt_read r_aggr n "EnableMessageAggregation" (ts_aggr cur) ;;
  c <- opt_some r_bool false n "DynamicSimulationStep" (ts_dynamic cur) ;; Ok (mkTs a b c).
Record experimental := mkExp { ex_time : timesync; ex_metrics : metrics }.
Definition experimental0 (D : dbl) : experimental := mkExp (timesync0 D) metrics0.
Definition experimental_eqb (D : dbl) (a b : experimental) : bool := timesync_eqb D (ex_time a) (ex_time b) && metrics_eqb (ex_metrics a) (ex_metrics b).
Definition w_experimental (D : dbl) (e : experimental) : node :=
  NMap (w_nd (timesync_eqb D) (w_timesync D) (ex_time e) "TimeSynchronization" (timesync0 D) ++ w_nd metrics_eqb w_metrics (ex_metrics e) "Metrics" metrics0).
Definition r_experimental (D : dbl) (n : node) (cur : experimental) : res experimental :=
  a <- opt_read (r_timesync D) n "TimeSynchronization" (ex_time cur) ;; b <- opt_read r_metrics n "Metrics" (ex_metrics cur) ;; Ok (mkExp a b).

(** ParticipantConfiguration (347-388); YamlWriter.cpp:590-613, YamlReader.cpp:506-529 *)
Record pcfg := mkPc {
  p_schema : text; p_description : text; p_file : text; p_name : text;
  p_can : list ctrl; p_lin : list ctrl; p_eth : list ctrl; p_flexray : list flexray;
  p_pubs : list svc; p_subs : list svc; p_servers : list svc; p_clients : list svc;
  p_logging : logging; p_health : health; p_tracing : tracing; p_ext : list text; p_includes : includes; p_middleware : middleware; p_exp : experimental }.
Definition pcfg0 (D : dbl) : pcfg :=
  mkPc [] [] [] [] [] [] [] [] [] [] [] [] logging0 health0 tracing0 [] includes0 (middleware0 D) (experimental0 D).
Definition w_pcfg (D : dbl) (c : pcfg) : node :=
  NMap (kv "SchemaVersion" (plain (lit "1")) ++ w_str (p_description c) "Description" ++ w_str (p_name c) "ParticipantName"
        ++ w_list w_ctrl (p_can c) "CanControllers" ++ w_list w_ctrl (p_lin c) "LinControllers" ++ w_list w_ctrl (p_eth c) "EthernetControllers"
        ++ w_list w_flexray (p_flexray c) "FlexrayControllers" ++ w_list w_pub (p_pubs c) "DataPublishers" ++ w_list w_sub (p_subs c) "DataSubscribers"
        ++ w_list w_server (p_servers c) "RpcServers" ++ w_list w_client (p_clients c) "RpcClients"
        ++ w_nd logging_eqb w_logging (p_logging c) "Logging" logging0 ++ w_nd health_eqb w_health (p_health c) "HealthCheck" health0
        ++ w_nd tracing_eqb w_tracing (p_tracing c) "Tracing" tracing0 ++ w_nd (list_eqb text_eqb) w_ext (p_ext c) "Extensions" []
        ++ w_nd (middleware_eqb D) (w_middleware D) (p_middleware c) "Middleware" (middleware0 D)
        ++ w_nd includes_eqb w_includes (p_includes c) "Includes" includes0
        ++ w_nd (experimental_eqb D) (w_experimental D) (p_exp c) "Experimental" (experimental0 D)).
Definition r_pcfg (D : dbl) (n : node) (cur : pcfg) : res pcfg :=
  sv <- opt_read r_text n "schemaVersion" (p_schema cur) ;; sv <- opt_read r_text n "SchemaVersion" sv ;;
  de <- opt_read r_text n "Description" (p_description cur) ;; na <- opt_read r_text n "ParticipantName" (p_name cur) ;;
  can <- opt_read (r_vec r_ctrl ctrl0) n "CanControllers" (p_can cur) ;; lin <- opt_read (r_vec r_ctrl ctrl0) n "LinControllers" (p_lin cur) ;;
  eth <- opt_read (r_vec r_ctrl ctrl0) n "EthernetControllers" (p_eth cur) ;;
  fr <- opt_deprecated (opt_read (r_vec r_flexray flexray0)) n "FlexrayControllers" ["FlexRayControllers"] (p_flexray cur) ;;
  pu <- opt_read (r_vec r_pub svc0) n "DataPublishers" (p_pubs cur) ;; su <- opt_read (r_vec r_sub svc0) n "DataSubscribers" (p_subs cur) ;;
  rs <- opt_read (r_vec r_rpc svc0) n "RpcServers" (p_servers cur) ;; rc <- opt_read (r_vec r_rpc svc0) n "RpcClients" (p_clients cur) ;;
  lg <- opt_read r_logging n "Logging" (p_logging cur) ;; he <- opt_read r_health n "HealthCheck" (p_health cur) ;;
  tr <- opt_read r_tracing n "Tracing" (p_tracing cur) ;; ex <- opt_read r_ext n "Extensions" (p_ext cur) ;;
  mw <- opt_read (r_middleware D) n "Middleware" (p_middleware cur) ;; inc <- opt_read r_includes n "Includes" (p_includes cur) ;;
  xp <- opt_read (r_experimental D) n "Experimental" (p_exp cur) ;;
  Ok (mkPc sv de (p_file cur) na can lin eth fr pu su rs rc lg he tr ex inc mw xp).
(** YamlParser.hpp:22-64, Deserialize, and 67-74, Serialize, between the parser and the emitter *)
Definition deserialize (D : dbl) (n : node) : res pcfg := r_pcfg D n (pcfg0 D).
Definition serialize (D : dbl) (c : pcfg) : node := w_pcfg D c.

(** SilKitRegistry::Config::V1::RegistryConfiguration (425-444, ParticipantConfiguration.cpp:229-232); YamlWriter.cpp:623-641, YamlReader.cpp:537-572 *)
Record rcfg := mkRc { rc_description : text; rc_schema : text; rc_listen : option text; rc_domain : option bool; rc_dashboard : option text; rc_logging : logging; rc_metrics : metrics }.
Definition rcfg0 : rcfg := mkRc [] [] None None None logging0 metrics0.
(** the writer of Experimental does not call MakeMap before NonDefaultWrite: WriteKeyValue throws for the node that is not a map; if nothing is
    to be written the node stays without a value *)
Definition w_rexp (m : metrics) : res node := if metrics_eqb m metrics0 then Ok NNull else Exn.
Definition w_rcfg (c : rcfg) : res node :=
  e <- (if metrics_eqb (rc_metrics c) metrics0 then Ok [] else x <- w_rexp (rc_metrics c) ;; Ok (kv "Experimental" x)) ;;
  Ok (NMap (kv "SchemaVersion" (plain (lit "1")) ++ w_nd text_eqb plain (rc_description c) "Description" [] ++ w_opt plain (rc_listen c) "ListenUri"
            ++ w_opt write_bool (rc_domain c) "EnableDomainSockets" ++ w_opt plain (rc_dashboard c) "DashboardUri"
            ++ w_nd logging_eqb w_logging (rc_logging c) "Logging" logging0 ++ e)).
Definition r_rexp (n : node) (cur : metrics) : res metrics :=
  m <- opt_read r_metrics n "Metrics" cur ;;
  if existsb (fun s => mtype_eqb (m_type s) MRemote) (me_sinks m) then Exn else Ok m.
Definition r_rcfg (n : node) (cur : rcfg) : res rcfg :=
  sv <- opt_read r_text n "SchemaVersion" (rc_schema cur) ;; de <- opt_read r_text n "Description" (rc_description cur) ;;
  li <- opt_some r_text [] n "ListenUri" (rc_listen cur) ;; ds <- opt_some r_bool false n "EnableDomainSockets" (rc_domain cur) ;;
  da <- opt_some r_text [] n "DashboardUri" (rc_dashboard cur) ;; lg <- opt_read r_logging n "Logging" (rc_logging cur) ;;
  me <- opt_read r_rexp n "Experimental" (rc_metrics cur) ;;
  if lg_remote lg then Exn
  else if existsb (fun s => stype_eqb (s_type s) SRemote) (lg_sinks lg) then Exn
  else Ok (mkRc de sv li ds da lg me).

(** Services::MatchingLabel (silkit/services/datatypes.hpp:35-53): the kind is the number of the enumerator, or any other number.
    YamlWriter.cpp:21-41, YamlReader.cpp:10-28 *)
Record mlabel := mkMl { ml_key : text; ml_value : text; ml_kind : Z }.
Definition w_mkind (k : Z) : res node := if (k =? 1)%Z || (k =? 2)%Z then Ok (write_int k) else Exn.
Definition w_mlabel (l : mlabel) : res node :=
  k <- w_mkind (ml_kind l) ;; Ok (NMap (kv "key" (plain (ml_key l)) ++ kv "value" (plain (ml_value l)) ++ kv "kind" k)).
Definition w_mlabels (l : list mlabel) : res node := v <- mapM w_mlabel l ;; Ok (NSeq v).
Definition r_mkind (n : node) (_ : Z) : res Z :=
  k <- read_int U32 n ;; if (k =? 2)%Z then Ok 2%Z else if (k =? 1)%Z then Ok 1%Z else Exn.
Definition r_mlabel (n : node) (cur : mlabel) : res mlabel :=
  a <- opt_read r_text n "key" (ml_key cur) ;; b <- opt_read r_mkind n "kind" (ml_kind cur) ;; c <- opt_read r_text n "value" (ml_value cur) ;; Ok (mkMl a c b).
Definition r_mlabels (n : node) : res (list mlabel) := r_vec r_mlabel (mkMl [] [] 0%Z) n [].
(** ParticipantConfiguration.cpp:15-63, Label::ToPublicApi, FromPublicApi *)
Definition to_public (l : label) : mlabel := mkMl (lb_key l) (lb_value l) (match lb_kind l with LkMandatory => 2 | LkOptional => 1 end)%Z.
Definition from_public (l : mlabel) : res label :=
  if (ml_kind l =? 2)%Z then Ok (mkLabel (ml_key l) (ml_value l) LkMandatory) else if (ml_kind l =? 1)%Z then Ok (mkLabel (ml_key l) (ml_value l) LkOptional) else Exn.
