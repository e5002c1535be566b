(** The C API and the C++ layer above it (the Hourglass): exceptions and return
    codes, identifiers of structs, checks of parameters, conversions of structs,
    ownership of the data of handlers.  The tables are in CapiTables.v. *)
From Coq Require Import String Ascii List ZArith NArith Bool.
Import ListNotations.
Open Scope string_scope. Open Scope Z_scope. Open Scope list_scope.

(* ------------------------------------------------------------------ *)
(** * Exceptions and return codes *)

(* include/silkit/participant/exception.hpp 13-99 and source/capi/CapiExceptions.hpp:
   the classes of exceptions of SIL Kit; std::runtime_error and other classes derived
   from std::exception; anything else that can be thrown *)
Inductive eclass :=
| ESilKit | ETypeConversion | EConfiguration | EState | EProtocol | EAssertion | EExtension
| ELogic | ELength | EOutOfRange | EBadParameter
| EStdRuntime | EStdException | EForeign.

(* exception.hpp 13-99, CapiExceptions.hpp: the base class of each class *)
Definition ebase (c : eclass) : option eclass :=
  match c with
  | ETypeConversion | EConfiguration | EState | EProtocol | EAssertion | EExtension
  | ELogic | EBadParameter => Some ESilKit
  | ELength | EOutOfRange => Some ELogic
  | ESilKit | EStdRuntime => Some EStdException
  | EStdException | EForeign => None
  end.

Definition eclass_eq_dec (a b : eclass) : {a = b} + {a <> b}.
Proof. decide equality. Defined.

(* a catch clause for class [k] takes an exception of class [c] if [c] is [k] or derived from it;
   the hierarchy is four classes deep *)
Fixpoint derives (fuel : nat) (c k : eclass) : bool :=
  if eclass_eq_dec c k then true
  else match fuel with
       | O => false
       | S n => match ebase c with Some b => derives n b k | None => false end
       end.

Record exn := { ex_class : eclass; ex_what : string }.

(* include/silkit/capi/Types.h 27-54 *)
Definition SUCCESS := 0.             Definition UNSPECIFIEDERROR := 1.
Definition NOTSUPPORTED := 2.        Definition NOTIMPLEMENTED := 3.
Definition BADPARAMETER := 4.        Definition BUFFERTOOSMALL := 5.
Definition TIMEOUT := 6.             Definition UNSUPPORTEDSERVICE := 7.
Definition WRONGSTATE := 8.          Definition TYPECONVERSIONERROR := 9.
Definition CONFIGURATIONERROR := 10. Definition PROTOCOLERROR := 11.
Definition ASSERTIONERROR := 12.     Definition EXTENSIONERROR := 13.
Definition LOGICERROR := 14.         Definition LENGTHERROR := 15.
Definition OUTOFRANGEERROR := 16.

(* source/capi/CapiImpl.hpp 13-82: the catch clauses in their order; each but the last, which is
   [catch (...)], stores the text of the exception *)
Definition clauses : list (eclass * Z) :=
  [(EBadParameter, BADPARAMETER); (EState, WRONGSTATE); (ETypeConversion, TYPECONVERSIONERROR);
   (EConfiguration, CONFIGURATIONERROR); (EProtocol, PROTOCOLERROR); (EAssertion, ASSERTIONERROR);
   (EExtension, EXTENSIONERROR); (ELength, LENGTHERROR); (EOutOfRange, OUTOFRANGEERROR);
   (ELogic, LOGICERROR); (ESilKit, UNSPECIFIEDERROR); (EStdRuntime, UNSPECIFIEDERROR);
   (EStdException, UNSPECIFIEDERROR)].

(* the return code, and the thread's error string afterwards ([last] before) *)
Fixpoint catch_with (cs : list (eclass * Z)) (e : exn) (last : string) : Z * string :=
  match cs with
  | [] => (UNSPECIFIEDERROR, last)
  | (k, rc) :: cs' => if derives 4 (ex_class e) k then (rc, ex_what e) else catch_with cs' e last
  end.
Definition catch_exceptions : exn -> string -> Z * string := catch_with clauses.

(* source/capi/CapiUtils.cpp 13-29 *)
Definition code_strings : list (Z * string) :=
  [(SUCCESS, "Operation succeeded"); (UNSPECIFIEDERROR, "An unspecified error occurred");
   (NOTSUPPORTED, "Operation is not supported"); (NOTIMPLEMENTED, "Operation is not implemented");
   (BADPARAMETER, "Operation failed due to a bad parameter");
   (BUFFERTOOSMALL, "Operation failed because a buffer is too small");
   (TIMEOUT, "Operation timed out"); (UNSUPPORTEDSERVICE, "The requested service is not supported");
   (WRONGSTATE, "State error"); (TYPECONVERSIONERROR, "Invalid type conversion");
   (CONFIGURATIONERROR, "Configuration has errors"); (PROTOCOLERROR, "Protocol error");
   (ASSERTIONERROR, "Assertion error"); (EXTENSIONERROR, "Extension could not be loaded");
   (LOGICERROR, "Violation of logical preconditions"); (LENGTHERROR, "Length limits violated");
   (OUTOFRANGEERROR, "Access of elements outside the defined range")].

Fixpoint lookupZ {A} (z : Z) (l : list (Z * A)) : option A :=
  match l with
  | [] => None
  | (k, v) :: r => if k =? z then Some v else lookupZ z r
  end.

(* source/capi/CapiUtils.cpp 31-96: the return code and what was stored; [null]: the target is null *)
Definition return_code_to_string (null : bool) (rc : Z) : Z * option string :=
  if null then (BADPARAMETER, None)
  else match lookupZ rc code_strings with
       | Some s => (SUCCESS, Some s)
       | None => (BADPARAMETER, None)
       end.

Definition nl : string := String (ascii_of_nat 10) EmptyString.

(* include/silkit/detail/impl/ThrowOnError.hpp 35-79: None if the call succeeded; [show] prints a
   number as operator<< does *)
Definition throw_on_error (show : Z -> string) (rc : Z) (last : string) : option exn :=
  if rc =? SUCCESS then None
  else
    let s := match return_code_to_string false rc with
             | (_, Some s) => s
             | (_, None) => "Unknown"
             end in
    let msg := ("SIL Kit: " ++ s ++ " (" ++ show rc ++ "):" ++ nl ++ last)%string in
    Some {| ex_class :=
              if rc =? WRONGSTATE then EState
              else if rc =? TYPECONVERSIONERROR then ETypeConversion
              else if rc =? CONFIGURATIONERROR then EConfiguration
              else if rc =? PROTOCOLERROR then EProtocol
              else if rc =? ASSERTIONERROR then EAssertion
              else if rc =? EXTENSIONERROR then EExtension
              else if rc =? LOGICERROR then ELogic
              else if rc =? LENGTHERROR then ELength
              else if rc =? OUTOFRANGEERROR then EOutOfRange
              else ESilKit;
            ex_what := msg |}.

(* ------------------------------------------------------------------ *)
(** * Identifiers of structs *)

Record sid := { si_service : Z; si_type : Z; si_version : Z }.

(* include/silkit/capi/InterfaceIdentifiers.h 44-48 (SK_ID_MAKE) *)
Definition struct_id (s : sid) : Z :=
  Z.lor (Z.lor (Z.lor (Z.lor (Z.shiftl 83 56) (Z.shiftl 75 48))
    (Z.shiftl (Z.land (si_service s) 255) 40)) (Z.shiftl (Z.land (si_type s) 255) 32))
    (Z.shiftl (Z.land (si_version s) 255) 24).

(* InterfaceIdentifiers.h 37-42 *)
Definition id_service (i : Z) : Z := Z.land (Z.shiftr i 40) 255.
Definition id_type (i : Z) : Z := Z.land (Z.shiftr i 32) 255.
Definition id_version (i : Z) : Z := Z.land (Z.shiftr i 24) 255.

(* InterfaceIdentifiers.h 50-53 (SK_ID_IS_VALID); the sentinels of the services are 0 and 9 *)
Definition id_valid (i : Z) : bool :=
  (0 <? id_service i) && (id_service i <? 9) && negb (id_type i =? 0) && negb (id_version i =? 0)
  && (Z.land (Z.shiftr i 56) 255 =? 83) && (Z.land (Z.shiftr i 48) 255 =? 75).

(* ------------------------------------------------------------------ *)
(** * Conversions of structs *)

(* the types of fields: integers, bool, SilKit_Bool (a byte), pointers that are only passed on,
   ranges of bytes (SilKit_ByteVector, Span), arrays of eight bytes *)
Inductive cty := U8 | U16 | U32 | U64 | I8 | I16 | I32 | I64 | TBool | CBool | TPtr | TBytes | TArr8.

Definition cty_eq_dec (a b : cty) : {a = b} + {a <> b}.
Proof. decide equality. Defined.

(* a range of bytes: whether its pointer is not null, and the bytes *)
Inductive val := VI (z : Z) | VB (nonnull : bool) (bytes : list N).

Definition layout := list (string * cty).
(* the fields that have been written; a field that is not there is uninitialised memory *)
Definition store := list (string * val).

Definition width (t : cty) : Z :=
  match t with
  | U8 | I8 | CBool => 8 | U16 | I16 => 16 | U32 | I32 => 32 | U64 | I64 | TPtr => 64
  | TBool => 1 | TBytes | TArr8 => 0
  end.
Definition signed (t : cty) : bool := match t with I8 | I16 | I32 | I64 => true | _ => false end.

(* conversion of an integer to a type *)
Definition wrap (t : cty) (z : Z) : Z :=
  match t with
  | TBool => if z =? 0 then 0 else 1
  | TBytes | TArr8 => z
  | _ => let m := z mod 2 ^ width t in
         if signed t && (2 ^ (width t - 1) <=? m) then m - 2 ^ width t else m
  end.

Fixpoint get {A} (s : list (string * A)) (f : string) : option A :=
  match s with
  | [] => None
  | (k, v) :: r => if String.eqb k f then Some v else get r f
  end.

(* a statement of a conversion; the source is read with [get], the target is written *)
Inductive stmt :=
| Asg (dst : string) (casts : list cty) (src : string)   (* dst = static_cast<..>(.. src); the last conversion is to the type of dst *)
| AsgTrue (dst src : string)                             (* dst = src == SilKit_True *)
| Cpy (dst src : string)                                 (* a range of bytes, or std::copy of an array *)
| CpyN (dst src : string)                                (* a range whose size is cast to uint32_t *)
| CpyE (dst src : string)                                (* a range whose pointer is null if it is empty *)
| ChkBool (src : string)                                 (* ASSERT_VALID_BOOL_PARAMETER *)
| ChkPtr (src : string).                                 (* ASSERT_VALID_POINTER_PARAMETER of the data of a range *)

(* the condition around a statement: the version in a struct header, or a field of the source that is not zero *)
Inductive guard := Always | VerGe (hdr : string) (n : Z) | VerIn (hdr : string) (l : list Z) | NonZeroS (f : string).

Record conv := { cv_dst : layout; cv_init : store; cv_body : list (guard * stmt) }.

(* memset to zero, or [T x{}] *)
Definition zeroed (l : layout) : store :=
  map (fun ft => (fst ft, match snd ft with
                          | TBytes => VB false []
                          | TArr8 => VB true (repeat 0%N 8)
                          | _ => VI 0
                          end)) l.

(* [T x;]: of the members only those of type Span get a value (include/silkit/util/Span.hpp 43, 140-141: null
   and empty).  Members with other initialisers are all written by the conversions without a condition *)
Definition spans (l : layout) : store :=
  flat_map (fun ft => match snd ft with TBytes => [(fst ft, VB false [])] | _ => [] end) l.

(* what a conversion does: ends, throws CapiBadParameterError, or reads uninitialised memory *)
Inductive outcome (A : Type) := Done (a : A) | Bad | Undef.
Arguments Done {A} a.
Arguments Bad {A}.
Arguments Undef {A}.

(* the value of a condition, if it can be read *)
Definition guard_holds (src : store) (g : guard) : option bool :=
  match g with
  | Always => Some true
  | VerGe h n => match get src h with Some (VI z) => Some (n <=? id_version z) | _ => None end
  | VerIn h l => match get src h with Some (VI z) => Some (existsb (Z.eqb (id_version z)) l) | _ => None end
  | NonZeroS f => match get src f with Some (VI z) => Some (negb (z =? 0)) | _ => None end
  end.

(* one statement; writing a field of the target that does not exist cannot happen in a program
   that compiles, and is Undef *)
Definition run_stmt (dl : layout) (src d : store) (s : stmt) : outcome store :=
  let bytes dst f (k : bool -> list N -> val) :=
    match get src f, get dl dst with
    | Some (VB nn bs), Some _ => Done ((dst, k nn bs) :: d)
    | _, _ => Undef
    end in
  match s with
  | Asg dst casts f =>
      match get src f, get dl dst with
      | Some (VI z), Some t => Done ((dst, VI (wrap t (fold_left (fun x c => wrap c x) casts z))) :: d)
      | _, _ => Undef
      end
  | AsgTrue dst f =>
      match get src f, get dl dst with
      | Some (VI z), Some _ => Done ((dst, VI (if z =? 1 then 1 else 0)) :: d)
      | _, _ => Undef
      end
  | Cpy dst f => bytes dst f (fun nn bs => VB nn bs)
  | CpyN dst f => bytes dst f (fun nn bs => VB nn (firstn (Z.to_nat (Z.of_nat (length bs) mod 2 ^ 32)) bs))
  | CpyE dst f => bytes dst f (fun nn bs => VB (match bs with [] => false | _ => nn end) bs)
  | ChkBool f => match get src f with
                 | Some (VI z) => if (z =? 0) || (z =? 1) then Done d else Bad
                 | _ => Undef
                 end
  | ChkPtr f => match get src f with
                | Some (VB nn _) => if nn then Done d else Bad
                | _ => Undef
                end
  end.

Fixpoint run_body (dl : layout) (src d : store) (b : list (guard * stmt)) : outcome store :=
  match b with
  | [] => Done d
  | (g, s) :: b' =>
      match guard_holds src g with
      | None => Undef
      | Some false => run_body dl src d b'
      | Some true => match run_stmt dl src d s with
                     | Done d' => run_body dl src d' b'
                     | Bad => Bad
                     | Undef => Undef
                     end
      end
  end.

Definition run_conv (c : conv) (src : store) : outcome store :=
  run_body (cv_dst c) src (cv_init c) (cv_body c).

(* the lists of structs that are part of a configuration are converted element by element:
   FlexrayController.hpp 150-166 and CapiFlexray.cpp 98-103 ([narrow]: the number of elements goes
   through a uint32_t), LinController.hpp 145-168 and CapiLin.cpp 34-43 (a size_t),
   HourglassConversions.hpp 256, 415, 427, 676, 825, 839 (as these).  The array of C structs, and the number of them given *)
Fixpoint run_all (c : conv) (l : list store) : outcome (list store) :=
  match l with
  | [] => Done []
  | s :: r => match run_conv c s, run_all c r with
              | Done d, Done ds => Done (d :: ds)
              | Bad, _ => Bad
              | Undef, _ => Undef
              | _, Bad => Bad
              | _, Undef => Undef
              end
  end.
Definition list_out (narrow : bool) (c : conv) (l : list store) : outcome (Z * list store) :=
  match run_all c l with
  | Done ds => Done (let n := Z.of_nat (length ds) in (if narrow then n mod 2 ^ 32 else n, ds))
  | Bad => Bad
  | Undef => Undef
  end.
(* reading more elements than the array has is undefined *)
Definition list_in (c : conv) (n : Z) (l : list store) : outcome (list store) :=
  if Z.of_nat (length l) <? n then Undef else run_all c (firstn (Z.to_nat n) l).

(* ------------------------------------------------------------------ *)
(** * Checks of the parameters of the functions of the C API *)

(* the kinds of parameters: a struct with a header, an object of the library, a pointer to be written,
   a string, a handler, the context of a handler (passed on), a plain header, a SilKit_ByteVector, a value *)
Inductive kind :=
| KStruct (name : string) | KObject | KOut | KString | KHandler | KContext | KHeader | KVector | KValue.

(* source/capi/CapiImpl.hpp 84-152: the macros; Some field: the argument of the macro is [parameter->field] *)
Inductive check :=
| CkPointer (p : string) (field : option string)
| CkOut (p : string) (field : option string)
| CkHandler (p : string) (field : option string)
| CkBool (p : string) (field : option string)
| CkHeader (p : string) (field : option string)
| CkPlain (p : string) (field : option string).

Record capi_function := { fn_name : string; fn_params : list (string * kind); fn_checks : list check }.

(* an argument: null, a pointer to a struct (its header, the fields that are pointers or booleans),
   a pointer to something else, or a value *)
Inductive arg :=
| ANull
| APtr
| AStruct (header : Z) (fields : list (string * arg))
| AVal (z : Z).

Definition args := list (string * arg).

(* the value of [p] or [p->field]; None: the expression dereferences a null pointer or is no member *)
Definition eval_arg (a : args) (p : string) (field : option string) : option arg :=
  match get a p, field with
  | Some v, None => Some v
  | Some (AStruct _ fs), Some f => get fs f
  | _, _ => None
  end.

Definition expr_text (p : string) (field : option string) : string :=
  match field with None => p | Some f => (p ++ "->" ++ f)%string end.

(* CapiImpl.hpp 84-152 with 160-188 for the headers: None passes, Some (Some text) throws
   CapiBadParameterError, Some None dereferences a null pointer *)
Definition run_check (a : args) (c : check) : option (option string) :=
  match c with
  | CkPointer p f =>
      match eval_arg a p f with
      | Some ANull => Some (Some ("Parameter '" ++ expr_text p f ++ "' must not be null.")%string)
      | Some _ => None
      | None => Some None
      end
  | CkOut p f =>
      match eval_arg a p f with
      | Some ANull => Some (Some ("Return parameter '" ++ expr_text p f ++ "' must not be null.")%string)
      | Some _ => None
      | None => Some None
      end
  | CkHandler p f =>
      match eval_arg a p f with
      | Some ANull => Some (Some "Handler function parameter must not be null.")
      | Some _ => None
      | None => Some None
      end
  | CkBool p f =>
      match eval_arg a p f with
      | Some (AVal z) =>
          if (z =? 1) || (z =? 0) then None
          else Some (Some ("The parameter '" ++ expr_text p f ++ "' is not a valid SilKit_Bool.")%string)
      | _ => Some None
      end
  | CkHeader p f =>
      match eval_arg a p f with
      | Some (AStruct h _) =>
          if id_valid h then None
          else Some (Some ("The parameter '" ++ expr_text p f
                           ++ "' has no valid SilKit_StructHeader. Check your library version")%string)
      | _ => Some None
      end
  | CkPlain p f =>
      match eval_arg a p f with
      | Some (AStruct h _) =>
          if id_valid h then None
          else Some (Some ("The parameter '" ++ expr_text p f ++ "' is not a valid SilKit_StructHeader.")%string)
      | _ => Some None
      end
  end.

(* the checks in order: the first that does not pass decides *)
Fixpoint run_checks (a : args) (cs : list check) : option (option string) :=
  match cs with
  | [] => None
  | c :: cs' => match run_check a c with None => run_checks a cs' | r => r end
  end.

(* the pointers in a struct that the functions given it follow without a condition:
   CapiLin.cpp 26-32 (response->frame), CapiFlexray.cpp 92-104 (clusterParams, nodeParams),
   TypeConversion.hpp 17-36 (the two names of a specification, as std::string of a null pointer is
   undefined), CapiOrchestration.cpp 692-712 (requiredParticipantNames), CapiNetworkSimulator.cpp
   (receivers).  The elements of lists (labels, frame responses, buffer configurations) are not
   modelled here. *)
Definition followed (struct : string) : list string :=
  if String.eqb struct "SilKit_LinFrameResponse" then ["frame"]
  else if String.eqb struct "SilKit_FlexrayControllerConfig" then ["clusterParams"; "nodeParams"]
  else if String.eqb struct "SilKit_DataSpec" then ["topic"; "mediaType"]
  else if String.eqb struct "SilKit_RpcSpec" then ["functionName"; "mediaType"]
  else if String.eqb struct "SilKit_WorkflowConfiguration" then ["requiredParticipantNames"]
  else [].

(* CapiParticipant.cpp 148: the only pointer that may be null other than contexts *)
Definition optional (fn p : string) : bool :=
  String.eqb fn "SilKit_ParticipantConfiguration_ToJson" && String.eqb p "outputString".

(* the pointers that the body of a function, or the handler it stores, follows *)
Definition needs (f : capi_function) : list (string * option string) :=
  flat_map (fun pk =>
    let '(p, k) := pk in
    if optional (fn_name f) p then []
    else match k with
         | KStruct s => (p, None) :: map (fun x => (p, Some x)) (followed s)
         | KObject | KOut | KString | KHandler | KHeader | KVector => [(p, None)]
         | KContext | KValue => []
         end) (fn_params f).

Definition is_null (a : args) (x : string * option string) : bool :=
  match eval_arg a (fst x) (snd x) with
  | Some ANull | None => true
  | _ => false
  end.

(* what the body does once the checks have passed: the call of the library below returns, with the
   return code it maps to, or throws *)
Inductive inner := IReturn | IThrow (e : exn).

(* the outcome of a function of the C API: a return code with the error string afterwards and whether
   the library below was called, or undefined behaviour *)
Inductive api_outcome := Ret (code : Z) (last : string) (called : bool) | ApiUB.

(* [try { checks; body; return SUCCESS } CAPI_CATCH_EXCEPTIONS] *)
Definition api_call (f : capi_function) (a : args) (i : inner) (last : string) : api_outcome :=
  match run_checks a (fn_checks f) with
  | Some None => ApiUB
  | Some (Some m) =>
      let '(rc, l) := catch_exceptions {| ex_class := EBadParameter; ex_what := m |} last in Ret rc l false
  | None =>
      if existsb (is_null a) (needs f) then ApiUB
      else match i with
           | IReturn => Ret SUCCESS last true
           | IThrow e => let '(rc, l) := catch_exceptions e last in Ret rc l true
           end
  end.

(* the arguments a caller can pass: one for each parameter, pointers to structs for the parameters that
   are structs or headers; a struct has the members its type has (those the functions follow or check) *)
Definition member (struct f : string) : option bool :=      (* Some true: a pointer; Some false: a boolean *)
  if existsb (String.eqb f) (followed struct) then Some true
  else if String.eqb struct "SilKit_FlexrayTxBufferConfig" && String.eqb f "hasPayloadPreambleIndicator" then Some false
  else if String.eqb struct "SilKit_FlexrayTxBufferUpdate" && String.eqb f "payloadDataValid" then Some false
  else None.

(* the structs that members point to have a header too *)
Definition member_ok (struct f : string) (v : arg) : Prop :=
  match member struct f with
  | Some true =>
      if String.eqb struct "SilKit_FlexrayControllerConfig"
      then v = ANull \/ exists h, v = AStruct h []
      else v = ANull \/ v = APtr
  | Some false => exists z, v = AVal z
  | None => True
  end.

Definition arg_ok (k : kind) (v : arg) : Prop :=
  match k with
  | KStruct s =>
      v = ANull \/
      exists h fs, v = AStruct h fs /\
        forall f b, member s f = Some b -> exists x, get fs f = Some x /\ member_ok s f x
  | KHeader => v = ANull \/ exists h, v = AStruct h []
  | KValue => exists z, v = AVal z
  | _ => v = ANull \/ v = APtr
  end.

Definition args_ok (f : capi_function) (a : args) : Prop :=
  forall p k, In (p, k) (fn_params f) -> exists v, get a p = Some v /\ arg_ok k v.

(* ------------------------------------------------------------------ *)
(** * Events given to the network simulation *)

(* source/capi/CapiNetworkSimulator.cpp 459-726: the four functions produce an event of the struct that
   belongs to the data type in the header; the service in the header is not looked at.  [cases]: the
   data types of the switch with the struct each is cast to.  None: nothing is produced, and the
   function succeeds *)
Definition produce_as (cases : list (Z * string)) (header : Z) : option string :=
  lookupZ (id_type header) cases.

(* ------------------------------------------------------------------ *)
(** * Ownership of the data of handlers in the C++ layer *)

(* A class of include/silkit/detail/impl/services with lists of handlers: for each list, which of its own
   maps of handler data the function that removes a handler erases from (None: it erases nothing) *)
Definition hclass := list (option nat).

(* CanController.hpp 197, 235, 273, 318 *)
Definition can_class : hclass := [Some 0; Some 1; Some 2; Some 3]%nat.
(* EthernetController.hpp 150, 192, 230, 268 *)
Definition ethernet_class : hclass := [Some 0; Some 1; Some 2; Some 3]%nat.
(* FlexrayController.hpp 267, 308, 347, 393, 432, 471, 509 *)
Definition flexray_class : hclass := [Some 0; Some 1; Some 2; Some 3; Some 4; Some 5; Some 6]%nat.
(* LinController.hpp 288 (frame status), 325 (go to sleep), 363 (wakeup), 479 (frame header), 403 (slave
   configuration: erases from the wakeup handlers) *)
Definition lin_class : hclass := [Some 0; Some 1; Some 2; Some 3; Some 2]%nat.
(* SystemMonitor.hpp 131, 180 *)
Definition monitor_class : hclass := [Some 0; Some 1]%nat.
(* TimeSyncService.hpp 170-178 *)
Definition timesync_class : hclass := [None].

(* the library below: for each list the registered handlers with their ids and contexts, and the next id
   (source/util/SynchronizedHandlers.hpp 22-34); the layer above: for each list the map from ids to the
   data owned.  [hs_fresh] numbers the allocations of handler data *)
Record hlist := { hl_inner : list (nat * nat); hl_next : nat; hl_owned : list (nat * nat) }.
Record hstate := { hs_lists : list hlist; hs_fresh : nat }.

Definition h0 : hlist := {| hl_inner := []; hl_next := 0; hl_owned := [] |}.
Definition hinit (c : hclass) : hstate := {| hs_lists := map (fun _ => h0) c; hs_fresh := 0 |}.

Fixpoint nlookup (k : nat) (l : list (nat * nat)) : option nat :=
  match l with
  | [] => None
  | (i, v) :: r => if Nat.eqb i k then Some v else nlookup k r
  end.
Definition nerase (k : nat) (l : list (nat * nat)) : list (nat * nat) :=
  filter (fun x => negb (Nat.eqb (fst x) k)) l.
(* std::unordered_map::emplace: nothing if the key is there (the data is then freed) *)
Definition nemplace (k v : nat) (l : list (nat * nat)) : list (nat * nat) :=
  match nlookup k l with Some _ => l | None => l ++ [(k, v)] end.

Fixpoint upd {A} (l : list A) (i : nat) (f : A -> A) : list A :=
  match l, i with
  | [], _ => []
  | x :: r, O => f x :: r
  | x :: r, S j => x :: upd r j f
  end.

(* what a user does: adds a handler to a list (the call of the library below may fail), removes a handler
   (which for an id that is not there does nothing below), or an event comes for a list *)
Inductive hop := HAdd (k : nat) (ok : bool) | HRemove (k id : nat) | HEvent (k : nat).

(* the data that is owned somewhere: the rest has been freed *)
Definition alive (s : hstate) (d : nat) : bool :=
  existsb (fun l => existsb (fun x => Nat.eqb (snd x) d) (hl_owned l)) (hs_lists s).

(* e.g. CanController.hpp 172-189: the data is allocated, its address registered, and on success moved
   into the map; 191-198: the handler is removed below, then erased *)
Definition hstep (c : hclass) (s : hstate) (o : hop) : hstate :=
  match o with
  | HAdd k ok =>
      if ok then
        {| hs_lists := upd (hs_lists s) k (fun l =>
             {| hl_inner := hl_inner l ++ [(hl_next l, hs_fresh s)];
                hl_next := S (hl_next l);
                hl_owned := nemplace (hl_next l) (hs_fresh s) (hl_owned l) |});
           hs_fresh := S (hs_fresh s) |}
      else {| hs_lists := hs_lists s; hs_fresh := S (hs_fresh s) |}
  | HRemove k id =>
      let l1 := upd (hs_lists s) k (fun l =>
        {| hl_inner := nerase id (hl_inner l); hl_next := hl_next l; hl_owned := hl_owned l |}) in
      {| hs_lists := match nth_error c k with
                     | Some (Some m) => upd l1 m (fun l =>
                         {| hl_inner := hl_inner l; hl_next := hl_next l; hl_owned := nerase id (hl_owned l) |})
                     | _ => l1
                     end;
         hs_fresh := hs_fresh s |}
  | HEvent _ => s
  end.
Definition hrun (c : hclass) (s : hstate) (os : list hop) : hstate := fold_left (hstep c) os s.

(* an event for list [k]: the contexts the C handlers are called with; each must point to live data *)
Definition contexts (s : hstate) (k : nat) : list nat :=
  match nth_error (hs_lists s) k with Some l => map snd (hl_inner l) | None => [] end.

(* the classes with a single handler that can be set: what is registered as the context.
   LifecycleService.hpp 114-226, SystemMonitor.hpp 228-268, TimeSyncService.hpp 88-127,
   DataSubscriber.hpp 93-104, RpcClient.hpp 115-126 register the address of the data;
   RpcServer.hpp 109-119 registers the address of the server itself *)
Inductive context := CData (d : nat) | CThis.
Record sstate := { ss_context : option context; ss_owned : option nat; ss_fresh : nat }.
Definition sinit : sstate := {| ss_context := None; ss_owned := None; ss_fresh := 0 |}.
(* constructors with a handler, RpcServer.hpp 74-95: the address of the data *)
Definition sconstruct (s : sstate) : sstate :=
  {| ss_context := Some (CData (ss_fresh s)); ss_owned := Some (ss_fresh s); ss_fresh := S (ss_fresh s) |}.
(* [this_as_context]: RpcServer; the set function below may fail: then the new data is freed *)
Definition sset (this_as_context : bool) (s : sstate) (ok : bool) : sstate :=
  if ok then
    {| ss_context := Some (if this_as_context then CThis else CData (ss_fresh s));
       ss_owned := Some (ss_fresh s); ss_fresh := S (ss_fresh s) |}
  else {| ss_context := ss_context s; ss_owned := ss_owned s; ss_fresh := S (ss_fresh s) |}.
(* what a call of the handler does: which data it uses, or undefined behaviour *)
Definition scall (s : sstate) : option (option nat) :=
  match ss_context s with
  | None => None
  | Some (CData d) => if match ss_owned s with Some o => Nat.eqb o d | None => false end then Some (Some d) else Some None
  | Some CThis => Some None
  end.
