(** Model of the LIN controller: SilKit/source/services/lin/LinController.{hpp,cpp}, SimBehavior{,Trivial,Detailed}.cpp.
    Timestamps, logging, tracing, the replay of recorded frames and the removal of handlers are left out; calls of user handlers are outputs. *)
From Coq Require Import NArith List Arith Bool Lia.
From Verif Require Import Base.
Import ListNotations.
Open Scope N_scope.

(** ** silkit/services/lin/LinDatatypes.hpp *)
Inductive csm := CsUnknown | CsEnhanced | CsClassic.
(** 63-69; ids and lengths are bytes *)
Record frame := mkF { f_id : N; f_csm : csm; f_len : N; f_data : list N }.
Definition frame0 (id : N) := mkF id CsUnknown 0 [0; 0; 0; 0; 0; 0; 0; 0].
Definition len_unknown : N := 255.
(** 308-316 *)
Definition sleep_frame := mkF 60 CsClassic 8 [0; 255; 255; 255; 255; 255; 255; 255].
Inductive rmode := RUnused | RRx | RTx.
Record response := mkR { r_frame : frame; r_mode : rmode }.
Definition response0 := mkR (frame0 0) RUnused.
Inductive rtype := MasterResponse | SlaveResponse | SlaveToSlave.
Inductive fstatus := NotOk | TxOk | TxBusy | TxHeaderError | TxError | RxOk | RxBusy | RxError | RxNoResponse.
Inductive cmode := Inactive | Master | Slave.
Inductive cstatus := StUnknown | StOperational | StSleep | StSleepPending.
Definition cmode_eqb a b := match a, b with Inactive, Inactive | Master, Master | Slave, Slave => true | _, _ => false end.
Definition cstatus_eqb a b :=
  match a, b with StUnknown, StUnknown | StOperational, StOperational | StSleep, StSleep | StSleepPending, StSleepPending => true | _, _ => false end.
Definition rmode_eqb a b := match a, b with RUnused, RUnused | RRx, RRx | RTx, RTx => true | _, _ => false end.
Definition csm_eqb a b := match a, b with CsUnknown, CsUnknown | CsEnhanced, CsEnhanced | CsClassic, CsClassic => true | _, _ => false end.

(** ** The messages: wire/lin/WireLinMessages.hpp *)
Inductive lmsg :=
| MConfig (m : cmode) (dyn : bool) (rs : list response)
| MResponses (rs : list response)
| MStatus (s : cstatus)
| MHeader (id : N)
| MTransmission (f : frame) (st : fstatus)
| MFrameRequest (f : frame) (t : rtype)   (* to the network simulator only *)
| MWakeup (tx : bool).
(** outputs: broadcast to the other controllers, sent to the network simulator, handlers called *)
Inductive lout :=
| OSend (m : lmsg) | OSim (m : lmsg)
| OFrameStatus (f : frame) (st : fstatus) | OGoToSleep | OWakeup (tx : bool) | OHeaderEvent (id : N) | OSlaveConfig.
(** [LUB]: an access outside of the response table *)
Inductive lres := LOk | LThrow | LUB.

(** ** State: LinController.hpp:124-134 LinNode, 207-243 *)
Record node := mkNode { nd_addr : N; nd_mode : cmode; nd_status : cstatus; nd_dyn : bool; nd_resp : list response }.
Definition node0 (a : N) := mkNode a Inactive StUnknown false (repeat response0 64).
(** [c_detailed]: a network simulator is in charge *)
Record ctrl := mkC { c_self : N; c_mode : cmode; c_status : cstatus; c_dynamic : bool; c_nodes : list node; c_slave_ids : list N; c_detailed : bool }.
Definition ctrl0 (a : N) := mkC a Inactive StUnknown false [] [] false.

(** ** Actions: state, outputs, outcome; an exception or an invalid access ends the call *)
Definition act := ctrl -> ctrl * list lout * lres.
Definition seq (a b : act) : act := fun c =>
  match a c with
  | (c1, o1, LOk) => match b c1 with (c2, o2, r) => (c2, o1 ++ o2, r) end
  | x => x
  end.
Notation "a ;; b" := (seq a b) (at level 70, right associativity).
Definition skip : act := fun c => (c, [], LOk).
Definition emit (o : lout) : act := fun c => (c, [o], LOk).
Definition throw : act := fun c => (c, [], LThrow).
Definition ub : act := fun c => (c, [], LUB).
Definition get (f : ctrl -> act) : act := fun c => f c c.
Definition modify (f : ctrl -> ctrl) : act := fun c => (f c, [], LOk).
(** core/vasio/SilKitLink.hpp:190-210 exceptions of receivers are logged *)
Definition catch (a : act) : act := fun c => match a c with (c1, o, LThrow) => (c1, o, LOk) | x => x end.

(** ** Node bookkeeping *)
(** LinController.cpp:714-726; a node looked up for the first time is inserted with default values, here it is only inserted when it is changed *)
Fixpoint find_node (a : N) (l : list node) : option node :=
  match l with [] => None | n :: r => if nd_addr n <? a then find_node a r else if nd_addr n =? a then Some n else None end.
Fixpoint put_node (x : node) (l : list node) : list node :=
  match l with
  | [] => [x]
  | n :: r => if nd_addr n <? nd_addr x then n :: put_node x r else if nd_addr n =? nd_addr x then x :: r else x :: n :: r
  end.
Definition get_node (a : N) (c : ctrl) : node := match find_node a (c_nodes c) with Some n => n | None => node0 a end.
Definition set_nodes (l : list node) (c : ctrl) : ctrl := mkC (c_self c) (c_mode c) (c_status c) (c_dynamic c) l (c_slave_ids c) (c_detailed c).
Definition set_node (x : node) (c : ctrl) : ctrl := set_nodes (put_node x (c_nodes c)) c.
Definition set_status (s : cstatus) (c : ctrl) : ctrl := mkC (c_self c) (c_mode c) s (c_dynamic c) (c_nodes c) (c_slave_ids c) (c_detailed c).
(** 709-712 *)
Definition this_node (c : ctrl) : node := get_node (c_self c) c.
Fixpoint set_nth {A} (i : nat) (x : A) (l : list A) : list A :=
  match l, i with [], _ => [] | _ :: r, O => x :: r | y :: r, S i => y :: set_nth i x r end.
(** 679-694 LinNode::UpdateResponses *)
Fixpoint update_responses (rs : list response) (tbl : list response) : list response :=
  match rs with
  | [] => tbl
  | r :: rs => update_responses rs (if N.of_nat (length tbl) <=? f_id (r_frame r) then tbl else set_nth (N.to_nat (f_id (r_frame r))) r tbl)
  end.
Definition node_responses (rs : list response) (n : node) : node := mkNode (nd_addr n) (nd_mode n) (nd_status n) (nd_dyn n) (update_responses rs (nd_resp n)).
(** operator[] of the table: [None] is outside *)
Definition resp_at (id : N) (n : node) : option response := if id <? 64 then nth_error (nd_resp n) (N.to_nat id) else None.
(** 605-610 *)
Definition has_responding_slave (id : N) (c : ctrl) : bool := existsb (fun x => x =? id) (c_slave_ids c).
(** 612-619 *)
Definition has_dynamic_node (c : ctrl) : bool := existsb nd_dyn (c_nodes c).
(** 621-633 *)
Definition add_slave_ids (rs : list response) (c : ctrl) : ctrl :=
  fold_left (fun c r => if rmode_eqb (r_mode r) RTx && negb (has_responding_slave (f_id (r_frame r)) c)
                        then mkC (c_self c) (c_mode c) (c_status c) (c_dynamic c) (c_nodes c) (c_slave_ids c ++ [f_id (r_frame r)]) (c_detailed c) else c) rs c.
(** 734-757 GetResponse: the number of answers and the last of them; [None]: invalid access *)
Fixpoint get_response (id : N) (l : list node) (acc : nat * frame) : option (nat * frame) :=
  match l with
  | [] => Some acc
  | n :: r =>
      if cmode_eqb (nd_mode n) Inactive || negb (cstatus_eqb (nd_status n) StOperational) then get_response id r acc
      else match resp_at id n with
           | None => None
           | Some x => get_response id r (if rmode_eqb (r_mode x) RTx then (S (fst acc), r_frame x) else acc)
           end
  end.

(** ** Sending; SimBehaviorTrivial.cpp and SimBehaviorDetailed.cpp *)
(** SimBehaviorTrivial.cpp:191-218; SimBehaviorDetailed.cpp:59-62 does nothing *)
Definition process_header (id : N) : act := get (fun c =>
  if c_detailed c then skip else
  match resp_at id (this_node c) with
  | None => ub
  | Some r =>
      if negb (rmode_eqb (r_mode r) RTx) then skip
      else if f_len (r_frame r) =? len_unknown then throw
      else emit (OSend (MTransmission (r_frame r) RxOk)) ;; emit (OFrameStatus (r_frame r) TxOk)
  end).
(** LinController.cpp:763-783; [allow]: AllowReception *)
Definition receive_header (allow : bool) (id : N) : act := get (fun c =>
  if negb allow then skip else if c_dynamic c then emit (OHeaderEvent id) else process_header id).
(** SimBehaviorTrivial.cpp:153-184 *)
Definition send_error_transmission (num : nat) (f : frame) : act :=
  let st := match num with O => RxNoResponse | S O => NotOk | _ => RxError end in
  emit (OSend (MTransmission f st)) ;;
  get (fun c => match resp_at (f_id f) (this_node c) with
                | None => ub
                | Some r => emit (OFrameStatus f (if rmode_eqb (r_mode r) RTx then TxError else st))
                end).
(** SimBehaviorTrivial.cpp:135-151; the header message is also delivered to the sender (SilKitMsgTraits.hpp:162). SimBehaviorDetailed.cpp:41-44 *)
Definition send_header (id : N) : act := get (fun c =>
  if c_detailed c then emit (OSim (MHeader id)) else
  match get_response id (c_nodes c) (O, frame0 id) with
  | None => ub
  | Some (num, f) =>
      if (num =? 1)%nat || ((num =? 0)%nat && has_dynamic_node c)
      then emit (OSend (MHeader id)) ;; catch (receive_header true id)
      else send_error_transmission num f
  end).
(** LinController.cpp:476-486 SendFrameHeader *)
Definition send_frame_header (id : N) : act := get (fun c =>
  if cstatus_eqb (c_status c) StUnknown then throw else if negb (cmode_eqb (c_mode c) Master) then throw else send_header id).
(** SimBehaviorTrivial.cpp:90-101; SimBehaviorDetailed.cpp:33-36 *)
Definition send_request (f : frame) (t : rtype) : act := get (fun c =>
  if c_detailed c then emit (OSim (MFrameRequest f t))
  else match c_status c with StSleep | StUnknown => skip | _ => send_frame_header (f_id f) end).
(** SimBehaviorTrivial.cpp:117-133; SimBehaviorDetailed.cpp:46-53 *)
Definition send_if_slave (m : lmsg) : act := get (fun c =>
  if c_detailed c then emit (OSend m) else if cmode_eqb (c_mode c) Slave then emit (OSend m) else skip).
(** LinController.cpp:539-548 UpdateFrameResponse *)
Definition update_frame_response (r : response) : act :=
  modify (fun c => set_node (node_responses [r] (this_node c)) c) ;; send_if_slave (MResponses [r]).
(** 635-649; SimBehaviorTrivial.cpp:186-189, SimBehaviorDetailed.cpp:54-57 *)
Definition set_controller_status (s : cstatus) : act := modify (set_status s) ;; emit (OSend (MStatus s)).

(** ** API *)
(** 124-148 *)
Definition if_uninit (a : act) : act := get (fun c => if cstatus_eqb (c_status c) StUnknown then throw else a).
Definition if_master (a : act) : act := get (fun c => if cmode_eqb (c_mode c) Master then a else throw).
(** 150-160 *)
Definition if_not_dynamic (a : act) : act := get (fun c => if c_dynamic c then throw else a).
(** 326-347 *)
Definition init_ctrl (m : cmode) (rs : list response) : act := get (fun c =>
  if cmode_eqb m Inactive then throw else if negb (cstatus_eqb (c_status c) StUnknown) then throw else
  let n := this_node c in
  modify (fun c => let c := set_node (node_responses rs (mkNode (nd_addr n) m StOperational (nd_dyn n) (nd_resp n))) c in
                   mkC (c_self c) m StOperational (c_dynamic c) (c_nodes c) (c_slave_ids c) (c_detailed c)) ;;
  send_if_slave (MConfig m false rs)).
(** 349-371 *)
Definition init_dynamic (m : cmode) : act := get (fun c =>
  if cmode_eqb m Inactive then throw else if negb (cstatus_eqb (c_status c) StUnknown) then throw else
  let n := this_node c in
  modify (fun c => let c := set_node (mkNode (nd_addr n) m StOperational true (nd_resp n)) c in
                   mkC (c_self c) m StOperational true (c_nodes c) (c_slave_ids c) (c_detailed c)) ;;
  send_if_slave (MConfig m true [])).
(** 373-393, with ThrowIfNotDynamic 162-172, which throws iff the controller is dynamic *)
Definition send_dynamic_response (f : frame) : act := get (fun c =>
  (if negb (c_dynamic c) then (if c_dynamic c then throw else skip) else skip) ;;
  update_frame_response (mkR f RTx) ;; process_header (f_id f)).
(** 405-454 *)
Definition send_frame_internal (f : frame) (t : rtype) : act :=
  match t with
  | MasterResponse => update_frame_response (mkR f RTx) ;; send_request f t
  | _ => get (fun c =>
      if negb (has_responding_slave (f_id f) c) && negb (has_dynamic_node c) then emit (OFrameStatus f RxNoResponse)
      else match t with
           | SlaveResponse =>
               match resp_at (f_id f) (this_node c) with
               | None => ub
               | Some r =>
                   match r_mode r with
                   | RUnused => update_frame_response (mkR f RRx) ;; send_request f t
                   | RTx => skip
                   | RRx => send_request f t
                   end
               end
           | _ => emit (OFrameStatus f TxOk) ;; send_request f t
           end)
  end.
(** 456-474, without replay *)
Definition send_frame (f : frame) (t : rtype) : act := if_uninit (if_master (if_not_dynamic (send_frame_internal f t))).
Definition set_data (d : list N) (r : response) : response := mkR (mkF (f_id (r_frame r)) (f_csm (r_frame r)) (f_len (r_frame r)) d) (r_mode r).
(** 488-500, 174-186, 696-707; SimBehaviorDetailed.cpp:64-72 *)
Definition update_tx_buffer (f : frame) : act := if_uninit (if_not_dynamic (get (fun c =>
  match resp_at (f_id f) (this_node c) with
  | None => ub
  | Some r =>
      if negb (rmode_eqb (r_mode r) RTx) then throw else
      let n := this_node c in
      modify (set_node (mkNode (nd_addr n) (nd_mode n) (nd_status n) (nd_dyn n) (set_nth (N.to_nat (f_id f)) (set_data (f_data f) r) (nd_resp n)))) ;;
      (if c_detailed c then emit (OSend (MResponses [mkR f RTx])) else skip)
  end))).
(** 502-537, without replay *)
Definition set_frame_response (r : response) : act := if_uninit (if_not_dynamic (get (fun c =>
  if 64 <=? f_id (r_frame r) then skip else
  if rmode_eqb (r_mode r) RUnused then skip else
  match resp_at (f_id (r_frame r)) (this_node c) with
  | None => ub
  | Some cur => if negb (rmode_eqb (r_mode cur) RUnused) then skip else update_frame_response r
  end))).
(** 571-576 *)
Definition go_to_sleep_internal : act := if_uninit (set_controller_status StSleep).
(** 550-569; SimBehaviorTrivial.cpp:275-291, SimBehaviorDetailed.cpp:74-88 *)
Definition go_to_sleep : act := if_uninit (if_master (get (fun c =>
  if c_detailed c then emit (OSim (MFrameRequest sleep_frame MasterResponse)) ;; set_controller_status StSleepPending
  else emit (OSend (MTransmission sleep_frame RxOk)) ;; emit (OFrameStatus sleep_frame TxOk) ;; go_to_sleep_internal))).
(** 587-592 *)
Definition wakeup_internal : act := if_uninit (set_controller_status StOperational).
(** 578-585; SimBehaviorTrivial.cpp:293-302, SimBehaviorDetailed.cpp:90-96 *)
Definition wakeup : act := if_uninit (get (fun c =>
  if c_detailed c then emit (OSim (MWakeup false)) ;; wakeup_internal
  else emit (OSend (MWakeup false)) ;; emit (OWakeup true) ;; wakeup_internal)).

(** ** Reception *)
(** SimBehaviorTrivial.cpp:15-30 *)
Definition to_tx (s : fstatus) : fstatus := match s with RxBusy => TxBusy | RxError => TxError | RxOk => TxOk | _ => s end.
(** SimBehaviorTrivial.cpp:225-272; SimBehaviorDetailed.cpp:98-119; [None]: invalid access *)
Definition calc_status (f : frame) (st : fstatus) (is_sleep : bool) (c : ctrl) : option fstatus :=
  let n := this_node c in
  if nd_dyn n then Some st else
  if c_detailed c then
    match is_sleep, st with
    | true, RxOk => match resp_at (f_id f) n with None => None | Some r => Some (if rmode_eqb (r_mode r) RRx then st else RxNoResponse) end
    | _, _ => Some st
    end
  else
    match resp_at (f_id f) n with
    | None => None
    | Some r =>
        Some match r_mode r with
             | RUnused => NotOk
             | RRx => if negb (f_len (r_frame r) =? len_unknown) && negb (f_len (r_frame r) =? f_len f) then RxError
                      else if negb (csm_eqb (f_csm f) CsUnknown) && negb (csm_eqb (f_csm (r_frame r)) CsUnknown) && negb (csm_eqb (f_csm (r_frame r)) (f_csm f)) then RxError
                      else st
             | RTx => to_tx st
             end
    end.
Definition list_eqb (a b : list N) : bool := (length a =? length b)%nat && forallb (fun p => fst p =? snd p) (combine a b).
(** LinController.cpp:785-851 *)
Definition receive_transmission (allow : bool) (f : frame) (st : fstatus) : act := get (fun c =>
  if negb allow then skip else
  if cmode_eqb (c_mode c) Inactive then skip else
  match c_status c with StSleep | StUnknown => skip | _ =>
  let is_sleep := (f_id f =? f_id sleep_frame) && list_eqb (f_data f) (f_data sleep_frame) in
  if negb (f_len f =? len_unknown) && (8 <? f_len f) then skip else
  if 64 <=? f_id f then skip else
  match calc_status f st is_sleep c with
  | None => ub
  | Some s =>
      (match s with NotOk => skip | _ => emit (OFrameStatus f s) end) ;;
      (if is_sleep then
         match c_mode c with
         | Slave => emit OGoToSleep
         | Master => get (fun c => if cstatus_eqb (c_status c) StSleepPending then modify (set_status StSleep) else skip)
         | Inactive => skip
         end
       else skip)
  end end).
(** 651-673 HandleResponsesUpdate *)
Definition handle_responses (from : N) (rs : list response) : act := get (fun c =>
  let n := node_responses rs (get_node from c) in
  modify (set_node n) ;;
  (if cmode_eqb (nd_mode n) Slave then modify (add_slave_ids rs) else skip) ;;
  emit OSlaveConfig).
(** 853-895, AllowReception: SimBehaviorDetailed.cpp:121-129. [from]: the sending controller; [sim]: the message comes from the network simulator on behalf of this controller *)
Definition receive (from : N) (sim : bool) (m : lmsg) : act := get (fun c =>
  let allow := if c_detailed c then sim else true in
  match m with
  | MHeader id => receive_header allow id
  | MTransmission f st => receive_transmission allow f st
  | MWakeup tx => if allow then emit (OWakeup tx) else skip
  | MResponses rs => if from =? c_self c then skip else handle_responses from rs
  | MConfig m d rs =>
      if from =? c_self c then skip else
      let n := get_node from c in
      modify (set_node (mkNode (nd_addr n) m StOperational d (nd_resp n))) ;; handle_responses from rs
  | MStatus s =>
      let n := get_node from c in
      modify (set_node (mkNode (nd_addr n) (nd_mode n) s (nd_dyn n) (nd_resp n)))
  | MFrameRequest _ _ => skip
  end).

(** ** Histories of one controller *)
Inductive lop :=
| LInit (m : cmode) (rs : list response) | LInitDynamic (m : cmode)
| LSendFrame (f : frame) (t : rtype) | LSendHeader (id : N) | LDynamicResponse (f : frame)
| LUpdateTx (f : frame) | LSetResponse (r : response) | LGoToSleep | LGoToSleepInternal | LWakeup | LWakeupInternal
| LReceive (from : N) (sim : bool) (m : lmsg)
| LSimulator (on : bool).   (* 60-91 the network simulator appears or leaves *)
Definition cexec (o : lop) : act :=
  match o with
  | LInit m rs => init_ctrl m rs | LInitDynamic m => init_dynamic m
  | LSendFrame f t => send_frame f t | LSendHeader id => send_frame_header id | LDynamicResponse f => send_dynamic_response f
  | LUpdateTx f => update_tx_buffer f | LSetResponse r => set_frame_response r
  | LGoToSleep => go_to_sleep | LGoToSleepInternal => go_to_sleep_internal | LWakeup => wakeup | LWakeupInternal => wakeup_internal
  | LReceive from sim m => catch (receive from sim m)
  | LSimulator on => modify (fun c => mkC (c_self c) (c_mode c) (c_status c) (c_dynamic c) (c_nodes c) (c_slave_ids c) on)
  end.
(** exceptions of API calls reach the user, who may go on; [None]: an invalid access happened *)
Fixpoint crun (l : list lop) (c : ctrl) : option (ctrl * list (list lout)) :=
  match l with
  | [] => Some (c, [])
  | o :: l => match cexec o c with
              | (_, _, LUB) => None
              | (c1, o1, _) => match crun l c1 with None => None | Some (c2, os) => Some (c2, o1 :: os) end
              end
  end.

(** ** A network of controllers without network simulator
    One controller per participant, messages are queued per sender and receiver. A controller that joins later receives the last
    configuration message of each other one (SilKitMsgTraits.hpp:158, history of length 1). *)
Record lnet := mkLN { ln_size : nat; ln_c : nat -> ctrl; ln_q : nat -> nat -> list lmsg; ln_hist : nat -> option lmsg }.
Definition lnet0 (n : nat) : lnet := mkLN n (fun i => ctrl0 (N.of_nat i)) (fun _ _ => []) (fun _ => None).
Definition fupd {A} (f : nat -> A) (i : nat) (x : A) : nat -> A := fun j => if (j =? i)%nat then x else f j.
Definition sent (o : list lout) : list lmsg := flat_map (fun x => match x with OSend m => [m] | _ => [] end) o.
Definition last_config (ms : list lmsg) (h : option lmsg) : option lmsg := fold_left (fun h m => match m with MConfig _ _ _ => Some m | _ => h end) ms h.
(** the controller [i] has produced outputs and messages *)
Definition lnet_after (i : nat) (c : ctrl) (o : list lout) (q : nat -> nat -> list lmsg) (s : lnet) : lnet :=
  mkLN (ln_size s) (fupd (ln_c s) i c)
       (fun a b => if (a =? i)%nat && negb (b =? i)%nat && (b <? ln_size s)%nat then q a b ++ sent o else q a b)
       (fupd (ln_hist s) i (last_config (sent o) (ln_hist s i))).
Inductive lnop := NApi (i : nat) (o : lop) | NDeliver (i j : nat) | NJoin.
(** [None]: an invalid access; the outputs carry the controller that produced them *)
Definition lnstep (o : lnop) (s : lnet) : option (lnet * list (nat * lout)) :=
  match o with
  | NApi i op =>
      match op with LReceive _ _ _ | LSimulator _ => Some (s, []) | _ =>
      if (i <? ln_size s)%nat then
        match cexec op (ln_c s i) with
        | (_, _, LUB) => None
        | (c, out, _) => Some (lnet_after i c out (ln_q s) s, map (pair i) out)
        end
      else Some (s, []) end
  | NDeliver i j =>
      match ln_q s i j with
      | [] => Some (s, [])
      | m :: r =>
          if (j <? ln_size s)%nat then
            match cexec (LReceive (N.of_nat i) false m) (ln_c s j) with
            | (_, _, LUB) => None
            | (c, out, _) => Some (lnet_after j c out (fun a b => if (a =? i)%nat && (b =? j)%nat then r else ln_q s a b) s, map (pair j) out)
            end
          else Some (s, [])
      end
  | NJoin =>
      let k := ln_size s in
      Some (mkLN (S k) (fupd (ln_c s) k (ctrl0 (N.of_nat k)))
                 (fun a b => if (b =? k)%nat && (a <? k)%nat then match ln_hist s a with Some m => [m] | None => [] end else ln_q s a b) (ln_hist s), [])
  end.
Fixpoint lnrun (l : list lnop) (s : lnet) : option (lnet * list (nat * lout)) :=
  match l with
  | [] => Some (s, [])
  | o :: l => match lnstep o s with
              | None => None
              | Some (s1, o1) => match lnrun l s1 with None => None | Some (s2, o2) => Some (s2, o1 ++ o2) end
              end
  end.
