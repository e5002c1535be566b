(** Model of the sending half of a peer: S/core/vasio/VAsioPeer.cpp, S/core/vasio/AggregationMessageTraits.hpp, the
    write operations of S/core/vasio/io/impl/AsioGenericRawByteStream.cpp and the flush timer of
    S/core/vasio/io/impl/AsioTimer.cpp (S = /repo/SilKit/source). Logging is left out, metrics are in PeerMetricsModel.v. Every event below is
    taken as atomic: the aggregation buffer is used by the sending threads and by the timer on the I/O thread without a
    lock, data races on it are outside the model. *)
From Coq Require Import List NArith Arith Bool.
From Verif Require Import Base.
Import ListNotations.

(** S/core/vasio/VAsioDatatypes.hpp MessageAggregationKind. *)
Inductive akind := KUser | KFlush | KOther.

(** AggregationMessageTraits.hpp 19-67: the aggregation kind by message type. Types that have no specialisation are
    [TOther]. *)
Inductive mtype := TNextSimTask | TParticipantStatus | TDataMessage | TFunctionCall | TFunctionCallResponse
                 | TCanFrame | TEthernetFrame | TOther.
Definition aggregation_kind (t : mtype) : akind :=
  match t with
  | TNextSimTask | TParticipantStatus => KFlush
  | TDataMessage | TFunctionCall | TFunctionCallResponse | TCanFrame | TEthernetFrame => KUser
  | TOther => KOther
  end.

(** VAsioPeer.hpp 112-140. [t_cur] is [_currentSendingBuffer]; [t_writing] and [t_pending] are the stream's [_writing]
    and [_shutdownPending]; [t_wire] are the bytes handed to the operating system so far; [t_disp] counts the
    StartAsyncWrite calls posted to the I/O context that have not run; [t_armed] says whether the flush timer is
    waiting. *)
Record tx := mkTx { t_useagg : bool; t_started : bool; t_armed : bool; t_agg : list N; t_queue : list (list N);
  t_sending : bool; t_cur : list N; t_down : bool; t_writing : bool; t_pending : bool; t_wire : list N; t_disp : nat }.
Definition tx_new : tx := mkTx false false false [] [] false [] false false false [] 0.

(** 100 * 1000, VAsioPeer.hpp 134. The model takes the threshold as a parameter. *)
Definition aggregation_threshold : nat := N.to_nat 100000.

(** VAsioPeer.cpp 123-138. The dispatched call runs later (if the caller is the I/O thread: immediately afterwards). *)
Definition send_internal (blob : list N) (s : tx) : tx :=
  if t_down s then s else
  mkTx (t_useagg s) (t_started s) (t_armed s) (t_agg s) (t_queue s ++ [blob]) (t_sending s) (t_cur s) (t_down s)
       (t_writing s) (t_pending s) (t_wire s) (S (t_disp s)).

(** AsioTimer.cpp 36-58: AsyncWaitFor cancels a wait in progress and starts a new one. *)
Definition arm (s : tx) : tx :=
  mkTx (t_useagg s) (t_started s) true (t_agg s) (t_queue s) (t_sending s) (t_cur s) (t_down s) (t_writing s)
       (t_pending s) (t_wire s) (t_disp s).

(** VAsioPeer.cpp 164-172. *)
Definition flush (s : tx) : tx :=
  let blob := t_agg s in
  arm (send_internal blob
    (mkTx (t_useagg s) (t_started s) (t_armed s) [] (t_queue s) (t_sending s) (t_cur s) (t_down s) (t_writing s)
          (t_pending s) (t_wire s) (t_disp s))).

(** VAsioPeer.cpp 140-162. *)
Definition aggregate (thr : nat) (blob : list N) (s : tx) : tx :=
  let s1 := if t_started s then s
            else let s' := arm s in
                 mkTx (t_useagg s') true (t_armed s') (t_agg s') (t_queue s') (t_sending s') (t_cur s') (t_down s')
                      (t_writing s') (t_pending s') (t_wire s') (t_disp s') in
  let s2 := mkTx (t_useagg s1) (t_started s1) (t_armed s1) (t_agg s1 ++ blob) (t_queue s1) (t_sending s1) (t_cur s1)
                 (t_down s1) (t_writing s1) (t_pending s1) (t_wire s1) (t_disp s1) in
  if thr <? length (t_agg s2) then flush s2 else s2.

(** VAsioPeer.cpp 101-121. *)
Definition send (thr : nat) (k : akind) (blob : list N) (s : tx) : tx :=
  if t_useagg s then
    match k with
    | KUser => aggregate thr blob s
    | KFlush => flush (aggregate thr blob s)
    | KOther => send_internal blob s
    end
  else send_internal blob s.

(** VAsioPeer.cpp 195-198, AsioGenericRawByteStream.cpp 130-160. *)
Definition write_some (s : tx) : res tx :=
  if t_pending s then Ok s else
  if t_writing s then Exn else
  Ok (mkTx (t_useagg s) (t_started s) (t_armed s) (t_agg s) (t_queue s) (t_sending s) (t_cur s) (t_down s) true
           (t_pending s) (t_wire s) (t_disp s)).

(** VAsioPeer.cpp 174-193. *)
Definition start_write (s : tx) : res tx :=
  if t_sending s then Ok s else
  match t_queue s with
  | [] => Ok s
  | b :: q => write_some (mkTx (t_useagg s) (t_started s) (t_armed s) (t_agg s) q true b (t_down s) (t_writing s)
                               (t_pending s) (t_wire s) (t_disp s))
  end.

Inductive txev :=
| ESend (k : akind) (blob : list N)  (* a call of SendSilKitMsg *)
| ETimer                             (* the flush timer expires *)
| EDispatch                          (* a posted StartAsyncWrite runs *)
| EWrote (n : nat)                   (* the outstanding write completes, at most n bytes were taken *)
| EEnable                            (* EnableAggregation *)
| EShut                              (* Shutdown *)
| EFail.                             (* the socket fails *)

Definition tx_step (thr : nat) (e : txev) (s : tx) : res tx :=
  match e with
  | ESend k blob => Ok (send thr k blob s)
  | ETimer =>  (* AsioTimer.cpp 67-83, VAsioPeer.cpp 336-351 *)
      if t_armed s then
        let s' := mkTx (t_useagg s) (t_started s) false (t_agg s) (t_queue s) (t_sending s) (t_cur s) (t_down s)
                       (t_writing s) (t_pending s) (t_wire s) (t_disp s) in
        Ok (match t_agg s' with [] => s' | _ => flush s' end)
      else Ok s
  | EDispatch =>
      match t_disp s with
      | O => Ok s
      | S d => start_write (mkTx (t_useagg s) (t_started s) (t_armed s) (t_agg s) (t_queue s) (t_sending s) (t_cur s)
                                 (t_down s) (t_writing s) (t_pending s) (t_wire s) d)
      end
  | EWrote n =>  (* AsioGenericRawByteStream.cpp 213-245, VAsioPeer.cpp 311-325 *)
      if negb (t_writing s) then Ok s else
      if t_pending s
      then Ok (mkTx (t_useagg s) (t_started s) (t_armed s) (t_agg s) (t_queue s) (t_sending s) (t_cur s) (t_down s)
                    false true (t_wire s) (t_disp s))
      else
        let sent := firstn n (t_cur s) in
        let s' := mkTx (t_useagg s) (t_started s) (t_armed s) (t_agg s) (t_queue s) (t_sending s)
                       (skipn n (t_cur s)) (t_down s) false (t_pending s) (t_wire s ++ sent) (t_disp s) in
        if length sent <? length (t_cur s) then write_some s'
        else start_write (mkTx (t_useagg s') (t_started s') (t_armed s') (t_agg s') (t_queue s') false (t_cur s')
                               (t_down s') (t_writing s') (t_pending s') (t_wire s') (t_disp s'))
  | EEnable =>  (* VAsioPeer.cpp 353-361 *)
      Ok (mkTx true (t_started s) (t_armed s) (t_agg s) (t_queue s) (t_sending s) (t_cur s) (t_down s) (t_writing s)
               (t_pending s) (t_wire s) (t_disp s))
  | EShut =>  (* VAsioPeer.cpp 55-66: the queue is cleared, the timer cancelled *)
      Ok (mkTx (t_useagg s) (t_started s) false (t_agg s) [] (t_sending s) (t_cur s) true (t_writing s) true (t_wire s)
               (t_disp s))
  | EFail =>  (* AsioGenericRawByteStream.cpp 248-279 *)
      Ok (mkTx (t_useagg s) (t_started s) (t_armed s) (t_agg s) (t_queue s) (t_sending s) (t_cur s) (t_down s) false true
               (t_wire s) (t_disp s))
  end.
Fixpoint tx_run (thr : nat) (l : list txev) (s : tx) : res tx :=
  match l with
  | [] => Ok s
  | e :: r => bind (tx_step thr e s) (fun s' => tx_run thr r s')
  end.
