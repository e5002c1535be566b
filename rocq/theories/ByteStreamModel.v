(** Model of S/core/vasio/io/impl/AsioGenericRawByteStream.cpp (S = /repo/SilKit/source): the flags, the operations
    handed to asio and the calls to the listener. Each method holds the mutex; a method is one event. Buffers are left
    out (see PeerRecvModel.v and PeerSendModel.v). *)
From Coq Require Import List Arith Bool.
From Verif Require Import Base.
Import ListNotations.

(** AsioGenericRawByteStream.hpp: [_reading], [_writing], [_shutdownPending], [_shutdownPosted]. [s_aread] and
    [s_awrite] count the operations asio is holding; their handlers capture [this]. [s_calls] are the calls to the
    listener, newest first; OnShutdown is counted when it is posted. *)
Inductive call := CReadDone | CWriteDone | CShutdown.
Record bs := mkBs { s_reading : bool; s_writing : bool; s_pending : bool; s_posted : bool; s_closed : bool;
                    s_aread : nat; s_awrite : nat; s_calls : list call }.
Definition bs_new : bs := mkBs false false false false false 0 0 [].

(** Lines 248-279. *)
Definition handle_shutdown (s : bs) : bs :=
  let s1 := if s_pending s then s
            else mkBs (s_reading s) (s_writing s) true (s_posted s) true (s_aread s) (s_awrite s) (s_calls s) in
  if s_reading s1 || s_writing s1 then s1 else
  if s_posted s1 then s1
  else mkBs (s_reading s1) (s_writing s1) (s_pending s1) true (s_closed s1) (s_aread s1) (s_awrite s1)
            (CShutdown :: s_calls s1).

(** How an operation of asio ends: without an error, with an error of IsErrorToTryAgain (lines 40-47) after having
    transferred bytes or not, or with another error (this includes the abort after close). *)
Inductive result := ROk | RAgain (bytes : bool) | RErr.
Inductive bev := BRead | BWrite | BShutdown | BReadDone (r : result) | BWriteDone (r : result).

(** Lines 97-127. *)
Definition async_read (s : bs) : res bs :=
  if s_pending s then Ok s else
  if s_reading s then Exn else
  Ok (mkBs true (s_writing s) (s_pending s) (s_posted s) (s_closed s) (S (s_aread s)) (s_awrite s) (s_calls s)).
(** Lines 130-160. *)
Definition async_write (s : bs) : res bs :=
  if s_pending s then Ok s else
  if s_writing s then Exn else
  Ok (mkBs (s_reading s) true (s_pending s) (s_posted s) (s_closed s) (s_aread s) (S (s_awrite s)) (s_calls s)).
(** Lines 174-211; asio has taken the operation off its list. *)
Definition read_done (r : result) (s : bs) : res bs :=
  let s := mkBs (s_reading s) (s_writing s) (s_pending s) (s_posted s) (s_closed s) (s_aread s - 1) (s_awrite s) (s_calls s) in
  if negb (s_reading s) then Exn else
  let s1 := mkBs false (s_writing s) (s_pending s) (s_posted s) (s_closed s) (s_aread s) (s_awrite s) (s_calls s) in
  if s_pending s1 then Ok (handle_shutdown s1) else
  match r with
  | RErr => Ok (handle_shutdown s1)
  | RAgain false => Ok (mkBs true (s_writing s1) (s_pending s1) (s_posted s1) (s_closed s1) (S (s_aread s1)) (s_awrite s1) (s_calls s1))
  | _ => Ok (mkBs (s_reading s1) (s_writing s1) (s_pending s1) (s_posted s1) (s_closed s1) (s_aread s1) (s_awrite s1)
                  (CReadDone :: s_calls s1))
  end.
(** Lines 213-245. *)
Definition write_done (r : result) (s : bs) : res bs :=
  let s := mkBs (s_reading s) (s_writing s) (s_pending s) (s_posted s) (s_closed s) (s_aread s) (s_awrite s - 1) (s_calls s) in
  if negb (s_writing s) then Exn else
  let s1 := mkBs (s_reading s) false (s_pending s) (s_posted s) (s_closed s) (s_aread s) (s_awrite s) (s_calls s) in
  if s_pending s1 then Ok (handle_shutdown s1) else
  match r with
  | RErr => Ok (handle_shutdown s1)
  | RAgain false => Ok (mkBs (s_reading s1) true (s_pending s1) (s_posted s1) (s_closed s1) (s_aread s1) (S (s_awrite s1)) (s_calls s1))
  | _ => Ok (mkBs (s_reading s1) (s_writing s1) (s_pending s1) (s_posted s1) (s_closed s1) (s_aread s1) (s_awrite s1)
                  (CWriteDone :: s_calls s1))
  end.

(** asio completes only operations it holds. *)
Definition bs_step (e : bev) (s : bs) : res bs :=
  match e with
  | BRead => async_read s
  | BWrite => async_write s
  | BShutdown => Ok (handle_shutdown s)
  | BReadDone r => if s_aread s =? 0 then Ok s else read_done r s
  | BWriteDone r => if s_awrite s =? 0 then Ok s else write_done r s
  end.
(** A caller's BRead/BWrite that throws InvalidStateError leaves the stream unchanged. An exception in a completion
    handler would leave the I/O thread: [Exn] stays. *)
Fixpoint bs_run (l : list bev) (s : bs) : res bs :=
  match l with
  | [] => Ok s
  | e :: r => match bs_step e s, e with
              | Ok s', _ => bs_run r s'
              | Exn, BRead | Exn, BWrite => bs_run r s
              | x, _ => x
              end
  end.
