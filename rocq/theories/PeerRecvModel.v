(** Model of the receiving half of a peer: S/core/vasio/VAsioPeer.cpp (S = /repo/SilKit/source) together with the read
    operations of S/core/vasio/io/impl/AsioGenericRawByteStream.cpp. Metrics, logging and the write operations are left
    out (the write operations are in PeerSendModel.v, the stream as a whole in ByteStreamModel.v). *)
From Coq Require Import List NArith Arith Bool.
From Verif Require Import Base MessageBufferModel RingBufferModel.
Import ListNotations.

(** VAsioPeer.hpp 108-131 [_msgBuffer], [_currentMsgSize], [_isShuttingDown]; AsioGenericRawByteStream.hpp [_reading],
    [_shutdownPending]. [rx_out] records what was handed to IVAsioPeerListener::OnSocketData, oldest first. *)
Record rx := mkRx { rx_ring : ring; rx_cur : N; rx_down : bool; rx_reading : bool; rx_pending : bool;
                    rx_out : list (list N) }.

(** What the listener does with a message: return, throw, or shut the peer down and return. It may depend on all
    messages before. *)
Inductive verdict := VOk | VThrow | VShutdown.
Definition listener := list (list N) -> list N -> verdict.

(** 1024 * 1024 * 1024, VAsioPeer.cpp 253. *)
Definition max_msg : N := 1073741824.

(** VAsioPeer.cpp 55-66 and AsioGenericRawByteStream.cpp 164-172, 248-279: the flags only. *)
Definition rx_shutdown (s : rx) : rx :=
  mkRx (rx_ring s) (rx_cur s) true (rx_reading s) true (rx_out s).

(** VAsioPeer.cpp 216-224 (the assertion throws) and AsioGenericRawByteStream.cpp 97-127. *)
Definition read_some (s : rx) : res rx :=
  if rb_cap (rx_ring s) - rb_size (rx_ring s) =? 0 then Exn else
  if rx_pending s then Ok s else
  if rx_reading s then Exn else
  Ok (mkRx (rx_ring s) (rx_cur s) (rx_down s) true (rx_pending s) (rx_out s)).

(** VAsioPeer.cpp 37-40, 209-214. *)
Definition rx_start (cap : nat) : res rx := read_some (mkRx (ring_new cap) 0 false false false []).

(** VAsioPeer.cpp 252-293: the loop body once [_currentMsgSize] is known. The boolean says whether the loop goes on.
    If the listener throws, the exception leaves DispatchBuffer: [_currentMsgSize] is not reset and no read is
    started. *)
Definition dispatch_sized (hd : listener) (s : rx) : res (rx * bool) :=
  if (rx_cur s =? 0)%N || (max_msg <? rx_cur s)%N then Ok (rx_shutdown s, false) else
  if (N.of_nat (rb_size (rx_ring s)) <? rx_cur s)%N then
    bind (if (N.of_nat (rb_cap (rx_ring s)) <? rx_cur s)%N then reserve (N.to_nat (rx_cur s)) (rx_ring s)
          else Ok (rx_ring s)) (fun b =>
    bind (read_some (mkRx b (rx_cur s) (rx_down s) (rx_reading s) (rx_pending s) (rx_out s))) (fun s' =>
    Ok (s', false)))
  else
    bind (read (N.to_nat (rx_cur s)) (rx_ring s)) (fun ob =>
    match fst ob with
    | None => Exn
    | Some m =>
        let s' := mkRx (snd ob) (rx_cur s) (rx_down s) (rx_reading s) (rx_pending s) (rx_out s ++ [m]) in
        let done := mkRx (snd ob) 0 (rx_down s) (rx_reading s) (rx_pending s) (rx_out s ++ [m]) in
        match hd (rx_out s) m with
        | VOk => Ok (done, true)
        | VShutdown => Ok (rx_shutdown done, true)
        | VThrow => Ok (s', false)
        end
    end).

(** VAsioPeer.cpp 228-251. *)
Definition dispatch_once (hd : listener) (s : rx) : res (rx * bool) :=
  if (rx_cur s =? 0)%N then
    if rx_down s then Ok (s, false) else
    if 4 <=? rb_size (rx_ring s) then
      bind (peek 4 (rx_ring s)) (fun o =>
      match o with
      | None => Exn
      | Some bs => dispatch_sized hd (mkRx (rx_ring s) (of_le bs) (rx_down s) (rx_reading s) (rx_pending s) (rx_out s))
      end)
    else bind (read_some s) (fun s' => Ok (s', false))
  else dispatch_sized hd s.

(** VAsioPeer.cpp 226-295: the loop. [None] means the fuel ran out; PeerRecvProofs shows that it does not. *)
Fixpoint dispatch (fuel : nat) (hd : listener) (s : rx) : res (option rx) :=
  match fuel with
  | O => Ok None
  | S f => bind (dispatch_once hd s) (fun sb => if snd sb then dispatch f hd (fst sb) else Ok (Some (fst sb)))
  end.

(** What can happen to the peer: the socket completes the outstanding read with at most [k] bytes, the application
    shuts the peer down, the socket fails. *)
Inductive rxev := EChunk (k : nat) | EShut | EFail.

(** AsioGenericRawByteStream.cpp 174-211 and VAsioPeer.cpp 301-308. The bytes still to come on the connection are
    [rest]. A completion without error transfers at least one byte, at most the space offered. *)
Definition rx_step (hd : listener) (e : rxev) (s : rx) (rest : list N) : res (option (rx * list N)) :=
  match e with
  | EShut => Ok (Some (rx_shutdown s, rest))
  | EFail => Ok (Some (mkRx (rx_ring s) (rx_cur s) (rx_down s) false true (rx_out s), rest))
  | EChunk k =>
      if negb (rx_reading s) then Ok (Some (s, rest)) else
      if rx_pending s then Ok (Some (mkRx (rx_ring s) (rx_cur s) (rx_down s) false true (rx_out s), rest)) else
      let data := firstn (Nat.min k (areas_total (writing_buffers (rx_ring s)))) rest in
      if length data =? 0 then Ok (Some (s, rest)) else
      bind (socket_fill data (rx_ring s)) (fun b =>
      bind (dispatch (S (S (rb_size b))) hd (mkRx b (rx_cur s) (rx_down s) false false (rx_out s))) (fun o =>
      match o with
      | None => Ok None
      | Some s' => Ok (Some (s', skipn (length data) rest))
      end))
  end.
Fixpoint rx_run (hd : listener) (l : list rxev) (s : rx) (rest : list N) : res (option (rx * list N)) :=
  match l with
  | [] => Ok (Some (s, rest))
  | e :: r => bind (rx_step hd e s rest) (fun o =>
      match o with None => Ok None | Some (s', rest') => rx_run hd r s' rest' end)
  end.
(** A connection: a peer with the initial capacity [cap] (4096 in the code) receives the bytes [stream]. *)
Definition rx_conn (hd : listener) (cap : nat) (l : list rxev) (stream : list N) : res (option (rx * list N)) :=
  bind (rx_start cap) (fun s => rx_run hd l s stream).
