(** Model of the metrics of a peer: S/core/vasio/PeerMetrics.cpp and their use in S/core/vasio/VAsioPeer.cpp
    (S = /repo/SilKit/source), on top of PeerSendModel.v. *)
From Coq Require Import List NArith Arith Bool.
From Verif Require Import Base PeerSendModel.
Import ListNotations.

(** PeerMetrics.hpp: [_initialized], the counters [_txBytes], [_txPackets], [_rxBytes], [_rxPackets] (uint64_t,
    MetricsManager.cpp 261-265) and the values taken by [_txQueueSize], newest last. Left out: the bandwidths, which take
    the values added to the byte counters, and the registration of names with the manager (C72). A name that is already
    registered would start from its old value; here all counters start from 0. *)
Record pm := mkPm { m_init : bool; m_txb : N; m_txp : N; m_rxb : N; m_rxp : N; m_tq : list nat }.
Definition pm_new : pm := mkPm false 0 0 0 0 [].
(** MetricsManager.cpp 261-265: [_value += delta] of uint64_t. *)
Definition counter_add (d v : N) : N := ((v + d) mod 2 ^ 64)%N.

(** PeerMetrics.cpp 41-62. *)
Definition pm_initialize (m : pm) : pm := mkPm true (m_txb m) (m_txp m) (m_rxb m) (m_rxp m) (m_tq m).
(** PeerMetrics.cpp 64-71. *)
Definition rx_packet (m : pm) : pm :=
  if m_init m then mkPm true (m_txb m) (m_txp m) (m_rxb m) (counter_add 1 (m_rxp m)) (m_tq m) else m.
(** PeerMetrics.cpp 73-80. *)
Definition tx_packet (m : pm) : pm :=
  if m_init m then mkPm true (m_txb m) (counter_add 1 (m_txp m)) (m_rxb m) (m_rxp m) (m_tq m) else m.
(** PeerMetrics.cpp 82-90, SerializedMessage.hpp 92-95: the storage is the whole message with its header. *)
Definition rx_bytes (blob : list N) (m : pm) : pm :=
  if m_init m then mkPm true (m_txb m) (m_txp m) (counter_add (N.of_nat (length blob)) (m_rxb m)) (m_rxp m) (m_tq m) else m.
(** PeerMetrics.cpp 92-100. *)
Definition tx_bytes (blob : list N) (m : pm) : pm :=
  if m_init m then mkPm true (counter_add (N.of_nat (length blob)) (m_txb m)) (m_txp m) (m_rxb m) (m_rxp m) (m_tq m) else m.
(** PeerMetrics.cpp 102-109. *)
Definition tx_queue_size (n : nat) (m : pm) : pm :=
  if m_init m then mkPm true (m_txb m) (m_txp m) (m_rxb m) (m_rxp m) (m_tq m ++ [n]) else m.

(** VAsioPeer.cpp 123-138: the size of the queue is taken after the blob was appended. *)
Definition m_internal (blob : list N) (p : tx * pm) : tx * pm :=
  let s' := send_internal blob (fst p) in
  (s', if t_down (fst p) then snd p else tx_queue_size (length (t_queue s')) (snd p)).
(** VAsioPeer.cpp 164-172. *)
Definition m_flush (p : tx * pm) : tx * pm :=
  let s := fst p in
  let p' := m_internal (t_agg s)
    (mkTx (t_useagg s) (t_started s) (t_armed s) [] (t_queue s) (t_sending s) (t_cur s) (t_down s) (t_writing s)
          (t_pending s) (t_wire s) (t_disp s), snd p) in
  (arm (fst p'), snd p').
(** VAsioPeer.cpp 140-162. *)
Definition m_aggregate (thr : nat) (blob : list N) (p : tx * pm) : tx * pm :=
  let s := fst p in
  let s1 := if t_started s then s
            else let s' := arm s in
                 mkTx (t_useagg s') true (t_armed s') (t_agg s') (t_queue s') (t_sending s') (t_cur s') (t_down s')
                      (t_writing s') (t_pending s') (t_wire s') (t_disp s') in
  let s2 := mkTx (t_useagg s1) (t_started s1) (t_armed s1) (t_agg s1 ++ blob) (t_queue s1) (t_sending s1) (t_cur s1)
                 (t_down s1) (t_writing s1) (t_pending s1) (t_wire s1) (t_disp s1) in
  if thr <? length (t_agg s2) then m_flush (s2, snd p) else (s2, snd p).
(** VAsioPeer.cpp 101-121: counted first, whatever becomes of the message. *)
Definition m_send (thr : nat) (k : akind) (blob : list N) (p : tx * pm) : tx * pm :=
  let p := (fst p, tx_packet (tx_bytes blob (snd p))) in
  if t_useagg (fst p) then
    match k with
    | KUser => m_aggregate thr blob p
    | KFlush => m_flush (m_aggregate thr blob p)
    | KOther => m_internal blob p
    end
  else m_internal blob p.

(** What happens to a peer: InitializeMetrics (VAsioPeer.cpp 362-365, called by AssociateParticipantNameAndPeer,
    VAsioConnection.cpp 1161-1182, if metrics are configured) or an event of the sending half. *)
Inductive mev := MInit | MEv (e : txev).
Definition m_step (thr : nat) (e : mev) (p : tx * pm) : res (tx * pm) :=
  match e with
  | MInit => Ok (fst p, pm_initialize (snd p))
  | MEv (ESend k blob) => Ok (m_send thr k blob p)
  | MEv ETimer =>  (* VAsioPeer.cpp 336-351 *)
      let s := fst p in
      if t_armed s then
        let s' := mkTx (t_useagg s) (t_started s) false (t_agg s) (t_queue s) (t_sending s) (t_cur s) (t_down s)
                       (t_writing s) (t_pending s) (t_wire s) (t_disp s) in
        Ok (match t_agg s' with [] => (s', snd p) | _ => m_flush (s', snd p) end)
      else Ok p
  | MEv e => bind (tx_step thr e (fst p)) (fun s => Ok (s, snd p))
  end.
Fixpoint m_run (thr : nat) (l : list mev) (p : tx * pm) : res (tx * pm) :=
  match l with
  | [] => Ok p
  | e :: r => bind (m_step thr e p) (fun p' => m_run thr r p')
  end.

(** VAsioPeer.cpp 286-290: every message is counted right before the listener gets it; the listener calls
    InitializeMetrics while it handles a message ([inits], by the messages before it and the message), if at all. *)
Fixpoint m_receive (inits : list (list N) -> list N -> bool) (before : list (list N)) (out : list (list N)) (m : pm) : pm :=
  match out with
  | [] => m
  | x :: r => let m1 := rx_packet (rx_bytes x m) in
              m_receive inits (before ++ [x]) r (if inits before x then pm_initialize m1 else m1)
  end.
