From Coq Require Import List NArith Arith Bool Lia.
From Verif Require Import Base RingBufferModel RingBufferSpec RingBufferProofs.
Import ListNotations.

(** C07: any history of socket fills, peeks, reads and reserves behaves as a byte queue with a capacity: every output
    and the final content agree with the queue, nothing fails, and the write areas offered afterwards are sound. *)
Theorem C07_ring_is_a_queue : forall c l, 0 < c ->
  exists b, rrun l (ring_new c) = Ok (fst (qrun l ([], c)), b) /\ ring_ok b /\
    content b = fst (snd (qrun l ([], c))) /\ rb_cap b = snd (snd (qrun l ([], c))) /\ areas_ok b.
Proof. exact rrun_new. Qed.
Print Assumptions C07_ring_is_a_queue.

Definition C07_ex_ops : list rop :=
  [OFill [1;2;3]; ORead 2; OFill [4;5;6;7;8]; OPeek 4; OReserve 6; OFill [9;10;11;12]; ORead 7; ORead 6; ORead 1]%N.
Example C07_ex : exists b, rrun C07_ex_ops (ring_new 4) =
  Ok ([OutFilled 3; OutData (Some [1;2]); OutFilled 3; OutData (Some [3;4;5;6]); OutNone; OutFilled 2; OutData None;
       OutData (Some [3;4;5;6;9;10]); OutData None]%N, b).
Proof. vm_compute. eexists. reflexivity. Qed.
(** A state in which the unread bytes wrap around and two areas are offered, and one where one is. *)
Example C07_ex_areas : exists b b', rrun [OFill [1;2;3]%N; ORead 2] (ring_new 4) = Ok ([OutFilled 3; OutData (Some [1;2]%N)], b) /\
  writing_buffers b = [(3, 1); (0, 2)] /\
  rstep (OFill [4;5]%N) b = Ok (OutFilled 2, b') /\ rb_buf b' = [5;2;3;4]%N /\ writing_buffers b' = [(1, 1)].
Proof. vm_compute. eexists. eexists. repeat split. Qed.

(** One call in a sound state: Peek returns the oldest bytes and changes nothing (the model has no state result). *)
Theorem C07_peek : forall b n, ring_ok b ->
  peek n b = Ok (if n <=? length (content b) then Some (firstn n (content b)) else None).
Proof. exact peek_ok. Qed.
Print Assumptions C07_peek.

(** A Read that asks for more than is there returns false and leaves the buffer as it was. *)
Theorem C07_read : forall b n, ring_ok b ->
  exists b', read n b = Ok ((if n <=? length (content b) then Some (firstn n (content b)) else None), b') /\
    ring_ok b' /\ rb_cap b' = rb_cap b /\
    content b' = (if n <=? length (content b) then skipn n (content b) else content b) /\
    (n > length (content b) -> b' = b).
Proof. exact read_ok. Qed.
Print Assumptions C07_read.

Theorem C07_reserve : forall b n, ring_ok b ->
  exists b', reserve n b = Ok b' /\ ring_ok b' /\ content b' = content b /\ rb_cap b' = Nat.max (rb_cap b) n.
Proof. exact reserve_ok. Qed.
Print Assumptions C07_reserve.

(** The space offered to the socket: exactly the free bytes, in range, disjoint, never over an unread byte. *)
Theorem C07_write_areas : forall b, ring_ok b -> areas_ok b.
Proof. exact areas_ok_all. Qed.
Print Assumptions C07_write_areas.

Example C07_ex_ok : ring_ok (mkRing [5;2;3;4]%N 3 1 2) /\ content (mkRing [5;2;3;4]%N 3 1 2) = [3;4;5]%N.
Proof. split; [constructor; vm_compute; repeat constructor|reflexivity]. Qed.
