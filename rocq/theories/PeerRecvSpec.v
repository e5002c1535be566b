(** Specification of message framing. *)
From Coq Require Import List NArith Arith Bool.
From Verif Require Import Base MessageBufferModel RingBufferModel PeerRecvModel RingBufferSpec.
Import ListNotations.

(** A message on the wire: its first four bytes hold its total length, little endian; 4 bytes to 1 GiB. *)
Definition is_frame (m : list N) : Prop :=
  4 <= length m /\ (N.of_nat (length m) <= max_msg)%N /\ firstn 4 m = le_bytes 4 (N.of_nat (length m)).
(** The four bytes of a corrupt length prefix. *)
Definition is_corrupt (p : list N) : Prop :=
  length p = 4 /\ (of_le p = 0 \/ max_msg < of_le p)%N.
Definition prefix {A} (l l' : list A) : Prop := exists r, l' = l ++ r.

(** The listener returns normally, always. *)
Definition accepts (hd : listener) : Prop := forall ms m, hd ms m = VOk.
Definition only_chunks (l : list rxev) : Prop := forall e, In e l -> exists k, e = EChunk (S k).

(** [cuts s ms r]: reading lengths off the byte string [s] splits it into the messages [ms] and the remainder [r]. *)
Inductive cuts : list N -> list (list N) -> list N -> Prop :=
| cuts_nil : forall s, cuts s [] s
| cuts_cons : forall m s ms r,
    4 <= length (m ++ s) -> 0 < length m -> (N.of_nat (length m) <= max_msg)%N ->
    N.of_nat (length m) = of_le (firstn 4 (m ++ s)) -> cuts s ms r -> cuts (m ++ s) (m :: ms) r.
