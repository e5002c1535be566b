(** Model of S/core/vasio/RingBuffer.{hpp,cpp} (S = /repo/SilKit/source).
    [size_t] values are [nat]; the additions cannot wrap for buffers that fit into memory. *)
From Coq Require Import List NArith Arith Bool.
From Verif Require Import Base.
Import ListNotations.

(** RingBuffer.hpp 48-57: members. *)
Record ring := mkRing { rb_buf : list N; rb_size : nat; rb_w : nat; rb_r : nat }.

(** RingBuffer.cpp 15-18. *)
Definition ring_new (capacity : nat) : ring := mkRing (repeat 0%N capacity) 0 0 0.

(** RingBuffer.cpp 123-136. *)
Definition rb_cap (b : ring) : nat := length (rb_buf b).
Definition rb_empty (b : ring) : bool := rb_size b =? 0.

(** RingBuffer.cpp 20-26, 138-144. The remainder by a zero capacity is undefined behaviour. If the size check throws
    the members have already been changed; that state is not represented (the exception ends the connection). *)
Definition advance_w (n : nat) (b : ring) : res ring :=
  if rb_cap b =? 0 then UB else
  let b' := mkRing (rb_buf b) (rb_size b + n) ((rb_w b + n) mod rb_cap b) (rb_r b) in
  if rb_cap b <? rb_size b' then Exn else Ok b'.

(** RingBuffer.cpp 28-34. [_size] is unsigned: subtracting more than it holds wraps around to a huge number, and the
    size check throws. *)
Definition advance_r (n : nat) (b : ring) : res ring :=
  if rb_cap b =? 0 then UB else
  if rb_size b <? n then Exn else
  let b' := mkRing (rb_buf b) (rb_size b - n) (rb_w b) ((rb_r b + n) mod rb_cap b) in
  if rb_cap b <? rb_size b' then Exn else Ok b'.

(** RingBuffer.cpp 36-56: [None] is "return false". [n] = elem.size(). *)
Definition peek (n : nat) (b : ring) : res (option (list N)) :=
  if rb_size b <? n then Ok None else
  let one := Nat.min (rb_cap b - rb_r b) n in
  bind (read_range (rb_r b) one (rb_buf b)) (fun xs =>
  if one <? n
  then bind (read_range 0 (n - one) (rb_buf b)) (fun ys => Ok (Some (xs ++ ys)))
  else Ok (Some xs)).

(** RingBuffer.cpp 58-68. *)
Definition read (n : nat) (b : ring) : res (option (list N) * ring) :=
  bind (peek n b) (fun o =>
  match o with
  | None => Ok (None, b)
  | Some xs => bind (advance_r n b) (fun b' => Ok (Some xs, b'))
  end).

(** RingBuffer.cpp 85-96. *)
Definition free_one (b : ring) : nat :=
  if rb_empty b then rb_cap b - rb_w b
  else Nat.min (rb_cap b - rb_w b) (rb_cap b - rb_size b).
(** RingBuffer.cpp 98-109. *)
Definition free_two (b : ring) : nat :=
  if rb_empty b then rb_w b
  else (rb_cap b - rb_size b) - free_one b.
(** RingBuffer.cpp 70-83, 111-121: the areas as (offset, length). *)
Definition writing_buffers (b : ring) : list (nat * nat) :=
  (if 0 <? free_one b then [(rb_w b, free_one b)] else []) ++
  (if 0 <? free_two b then [(0, free_two b)] else []).

(** RingBuffer.cpp 146-163. *)
Definition reserve (n : nat) (b : ring) : res ring :=
  if n <=? rb_cap b then Ok b else
  bind (peek (rb_size b) b) (fun o =>
  match o with
  | None => Ok b  (* cannot happen: rb_size <= rb_size *)
  | Some xs => Ok (mkRing (resize n 0%N xs) (rb_size b) (rb_size b) 0)
  end).

(** The socket (S/core/vasio/io/impl/AsioGenericRawByteStream.cpp, asio scatter read): fills the areas in order. *)
Fixpoint scatter (areas : list (nat * nat)) (data : list N) (buf : list N) : res (list N) :=
  match areas with
  | [] => Ok buf
  | (off, len) :: rest =>
      bind (write_range off (firstn len data) buf) (fun buf' => scatter rest (skipn len data) buf')
  end.
(** ... and the completion handler advances by the number of bytes (VAsioPeer.cpp 306). [data] must fit. *)
Definition socket_fill (data : list N) (b : ring) : res ring :=
  bind (scatter (writing_buffers b) data (rb_buf b)) (fun buf =>
  advance_w (length data) (mkRing buf (rb_size b) (rb_w b) (rb_r b))).

(** A history of operations on the buffer. The socket transfers at most the space offered. *)
Inductive rop := OFill (data : list N) | OPeek (n : nat) | ORead (n : nat) | OReserve (n : nat).
Inductive rout := OutNone | OutFilled (n : nat) | OutData (o : option (list N)).
Definition areas_total (l : list (nat * nat)) : nat := fold_right (fun a s => snd a + s) 0 l.
Definition rstep (o : rop) (b : ring) : res (rout * ring) :=
  match o with
  | OFill data =>
      let d := firstn (areas_total (writing_buffers b)) data in
      bind (socket_fill d b) (fun b' => Ok (OutFilled (length d), b'))
  | OPeek n => bind (peek n b) (fun r => Ok (OutData r, b))
  | ORead n => bind (read n b) (fun rb => Ok (OutData (fst rb), snd rb))
  | OReserve n => bind (reserve n b) (fun b' => Ok (OutNone, b'))
  end.
Fixpoint rrun (l : list rop) (b : ring) : res (list rout * ring) :=
  match l with
  | [] => Ok ([], b)
  | o :: r => bind (rstep o b) (fun ob => bind (rrun r (snd ob)) (fun osb => Ok (fst ob :: fst osb, snd osb)))
  end.
