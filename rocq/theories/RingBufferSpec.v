(** Specification of the receive buffer: a queue of bytes with a capacity. *)
From Coq Require Import List NArith Arith Bool.
From Verif Require Import Base RingBufferModel.
Import ListNotations.

Definition qstate := (list N * nat)%type.  (* content, capacity *)
Definition qstep (o : rop) (s : qstate) : rout * qstate :=
  let (q, cap) := s in
  match o with
  | OFill data => let d := firstn (cap - length q) data in (OutFilled (length d), (q ++ d, cap))
  | OPeek n => (OutData (if n <=? length q then Some (firstn n q) else None), s)
  | ORead n => if n <=? length q then (OutData (Some (firstn n q)), (skipn n q, cap)) else (OutData None, s)
  | OReserve n => (OutNone, (q, Nat.max cap n))
  end.
Fixpoint qrun (l : list rop) (s : qstate) : list rout * qstate :=
  match l with
  | [] => ([], s)
  | o :: r => let (x, s') := qstep o s in let (xs, s'') := qrun r s' in (x :: xs, s'')
  end.

(** The unread bytes of a ring: the cells rb_r, rb_r + 1, ... modulo the capacity. *)
Definition unread_cell (b : ring) (i : nat) : nat := (rb_r b + i) mod rb_cap b.
Definition content (b : ring) : list N := map (fun i => nth (unread_cell b i) (rb_buf b) 0%N) (seq 0 (rb_size b)).

(** The areas offered for writing: inside the buffer, disjoint, exactly as large as the free space, and no cell of
    them holds an unread byte. *)
Definition in_area (c : nat) (a : nat * nat) : Prop := fst a <= c < fst a + snd a.
Definition areas_ok (b : ring) : Prop :=
  let l := writing_buffers b in
  areas_total l = rb_cap b - rb_size b /\
  (forall a, In a l -> 0 < snd a /\ fst a + snd a <= rb_cap b) /\
  (forall a i, In a l -> i < rb_size b -> ~ in_area (unread_cell b i) a) /\
  (forall i j a a', nth_error l i = Some a -> nth_error l j = Some a' -> i <> j ->
     forall c, in_area c a -> ~ in_area c a').

(** The states a ring can be in. *)
Record ring_ok (b : ring) : Prop := {
  ok_cap : 0 < rb_cap b;
  ok_size : rb_size b <= rb_cap b;
  ok_r : rb_r b < rb_cap b;
  ok_w : rb_w b = (rb_r b + rb_size b) mod rb_cap b }.
