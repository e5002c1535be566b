(** Specification vocabulary for the wire encoding. *)
From Coq Require Import List NArith ZArith Bool Sorted.
From Verif Require Import Base MessageBufferModel.
Import ListNotations.
Local Open Scope N_scope.

(** [w] is a lossless encoder of [a] for the decoder [r]: writing to any buffer (whose write position
    is at its end, as it always is while a message is built) appends some bytes [bs] and touches nothing
    else, and wherever these bytes occur in a buffer, reading at their start yields [a], moves the read
    position right behind them and leaves the buffer unchanged. *)
Definition roundtrips {A} (w : W) (r : R A) (a : A) : Prop :=
  exists bs : list N,
    (forall st rp, w (mkMbuf st (length st) rp) = Ok (mkMbuf (st ++ bs) (length (st ++ bs)) rp)) /\
    (forall pre post wp,
        r (mkMbuf (pre ++ bs ++ post) wp (length pre)) =
        Ok (a, mkMbuf (pre ++ bs ++ post) wp (length pre + length bs))).

(** The same with at least one byte written. *)
Definition roundtrips_ne {A} (w : W) (r : R A) (a : A) : Prop :=
  exists bs : list N, bs <> [] /\
    (forall st rp, w (mkMbuf st (length st) rp) = Ok (mkMbuf (st ++ bs) (length (st ++ bs)) rp)) /\
    (forall pre post wp,
        r (mkMbuf (pre ++ bs ++ post) wp (length pre)) =
        Ok (a, mkMbuf (pre ++ bs ++ post) wp (length pre + length bs))).

(** The same for decoding at the very end of the message only. *)
Definition roundtrips_at_end {A} (w : W) (r : R A) (a : A) : Prop :=
  exists bs : list N,
    (forall st rp, w (mkMbuf st (length st) rp) = Ok (mkMbuf (st ++ bs) (length (st ++ bs)) rp)) /\
    (forall pre wp,
        r (mkMbuf (pre ++ bs) wp (length pre)) =
        Ok (a, mkMbuf (pre ++ bs) wp (length pre + length bs))).

(** A decoder is safe if on every buffer it never runs into undefined behaviour (in particular never
    reads outside of the received bytes), leaves the bytes alone, never moves the read position
    backwards and never consumes more than there is. *)
Definition safe_decoder {A} (r : R A) : Prop :=
  forall st wp rp, (rp <= length st)%nat ->
    match r (mkMbuf st wp rp) with
    | Ok (_, b') => storage b' = st /\ wpos b' = wp /\ (rp <= rpos b' <= length st)%nat
    | Exn => True
    | UB => False
    end.

(** Value ranges. *)
Definition is_u (n : nat) (x : N) : Prop := x < 256 ^ N.of_nat n.
Definition is_i (n : nat) (z : Z) : Prop :=
  (- 2 ^ (8 * Z.of_nat n - 1) <= z < 2 ^ (8 * Z.of_nat n - 1))%Z.
Definition is_byte (x : N) : Prop := x < 256.
Definition is_bytes (l : list N) : Prop := Nlen l < 2 ^ 32.

(** A std::map<string,string>: strictly increasing keys. *)
Definition is_map (m : list (list N * list N)) : Prop :=
  Nlen m < 2 ^ 32 /\
  StronglySorted (fun a b => str_ltb (fst a) (fst b) = true) m /\
  Forall (fun kv => is_bytes (fst kv) /\ is_bytes (snd kv)) m.

(** The universe of wire types: everything that [operator<<]/[operator>>] of MessageBuffer handle. *)
Inductive wty : Type :=
| TUInt (n : nat)          (* uint8_t .. uint64_t, bool, enums, void*, floating point bit patterns *)
| TInt (n : nat)           (* int8_t .. int64_t, durations *)
| TBytes                   (* std::string, std::vector<uint8_t>, SharedVector<uint8_t> *)
| TVec (t : wty)           (* std::vector<T>, SharedVector<T> *)
| TArr (n : nat) (t : wty) (* std::array<T, n> *)
| TByteArr (n : nat)       (* std::array<uint8_t, n> *)
| TPair (t1 t2 : wty)      (* std::pair *)
| TMap                     (* std::map<string,string> *)
| TUuid.

Fixpoint wval (t : wty) : Type :=
  match t with
  | TUInt _ => N
  | TInt _ => Z
  | TBytes => list N
  | TVec t => list (wval t)
  | TArr _ t => list (wval t)
  | TByteArr _ => list N
  | TPair a b => wval a * wval b
  | TMap => list (list N * list N)
  | TUuid => N * N
  end%type.

Fixpoint wwrite (t : wty) : wval t -> W :=
  match t with
  | TUInt n => w_uint n
  | TInt n => w_int n
  | TBytes => w_bytes
  | TVec t => w_vector (wwrite t)
  | TArr _ t => w_array (wwrite t)
  | TByteArr _ => w_bytearray
  | TPair a b => w_pair (wwrite a) (wwrite b)
  | TMap => w_map
  | TUuid => w_uuid
  end.

Fixpoint wread (t : wty) : R (wval t) :=
  match t with
  | TUInt n => r_uint n
  | TInt n => r_int n
  | TBytes => r_bytes
  | TVec t => r_vector (wread t)
  | TArr n t => r_array (wread t) n
  | TByteArr n => r_bytearray n
  | TPair a b => r_pair (wread a) (wread b)
  | TMap => r_map
  | TUuid => r_uuid
  end.

(** Types that exist in C++: integers and arrays have at least one byte/element. *)
Fixpoint wty_ok (t : wty) : Prop :=
  match t with
  | TUInt n | TInt n => (0 < n)%nat
  | TVec t => wty_ok t
  | TArr n t => (0 < n)%nat /\ wty_ok t
  | TByteArr n => (0 < n)%nat
  | TPair a b => wty_ok a /\ wty_ok b
  | TBytes | TMap | TUuid => True
  end.

(** Values that exist in C++ and fit the 32-bit length prefix. *)
Fixpoint wval_ok (t : wty) : wval t -> Prop :=
  match t with
  | TUInt n => is_u n
  | TInt n => is_i n
  | TBytes => is_bytes
  | TVec t => fun l => Nlen l < 2 ^ 32 /\ Forall (wval_ok t) l
  | TArr n t => fun l => length l = n /\ Forall (wval_ok t) l
  | TByteArr n => fun l => length l = n
  | TPair a b => fun p => wval_ok a (fst p) /\ wval_ok b (snd p)
  | TMap => is_map
  | TUuid => fun u => is_u 8 (fst u) /\ is_u 8 (snd u)
  end.

(** A value together with its type, and sequences of them. *)
Definition wdyn := { t : wty & wval t }.
Definition wdyn_ok (d : wdyn) : Prop := wty_ok (projT1 d) /\ wval_ok (projT1 d) (projT2 d).
Definition write_all (l : list wdyn) : W := w_each (fun d => wwrite (projT1 d) (projT2 d)) l.
Fixpoint read_all (ts : list wty) : R (list wdyn) :=
  match ts with
  | [] => r_ret []
  | t :: r => r_bind (wread t) (fun v => r_bind (read_all r) (fun l => r_ret (existT _ t v :: l)))
  end.
