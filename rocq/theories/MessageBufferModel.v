(** Model of S/core/internal/MessageBuffer.hpp (S = /repo/SilKit/source).

    Bytes are [N] (values below 256 for real buffers). Positions are [nat].
    Simplifications: 64-bit [size_t] additions [_rPos + n] are modelled without wrap-around
    (n < 2^32 + SIZE and _rPos is at most the size of an allocation, so they cannot wrap);
    [IncreaseCapacity] (reserve only, line 249-252) has no observable effect and is omitted;
    failure of memory allocation is not modelled. The host is little endian, as memcpy of
    integers assumes in all supported builds. *)
From Coq Require Import List NArith ZArith Bool.
From Verif Require Import Base.
Import ListNotations.
Local Open Scope N_scope.

(** MessageBuffer.hpp 257-260: members. [_protocolVersion] is passed explicitly where it is used. *)
Record mbuf := mkMbuf { storage : list N; wpos : nat; rpos : nat }.

(** MessageBuffer.hpp 59: default constructor. *)
Definition mbuf_new : mbuf := mkMbuf [] 0 0.
(** MessageBuffer.hpp 266-271: constructor from data. *)
Definition mbuf_of (data : list N) : mbuf := mkMbuf data (length data) 0.

(** Writers and readers: the effect of [buffer << x] and [buffer >> x]. *)
Definition W := mbuf -> res mbuf.
Definition R (A : Type) := mbuf -> res (A * mbuf).

Definition w_skip : W := fun b => Ok b.
Definition w_seq (f g : W) : W := fun b => bind (f b) g.
Definition r_ret {A} (a : A) : R A := fun b => Ok (a, b).
Definition r_throw {A} : R A := fun _ => Exn.
Definition r_bind {A B} (f : R A) (g : A -> R B) : R B :=
  fun b => bind (f b) (fun ab => g (fst ab) (snd ab)).

Declare Scope mb_scope.
Delimit Scope mb_scope with mb.
Notation "f ;; g" := (w_seq f g) (at level 61, right associativity) : mb_scope.
Notation "x <- f ;; g" := (r_bind f (fun x => g)) (at level 61, f at next level, right associativity) : mb_scope.
Local Open Scope mb_scope.

(** Little-endian byte representation of an unsigned integer of [n] bytes (memcpy of the object
    representation, lines 106, 118). *)
Fixpoint le_bytes (n : nat) (x : N) : list N :=
  match n with O => [] | S k => (x mod 256) :: le_bytes k (x / 256) end.
Fixpoint of_le (bs : list N) : N :=
  match bs with [] => 0 | b :: r => b + 256 * of_le r end.

Definition Nlen {A} (l : list A) : N := N.of_nat (length l).

(** lines 99-111: operator<<(IntegerT) for an object representation [bs] of sizeof(IntegerT) bytes;
    also lines 126-141 (floating point, bit pattern). *)
Definition w_object (bs : list N) : W := fun b =>
  let st := if (length (storage b) <? wpos b + length bs)%nat
            then resize (length (storage b) + length bs) 0 (storage b) else storage b in
  bind (write_range (wpos b) bs st) (fun st' =>
  Ok (mkMbuf st' (wpos b + length bs) (rpos b))).

(** lines 112-122 and 142-155: operator>>(IntegerT&): [n] = sizeof. *)
Definition r_object (n : nat) : R (list N) := fun b =>
  if (length (storage b) <? rpos b + n)%nat then Exn else
  bind (read_range (rpos b) n (storage b)) (fun bs =>
  Ok (bs, mkMbuf (storage b) (wpos b) (rpos b + n))).

Definition w_uint (n : nat) (x : N) : W := w_object (le_bytes n x).
Definition r_uint (n : nat) : R N := bs <- r_object n ;; r_ret (of_le bs).

(** Signed integers: two's complement representation. *)
Definition w_int (n : nat) (z : Z) : W :=
  w_uint n (Z.to_N (z mod (2 ^ (8 * Z.of_nat n)))%Z).
Definition sign_adjust (n : nat) (x : N) : Z :=
  (if Z.of_N x <? 2 ^ (8 * Z.of_nat n - 1) then Z.of_N x else Z.of_N x - 2 ^ (8 * Z.of_nat n))%Z.
Definition r_int (n : nat) : R Z := x <- r_uint n ;; r_ret (sign_adjust n x).

Definition w_u8 := w_uint 1.   Definition r_u8 := r_uint 1.
Definition w_u16 := w_uint 2.  Definition r_u16 := r_uint 2.
Definition w_u32 := w_uint 4.  Definition r_u32 := r_uint 4.
Definition w_u64 := w_uint 8.  Definition r_u64 := r_uint 8.
Definition w_i64 := w_int 8.   Definition r_i64 := r_int 8.
Definition w_i32 := w_int 4.   Definition r_i32 := r_int 4.
Definition w_i16 := w_int 2.   Definition r_i16 := r_int 2.

(** Floating point (lines 126-155): the 64-bit IEEE bit pattern is copied; modelled as that pattern. *)
Definition w_f64 := w_uint 8.  Definition r_f64 := r_uint 8.

(** A C++ [bool] is an integral type: its byte is copied without validation (lines 99-122), so a
    received bool object may hold a byte other than 0 and 1. A bool is modelled by that byte. *)
Definition w_boolbyte := w_uint 1.  Definition r_boolbyte := r_uint 1.

(** line 250-256 of the standard: std::chrono::duration<int64_t,...>, lines 506-519. *)
Definition w_duration := w_i64.  Definition r_duration := r_i64.

(** lines 521-532: system_clock::time_point, given in ns since epoch; duration_cast truncates towards
    zero to microseconds. Reading multiplies back. *)
Definition w_timepoint (ns : Z) : W := w_i64 (Z.quot ns 1000).
Definition r_timepoint : R Z := us <- r_i64 ;; r_ret (us * 1000)%Z.

(** lines 536-548: void*: as uint64_t. *)
Definition w_ptr := w_u64.  Definition r_ptr := r_u64.

Definition u32_max : N := 4294967295.

(** lines 287-305 (string), 389-407 (Span<const uint8_t>, also used by vector<uint8_t> 322-326,
    SharedVector<uint8_t> 429-434): u32 length, then the bytes. *)
Definition w_raw (bs : list N) : W := fun b =>
  let st := if (length (storage b) <? wpos b + length bs)%nat
            then resize (wpos b + length bs) 0 (storage b) else storage b in
  bind (write_range (wpos b) bs st) (fun st' =>
  Ok (mkMbuf st' (wpos b + length bs) (rpos b))).
Definition w_bytes (bs : list N) : W := fun b =>
  if u32_max <? Nlen bs then Exn else (w_u32 (Nlen bs) ;; w_raw bs) b.

(** lines 306-318 (string), 327-341 (vector<uint8_t>), 436-445 (SharedVector). *)
Definition r_bytes : R (list N) :=
  len <- r_u32 ;;
  fun b =>
    if Nlen (storage b) <? N.of_nat (rpos b) + len then Exn else
    bind (read_range (rpos b) (N.to_nat len) (storage b)) (fun bs =>
    Ok (bs, mkMbuf (storage b) (wpos b) (rpos b + N.to_nat len))).

Definition w_string := w_bytes.  Definition r_string := r_bytes.

Section Containers.
  Context {A : Type} (w : A -> W) (r : R A).

  Fixpoint w_each (l : list A) : W :=
    match l with [] => w_skip | x :: t => w x ;; w_each t end.
  Fixpoint r_each (n : nat) : R (list A) :=
    match n with
    | O => r_ret []
    | S k => x <- r ;; t <- r_each k ;; r_ret (x :: t)
    end.

  (** lines 345-361 (vector<T>), 409-426 (Span<T>). *)
  Definition w_vector (l : list A) : W := fun b =>
    if u32_max <? Nlen l then Exn else (w_u32 (Nlen l) ;; w_each l) b.
  (** lines 362-378. The size check compares the element count with the remaining bytes. *)
  Definition r_vector : R (list A) :=
    n <- r_u32 ;;
    fun b => if Nlen (storage b) <? N.of_nat (rpos b) + n then Exn else r_each (N.to_nat n) b.

  (** lines 479-489: std::array<T, SIZE>: elements only. *)
  Definition w_array (l : list A) : W := w_each l.
  (** lines 490-502. *)
  Definition r_array (size : nat) : R (list A) := fun b =>
    if (length (storage b) <? rpos b + size)%nat then Exn else r_each size b.
End Containers.

(** lines 449-475: std::array<uint8_t, SIZE>. *)
Definition w_bytearray (bs : list N) : W := w_raw bs.
Definition r_bytearray (size : nat) : R (list N) := fun b =>
  if (length (storage b) <? rpos b + size)%nat then Exn else
  bind (read_range (rpos b) size (storage b)) (fun bs =>
  Ok (bs, mkMbuf (storage b) (wpos b) (rpos b + size))).

(** lines 626-638: std::pair. *)
Definition w_pair {A B} (w1 : A -> W) (w2 : B -> W) (p : A * B) : W := w1 (fst p) ;; w2 (snd p).
Definition r_pair {A B} (r1 : R A) (r2 : R B) : R (A * B) := a <- r1 ;; b <- r2 ;; r_ret (a, b).

(** Byte-wise lexicographic order of std::string. *)
Fixpoint str_ltb (a b : list N) : bool :=
  match a, b with
  | [], [] => false
  | [], _ :: _ => true
  | _ :: _, [] => false
  | x :: a', y :: b' => (x <? y) || ((x =? y) && str_ltb a' b')
  end.
Fixpoint str_eqb (a b : list N) : bool :=
  match a, b with
  | [], [] => true
  | x :: a', y :: b' => (x =? y) && str_eqb a' b'
  | _, _ => false
  end.

(** std::map<string,string> as the key-sorted list of its entries; [tmp[key] = value]. *)
Fixpoint map_assign (k v : list N) (m : list (list N * list N)) : list (list N * list N) :=
  match m with
  | [] => [(k, v)]
  | (k', v') :: t =>
      if str_ltb k k' then (k, v) :: m
      else if str_eqb k k' then (k, v) :: t
      else (k', v') :: map_assign k v t
  end.

(** lines 563-571 (no size limit check: the size is truncated by the cast to uint32_t). *)
Definition w_map (m : list (list N * list N)) : W :=
  w_u32 (Nlen m mod 2 ^ 32) ;; w_each (w_pair w_string w_string) m.

(** lines 579-585: the loop. The fuel is a [nat] loop counter counting down from numElements. *)
Fixpoint r_map_loop (n : nat) (tmp : list (list N * list N)) : R (list (list N * list N)) :=
  match n with
  | O => r_ret tmp
  | S k => key <- r_string ;; value <- r_string ;; r_map_loop k (map_assign key value tmp)
  end.
(** lines 573-592. *)
Definition r_map : R (list (list N * list N)) :=
  n <- r_u32 ;;
  tmp <- r_map_loop (N.to_nat n) [] ;;
  (if n =? Nlen tmp then r_ret tmp else r_throw).

(** lines 642-654: Uuid{ab, cd}. *)
Definition w_uuid (u : N * N) : W := w_u64 (fst u) ;; w_u64 (snd u).
Definition r_uuid : R (N * N) := ab <- r_u64 ;; cd <- r_u64 ;; r_ret (ab, cd).

(** lines 280-283. *)
Definition remaining (b : mbuf) : nat :=
  if (length (storage b) <? rpos b)%nat then 0 else length (storage b) - rpos b.

(** [if (buffer.RemainingBytesLeft() > 0) f else g], the idiom used for optional trailing fields. *)
Definition r_if_remaining {A} (f g : R A) : R A :=
  fun b => if (0 <? remaining b)%nat then f b else g b.

(** lines 36-47, 684-693: MessageBufferPeeker: run [r] and restore the read position. *)
Definition r_peek {A} (r : R A) : R A := fun b =>
  bind (r b) (fun ab => Ok (fst ab, mkMbuf (storage (snd ab)) (wpos (snd ab)) (rpos b))).
