(** Common vocabulary of the models: outcomes of C++ code, and little helpers on lists.

    [res A] is the outcome of a C++ function: normal return, an exception leaving the function,
    or undefined behaviour (out-of-bounds access, dereferencing an end iterator, ...).
    It models the language, not a particular file. *)
From Coq Require Import List NArith ZArith Lia Bool Arith.
From Coq Require Export ZifyBool ZifyNat ZifyN.
Import ListNotations.

Inductive res (A : Type) : Type :=
| Ok (a : A)
| Exn
| UB.
Arguments Ok {A} a.
Arguments Exn {A}.
Arguments UB {A}.

Definition bind {A B} (x : res A) (f : A -> res B) : res B :=
  match x with Ok a => f a | Exn => Exn | UB => UB end.

(** [sub_list pos n l] is the range [l[pos], ..., l[pos+n-1]] (a memcpy source range);
    reading outside of the allocation is undefined behaviour. *)
Definition read_range {A} (pos n : nat) (l : list A) : res (list A) :=
  if (pos + n <=? length l)%nat then Ok (firstn n (skipn pos l)) else UB.

(** [write_range pos xs l] overwrites [l[pos], ..., l[pos+|xs|-1]] with [xs] (memcpy target range). *)
Definition write_range {A} (pos : nat) (xs l : list A) : res (list A) :=
  if (pos + length xs <=? length l)%nat
  then Ok (firstn pos l ++ xs ++ skipn (pos + length xs) l) else UB.

(** [resize n d l]: std::vector::resize with value-initialised new elements [d]. *)
Definition resize {A} (n : nat) (d : A) (l : list A) : list A :=
  firstn n l ++ repeat d (n - length l).
