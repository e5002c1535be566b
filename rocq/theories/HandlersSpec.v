From Coq Require Import List NArith Arith Bool.
From Verif Require Import Base HandlersModel.
Import ListNotations.
Local Open Scope N_scope.

Definition added (o : list tev) : list N := flat_map (fun e => match e with TAdded i _ => [i] | _ => [] end) o.
Definition invoked (o : list tev) : list N := flat_map (fun e => match e with TInvoke i _ => [i] | _ => [] end) o.
Definition removed (o : list tev) : list N := flat_map (fun e => match e with TRemoved i => [i] | _ => [] end) o.
(** The handlers registered after a trace, in the order of their registration. *)
Definition registered (o : list tev) : list (N * N) :=
  fold_left (fun l e => match e with
                        | TAdded i c => l ++ [(i, c)]
                        | TRemoved i => filter (fun x => negb (fst x =? i)) l
                        | _ => l
                        end) o [].
Definition few (o : list tev) : Prop := N.of_nat (length (added o)) < 2 ^ 64.
(** Each invocation is one of a handler registered at that moment, with its callable. *)
Definition invocations_current (o : list tev) : Prop :=
  forall a i c b, o = a ++ TInvoke i c :: b -> In (i, c) (registered a).
(** Callables that leave the registry alone, or only add and remove others than the ones invoked. *)
Definition passive (beh : nat -> N -> list hact) : Prop := forall n c, beh n c = [].
