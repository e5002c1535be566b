(** Model of S/util/SynchronizedHandlers.hpp (S = /repo/SilKit/source). The recursive mutex makes every call atomic with
    respect to other threads, so that a run is a sequence of calls; a handler that is being invoked may itself add and
    remove handlers (same thread, recursive mutex). A nested InvokeAll of the same registry, Clear and swap are left out.
    A callable is a number; what it does when it is invoked is a parameter. *)
From Coq Require Import List NArith Arith Bool.
From Verif Require Import Base.
Import ListNotations.
Local Open Scope N_scope.

(** SynchronizedHandlers.hpp 72-73: the map, in ascending order of the ids, and the next id (64 bit). *)
Record hs := mkHs { h_entries : list (N * N); h_next : N }.
Definition hs_init : hs := mkHs [] 0.
(** std::map::emplace: keeps the old element if the key exists. *)
Fixpoint map_emplace (i c : N) (l : list (N * N)) : list (N * N) :=
  match l with
  | [] => [(i, c)]
  | (j, d) :: r => if i =? j then l else if i <? j then (i, c) :: l else (j, d) :: map_emplace i c r
  end.
(** SynchronizedHandlers.hpp 22-28, 64-67. *)
Definition h_add (c : N) (s : hs) : N * hs :=
  (h_next s, mkHs (map_emplace (h_next s) c (h_entries s)) ((h_next s + 1) mod 2 ^ 64)).
(** SynchronizedHandlers.hpp 30-33. *)
Definition h_has (i : N) (s : hs) : bool := existsb (fun x => fst x =? i) (h_entries s).
Definition h_remove (i : N) (s : hs) : bool * hs :=
  (h_has i s, mkHs (filter (fun x => negb (fst x =? i)) (h_entries s)) (h_next s)).

(** What happens, in order. [TRemoved] reports a removal that returned true. *)
Inductive tev := TAdded (i c : N) | TRemoved (i : N) | TUnknown (i : N) | TInvoke (i c : N).
Inductive hact := HAdd (c : N) | HRemove (i : N).
Definition h_act (a : hact) (s : hs) : list tev * hs :=
  match a with
  | HAdd c => ([TAdded (h_next s) c], snd (h_add c s))
  | HRemove i => ([if h_has i s then TRemoved i else TUnknown i], snd (h_remove i s))
  end.
Fixpoint h_acts (l : list hact) (s : hs) : list tev * hs :=
  match l with
  | [] => ([], s)
  | a :: r => let (o, s') := h_act a s in let (o', s'') := h_acts r s' in (o ++ o', s'')
  end.

(** The entry the iterator of the range-for is at after the one with id [i]; the first one for [None]. *)
Definition entry_after (i : option N) (l : list (N * N)) : option (N * N) :=
  match i with
  | None => hd_error l
  | Some i => find (fun x => i <? fst x) l
  end.
Inductive hout := HDone (o : list tev) (s : hs) | HUB (o : list tev) | HFuel.
(** SynchronizedHandlers.hpp 35-44. [beh n c] is what callable [c] does when it is the n-th one invoked in this pass.
    Incrementing the iterator is undefined behaviour if the current element has been erased. *)
Fixpoint h_pass (fuel n : nat) (beh : nat -> N -> list hact) (pos : option N) (s : hs) : hout :=
  match fuel with
  | O => HFuel
  | S fuel' =>
      match entry_after pos (h_entries s) with
      | None => HDone [] s
      | Some (i, c) =>
          let (o, s') := h_acts (beh n c) s in
          if h_has i s' then
            match h_pass fuel' (S n) beh (Some i) s' with
            | HDone o' s'' => HDone (TInvoke i c :: o ++ o') s''
            | HUB o' => HUB (TInvoke i c :: o ++ o')
            | HFuel => HFuel
            end
          else HUB (TInvoke i c :: o)
      end
  end.
Inductive hop := OAct (a : hact) | OInvokeAll (fuel : nat) (beh : nat -> N -> list hact).
Definition h_op (a : hop) (s : hs) : hout :=
  match a with
  | OAct a => let (o, s') := h_act a s in HDone o s'
  | OInvokeAll fuel beh => h_pass fuel 0 beh None s
  end.
Fixpoint h_run (l : list hop) (s : hs) : hout :=
  match l with
  | [] => HDone [] s
  | a :: r =>
      match h_op a s with
      | HDone o s' =>
          match h_run r s' with
          | HDone o' s'' => HDone (o ++ o') s''
          | HUB o' => HUB (o ++ o')
          | HFuel => HFuel
          end
      | x => x
      end
  end.
