From Coq Require Import List Arith Bool.
From Verif Require Import RequestReplyModel.
Import ListNotations.

(** Independent vocabulary for C28 and C29, on events and effects. *)

(** the peers that are connected after a list of events *)
Definition connected (evs : list ev) : list name :=
  fold_left (fun l e => match e with
                        | EConnect p => if existsb (Nat.eqb p) l then l else l ++ [p]
                        | EDisconnect p => filter (fun x => negb (Nat.eqb x p)) l
                        | _ => l end) evs [].

(** number of requests made *)
Definition requests (evs : list ev) : nat := List.length (filter (fun e => match e with ERequest => true | _ => false end) evs).
Definition completed (c : nat) (o : list out) : nat :=
  List.length (filter (fun x => match x with Completed d => Nat.eqb d c | _ => false end) o).
Definition dropped (c : nat) (o : list out) : nat :=
  List.length (filter (fun x => match x with Dropped d => Nat.eqb d c | _ => false end) o).
(** number of returns the caller got for call [u] from participant [p] *)
Definition returns (p : name) (u : uuid) (o : list out) : nat :=
  List.length (filter (fun x => match x with Forwarded q v _ => Nat.eqb q p && Nat.eqb v u | _ => false end) o).
(** number of answers sent for call [u] *)
Definition answers (u : uuid) (o : list out) : nat :=
  List.length (filter (fun x => match x with SentReturn _ v _ _ => Nat.eqb v u | _ => false end) o).

(** event that settles what is expected from [p] for call [u] *)
Definition settles (p : name) (u : uuid) (e : ev) : Prop := e = EDisconnect p \/ exists st, e = EReturn p u st.
