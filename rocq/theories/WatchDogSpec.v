From Coq Require Import List ZArith Bool.
From Verif Require Import WatchDogModel.
Import ListNotations.
Open Scope Z_scope.

(** Independent vocabulary for C27, on the list of events alone. *)

(** the clock does not go backwards *)
Fixpoint clock (from : Z) (evs : list wev) : Prop :=
  match evs with [] => True | e :: r => from <= time_of e /\ clock (time_of e) r end.

(** the time step [k] was started: the k-th Start *)
Fixpoint started_at (k : nat) (evs : list wev) : option Z :=
  match evs with
  | [] => None
  | Start t :: r => match k with O => Some t | S k => started_at k r end
  | _ :: r => started_at k r
  end.

(** the time step [k] was ended: the first Reset or Start after the k-th Start *)
Fixpoint first_end (evs : list wev) : option Z :=
  match evs with
  | [] => None
  | Start t :: _ | Reset t :: _ => Some t
  | _ :: r => first_end r
  end.
Fixpoint ended_at (k : nat) (evs : list wev) : option Z :=
  match evs with
  | [] => None
  | Start t :: r => match k with O => first_end r | S k => ended_at k r end
  | _ :: r => ended_at k r
  end.

(** the watch thread is not interrupted between reading the start time and reading the clock *)
Fixpoint undisturbed (evs : list wev) : Prop :=
  match evs with
  | [] => True
  | Load t :: Check u :: r => t = u /\ undisturbed r
  | Load _ :: _ | Check _ :: _ => False
  | _ :: r => undisturbed r
  end.

Definition warns (k : nat) (o : list wout) : nat :=
  List.length (filter (fun x => match x with CallWarn j _ => Nat.eqb j k | _ => false end) o).
Definition errors (k : nat) (o : list wout) : nat :=
  List.length (filter (fun x => match x with CallError j _ => Nat.eqb j k | _ => false end) o).

(** durations *)
Definition nanos (m : Z) : Z := m * 1000000.
