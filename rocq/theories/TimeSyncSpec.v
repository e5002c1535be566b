From Coq Require Import List NArith ZArith Arith Bool.
From Verif Require Import Base SystemStateModel TimeSyncModel.
Import ListNotations.
Open Scope Z_scope.

Definition touts (c : tcfg) (es : list tev) : list tout := fst (trun c es node_init).
Definition tafter (c : tcfg) (es : list tev) : node := snd (trun c es node_init).
(** The steps executed, in order: start and duration. *)
Definition execs (o : list tout) : list (Z * Z) := flat_map (fun x => match x with Exec t d => [(t, d)] | _ => [] end) o.
Fixpoint gap_free (l : list (Z * Z)) : Prop :=
  match l with
  | (t, d) :: (((t', _) :: _) as r) => t' = t + d /\ gap_free r
  | _ => True
  end.
Fixpoint chain {A} (R : A -> A -> Prop) (l : list A) : Prop :=
  match l with
  | a :: ((b :: _) as r) => R a b /\ chain R r
  | _ => True
  end.
(** Step durations asked for in an event. *)
Definition uops (e : tev) : list uop :=
  match e with
  | ERecv _ _ us | EDeferred us | ERemove _ us => us
  | EUser u => [u]
  | _ => []
  end.
Definition positive (e : tev) : Prop := forall d, In (UDuration d) (uops e) -> 0 < d.
(** Announcements of others are well-formed: no negative duration. *)
Definition sane (e : tev) : Prop := match e with ERecv _ t _ => 0 <= snd t | _ => True end.
(** Announcements made by RequestNextStep. *)
Definition announced (o : list tout) : list Z := flat_map (fun x => match x with Sent t => [fst t] | _ => [] end) o.

(** Steps do not overlap: a step is in progress from [Exec] to [Completed]. *)
Fixpoint one_at_a_time (busy : bool) (o : list tout) : Prop :=
  match o with
  | [] => True
  | Exec _ _ :: r => busy = false /\ one_at_a_time true r
  | Completed :: r => one_at_a_time false r
  | _ :: r => one_at_a_time busy r
  end.
(** The step in progress at the end of a trace. *)
Fixpoint in_progress (p : option Z) (o : list tout) : option Z :=
  match o with
  | [] => p
  | Exec t _ :: r => in_progress (Some t) r
  | Completed :: r => in_progress None r
  | _ :: r => in_progress p r
  end.

(** * Simulations *)
Definition souts (c : nat -> tcfg) (es : list sev) : list (nat * tout) := fst (srun c es sim_init).
Definition safter (c : nat -> tcfg) (es : list sev) : sim := snd (srun c es sim_init).
Definition of (i : nat) (o : list (nat * tout)) : list tout := map snd (filter (fun x => Nat.eqb (fst x) i) o).
Definition spositive (e : sev) : Prop :=
  match e with
  | SLocal _ e => positive e
  | SDeliver _ _ us => forall d, In (UDuration d) us -> 0 < d
  end.
Definition knows (s : sim) (i j : nat) : Prop := lookup j (t_others (s_node s i)) <> None.

(** RequestNextStep is not processed while a step is in progress. *)
Definition calm (e : tev) (x : node) : Prop :=
  match e with
  | EStartTime => t_exec x = false
  | EDeferred _ => match t_def x with DRequest :: _ => t_exec x = false | _ => True end
  | _ => True
  end.
Fixpoint undisturbed (c : nat -> tcfg) (es : list sev) (s : sim) : Prop :=
  match es with
  | [] => True
  | e :: r => (spositive e /\ match e with SLocal i e => calm e (s_node s i) | _ => True end) /\ undisturbed c r (snd (sstep c e s))
  end.

(** A simulation of the participants 0 .. n-1, all known to each other and running. *)
Definition group (n i : nat) : list (nat * task) := map (fun j => (j, (-1, 0))) (filter (fun j => negb (Nat.eqb j i)) (seq 0 n)).
Definition group_init (n : nat) : sim :=
  mkSim (fun i => set_life Running false false false (TimeSyncModel.set_others (group n i) node_init)) (fun _ _ => []).
(** Nobody joins or leaves, pauses or stops. *)
Definition plain_u (u : uop) : Prop := match u with UDuration d => 0 < d | UComplete => True | _ => False end.
Definition plain (n : nat) (e : sev) : Prop :=
  match e with
  | SLocal i (EDeferred us) => (i < n)%nat /\ Forall plain_u us
  | SLocal i EStartTime => (i < n)%nat
  | SLocal i (EUser u) => (i < n)%nat /\ plain_u u
  | SDeliver i j us => (i < n)%nat /\ (j < n)%nat /\ Forall plain_u us
  | _ => False
  end.
(** An internal event that does something: a message arrives, or a posted task is run. *)
Definition effective (n : nat) (e : sev) (s : sim) : Prop :=
  match e with
  | SLocal i (EDeferred _) => (i < n)%nat /\ t_def (s_node s i) <> []
  | SDeliver i j _ => (i < n)%nat /\ (j < n)%nat /\ s_chan s i j <> []
  | _ => False
  end.
Fixpoint busy (n : nat) (c : nat -> tcfg) (es : list sev) (s : sim) : Prop :=
  match es with
  | [] => True
  | e :: r => effective n e s /\ busy n c r (snd (sstep c e s))
  end.
(** Tasks posted and messages on the way; a posted request may cause messages to everybody. *)
Definition backlog (n : nat) (s : sim) : nat :=
  (list_sum (map (fun i => list_sum (map (fun d => match d with DProcess => 1 | _ => n + 2 end) (t_def (s_node s i)))
                          + list_sum (map (fun j => length (s_chan s i j)) (seq 0 n))) (seq 0 n)))%nat.
