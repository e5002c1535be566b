From Coq Require Import List Arith ZArith Bool.
From Verif Require Import RpcModel.
Import ListNotations.
Open Scope Z_scope.

(** Independent vocabulary for C30 and C31, on events and effects only. *)

(** number of matching servers after a list of events *)
Definition servers (evs : list event) : Z :=
  fold_right (fun e n => match e with Discovered true => n + 1 | Departed true => n - 1 | _ => n end) 0 evs.
(** servers depart only after they have been discovered, and there are fewer than 2^31 at a time *)
Definition counted (evs : list event) : Prop := forall p q, evs = p ++ q -> 0 <= servers p < 2147483648.

(** responses that arrive for call [u], in order *)
Definition responses (u : nat) (evs : list event) : list wire_status :=
  flat_map (fun e => match e with Begin v st => if Nat.eqb v u then [st] else [] | _ => [] end) evs.
(** results given to the user for call [u], in order *)
Definition results (u : nat) (o : list out) : list (nat * call_status) :=
  flat_map (fun x => match x with Delivered (Some v) ctx st => if Nat.eqb v u then [(ctx, st)] else [] | _ => [] end) o.
(** contexts of the "server not reachable" results *)
Definition unreachable (o : list out) : list nat :=
  flat_map (fun x => match x with Delivered None ctx ServerNotReachable => [ctx] | _ => [] end) o.
Definition sent (o : list out) : nat := List.length (filter (fun x => match x with Sent _ => true | _ => false end) o).
Definition undefined (o : list out) : Prop := exists u, In (Undefined u) o.

(** total time reported by the time provider *)
Definition elapsed (evs : list event) : Z :=
  fold_right (fun e n => match e with Tick _ d => d + n | _ => n end) 0 evs.
(** at some tick the time reported since the beginning of the list was at least [d] *)
Definition expired (d : Z) (evs : list event) : Prop :=
  exists p now dur q, evs = p ++ Tick now dur :: q /\ d <= elapsed p + dur.

(** the result handler is never taken away *)
Definition handled (evs : list event) : Prop := ~ In (SetHandler false) evs.

(** every response is dealt with before the next event *)
Fixpoint sequential (evs : list event) : Prop :=
  match evs with
  | [] => True
  | Begin u _ :: r => match r with End v :: r' => u = v /\ sequential r' | _ => False end
  | End _ :: _ => False
  | _ :: r => sequential r
  end.

(** number of handled responses begun and ended *)
Definition begins (u : nat) (evs : list event) : nat := List.length (responses u evs).
Definition ends (u : nat) (evs : list event) : nat :=
  List.length (filter (fun e => match e with End v => Nat.eqb v u | _ => false end) evs).
(** the handling of a response ends only after it has begun *)
Definition matched (evs : list event) : Prop := forall u p q, evs = p ++ q -> (ends u p <= begins u p)%nat.

(** virtual time advances in steps of the same size [d], starting after time [t] *)
Fixpoint steady (t d : Z) (evs : list event) : Prop :=
  match evs with
  | [] => True
  | Tick now dur :: r => now = t + d /\ dur = d /\ steady now d r
  | _ :: r => steady t d r
  end.
(** virtual time advances in steps of any size: [t] is the current time and [d] the size of the current step *)
Fixpoint chained (t d : Z) (evs : list event) : Prop :=
  match evs with
  | [] => True
  | Tick now dur :: r => now = t + d /\ 0 < dur /\ chained now dur r
  | _ :: r => chained t d r
  end.

(** ** Vocabulary for C32 *)
Definition called (c u : nat) (o : list sout) : list nat :=
  flat_map (fun x => match x with Called c' u' h => if Nat.eqb c' c && Nat.eqb u' u then [h] else [] | _ => [] end) o.
Definition answered (c u : nat) (o : list sout) : nat :=
  List.length (filter (fun x => match x with Response c' u' WSuccess => Nat.eqb c' c && Nat.eqb u' u | _ => false end) o).
Definition received (c u : nat) (evs : list sevent) : nat :=
  List.length (filter (fun e => match e with Receive c' u' => Nat.eqb c' c && Nat.eqb u' u | _ => false end) evs).
Definition responded (c u : nat) (o : list sout) : nat :=
  List.length (filter (fun x => match x with Response c' u' _ => Nat.eqb c' c && Nat.eqb u' u | _ => false end) o).
(** no two clients use the same uuid for a call, and no client uses one twice *)
Definition distinct_uuids (evs : list sevent) : Prop :=
  NoDup (flat_map (fun e => match e with Receive _ u => [u] | _ => [] end) evs).

(** contexts of the calls made while no server was known; [n] servers are known at the beginning *)
Fixpoint without_server (n : Z) (evs : list event) : list nat :=
  match evs with
  | [] => []
  | Call ctx _ :: r => (if n =? 0 then [ctx] else []) ++ without_server n r
  | Discovered true :: r => without_server (n + 1) r
  | Departed true :: r => without_server (n - 1) r
  | _ :: r => without_server n r
  end.
Definition calls (evs : list event) : nat := List.length (filter (fun e => match e with Call _ _ => true | _ => false end) evs).

(** a run of the server in which handles are only used after they were handed out, the iteration order of every submission
    visits each client that has arrived exactly once, and the call handler is never taken away *)
Definition sane (evs : list sevent) : Prop :=
  (forall p h order q, evs = p ++ Submit (Some h) order :: q ->
     (exists c u, In (Called c u h) (fst (srun p (server0 true)))) /\ NoDup order /\
     forall c, In c order <-> In (Arrive c true) p) /\
  (forall p h q, evs = p ++ Return h :: q -> exists c u, In (Called c u h) (fst (srun p (server0 true)))) /\
  ~ In (SetCallHandler false) evs.
