From Coq Require Import List NArith Arith Bool.
From Verif Require Import Base ServiceDiscoveryModel.
Import ListNotations.
Local Open Scope N_scope.

(** What handler [h] is told about the service [k] of participant [p], and what the store is told about it. *)
Definition told (h p k : N) (o : list sdout) : list bool :=
  flat_map (fun x => match x with
                     | SNote h' c d => if (h' =? h) && (d_part d =? p) && (d_key d =? k) then [c] else []
                     | _ => []
                     end) o.
Definition store_told (p k : N) (o : list sdout) : list bool :=
  flat_map (fun x => match x with
                     | SStore c d => if (d_part d =? p) && (d_key d =? k) then [c] else []
                     | _ => []
                     end) o.

(** The effect of an event on one service, read off the event alone: it is announced, withdrawn, or not touched. *)
Definition mentions (p k : N) (ds : list desc) : bool := existsb (fun d => (d_part d =? p) && (d_key d =? k)) ds.
Definition effect (me p k : N) (e : sdev) : option bool :=
  match e with
  | SParticipant _ ds => if mentions p k ds then Some true else None
  | SCreatedMsg d | SCreatedLocal d => if mentions p k [d] then Some true else None
  | SRemovedMsg d | SRemovedLocal d => if mentions p k [d] then Some false else None
  | SLeave q => if (q =? p) && negb (p =? me) then Some false else None
  | _ => None
  end.
(** The notifications expected of a handler, given whether it is registered and whether the service is known. *)
Fixpoint expected (me h p k : N) (reg known : bool) (l : list sdev) : list bool :=
  match l with
  | [] => []
  | e :: r =>
      match e with
      | SRegister h' =>
          if h' =? h then (if known then [true] else []) ++ expected me h p k true known r
          else expected me h p k reg known r
      | _ =>
          match effect me p k e with
          | Some c => (if reg && xorb c known then [c] else []) ++ expected me h p k reg c r
          | None => expected me h p k reg known r
          end
      end
  end.
(** Whether the service is known at the end. *)
Fixpoint known_after (me p k : N) (known : bool) (l : list sdev) : bool :=
  match l with
  | [] => known
  | e :: r => known_after me p k (match effect me p k e with Some c => c | None => known end) r
  end.
Fixpoint alternating (next : bool) (l : list bool) : Prop :=
  match l with
  | [] => True
  | b :: r => b = next /\ alternating (negb next) r
  end.

(** An announcement of a participant lists services of that participant (VAsio sends its own); the handler is registered
    once; the object lives. *)
Definition wf_ev (e : sdev) : Prop :=
  match e with
  | SParticipant p ds => forall d, In d ds -> d_part d = p
  | SDestroy => False
  | _ => True
  end.
Definition registrations (h : N) (l : list sdev) : nat :=
  length (filter (fun e => match e with SRegister h' => h' =? h | _ => false end) l).
