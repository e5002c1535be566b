From Coq Require Import String List Arith Bool.
Import ListNotations.
From Verif Require Import NetModel.
Open Scope nat_scope.
Open Scope list_scope.

(** What the properties talk about, as functions of the sequence of observable events alone. *)

Definition key_dec (x y : key) : {x = y} + {x <> y}.
Proof. decide equality; [apply Nat.eq_dec|apply mtype_eq_dec]. Defined.
Definition is (a a' : nat) (k k' : key) : bool := if Nat.eq_dec a a' then if key_dec k k' then true else false else false.

(** what a sends to b on link k *)
Definition sent_to (a b : nat) (k : key) (tr : list event) : list message :=
  flat_map (fun e => match e with
                     | EPub a' k' m => if is a a' k k' then [m] else []
                     | EPubTo a' k' b' m => if is a a' k k' && (b' =? b) then [m] else []
                     | _ => [] end) tr.
(** what a sends on link k to any other participant *)
Definition sent (a : nat) (k : key) (tr : list event) : list message :=
  flat_map (fun e => match e with
                     | EPub a' k' m => if is a a' k k' then [m] else []
                     | EPubTo a' k' b' m => if is a a' k k' && negb (b' =? a) then [m] else []
                     | _ => [] end) tr.
(** the last of them *)
Definition last_of (l : list message) : list message := match rev l with [] => [] | m :: _ => [m] end.

(** what service s of b receives from a on link k *)
Definition received (b : nat) (k : key) (s a : nat) (tr : list event) : list message :=
  flat_map (fun e => match e with
                     | ERecv b' k' s' a' m _ => if is b b' k k' && (s' =? s) && (a' =? a) then [m] else []
                     | _ => [] end) tr.

(** messages from a that arrive at link k of b *)
Definition ins (b : nat) (k : key) (a : nat) (tr : list event) : list message :=
  flat_map (fun e => match e with EIn b' k' a' m => if is b b' k k' && (a' =? a) then [m] else [] | _ => [] end) tr.

(** what happens after service s of b becomes a receiver of link k *)
Definition is_reg (b : nat) (k : key) (s : nat) (e : event) : bool :=
  match e with EReg b' k' s' => is b b' k k' && (s' =? s) | _ => false end.
Fixpoint since (b : nat) (k : key) (s : nat) (tr : list event) : list event :=
  match tr with [] => [] | e :: tr => if is_reg b k s e then tr else since b k s tr end.

(** which messages a service is meant to receive from a service of the same participant: status messages and LIN header requests
    are also received by their sender, system commands by nobody *)
Definition hears (k : key) (s : nat) (m : message) : bool :=
  match fst k with
  | ParticipantStatus | LinSendFrameHeaderRequest => true
  | SystemCommand => false
  | _ => negb (fst m =? s)
  end.

(** a sent m on link k *)
Definition was_sent (a : nat) (k : key) (m : message) (tr : list event) : Prop :=
  In (EPub a k m) tr \/ exists c, In (EPubTo a k c m) tr.

(** the history is (not) enabled all the time *)
Definition history_on (a : nat) (k : key) (tr : list event) : Prop := forall h, In (EHist a k h) tr -> h <> 0.
(** the history is switched off before anything is sent *)
Definition history_off (a : nat) (k : key) (tr : list event) : Prop :=
  exists t0 t1, tr = t0 ++ EHist a k 0 :: t1 /\ sent a k t0 = [] /\ forall h, In (EHist a k h) t1 -> h = 0.

(** no other message type has the same serdes name *)
Definition unique_type (t : mtype) : Prop := forall u, serdes_name u = serdes_name t -> u = t.

Definition prefix {A} (p l : list A) : Prop := exists r, l = p ++ r.
Definition suffix {A} (p l : list A) : Prop := exists r, l = r ++ p.

(** the participants that are ever connected have different ids *)
Definition names (ops : list op) : list nat := flat_map (fun o => match o with OConnect a b => [a; b] | _ => [] end) ops.
Definition distinct_ids (hash : nat -> nat) (ops : list op) : Prop :=
  forall x y, In x (names ops) -> In y (names ops) -> hash x = hash y -> x = y.
