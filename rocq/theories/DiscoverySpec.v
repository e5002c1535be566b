From Coq Require Import List NArith Arith Bool.
From Verif Require Import Base DiscoveryModel.
Import ListNotations.
Local Open Scope N_scope.

(** The documented rule for one label of one side against the labels of the other side. *)
Definition label_rule (l : label) (other : list label) : Prop :=
  if l_mandatory l
  then exists l', In l' other /\ l_key l' = l_key l /\ l_val l' = l_val l
  else forall l', In l' other -> l_key l' = l_key l -> l_val l' = l_val l.
Definition labels_match (a b : list label) : Prop :=
  (forall l, In l a -> label_rule l b) /\ (forall l, In l b -> label_rule l a).
Definition unique_keys (ls : list label) : Prop := NoDup (map l_key ls).
(** The same with the first label of a key taken as the label of that key, for lists that repeat a key. *)
Definition first_with (k : N) (ls : list label) (f : label) : Prop :=
  exists p q, ls = p ++ f :: q /\ l_key f = k /\ forall x, In x p -> l_key x <> k.
Definition label_rule_first (l : label) (other : list label) : Prop :=
  (forall f, first_with (l_key l) other f -> l_val f = l_val l) /\
  (l_mandatory l = true -> exists f, first_with (l_key l) other f).
Definition labels_match_first (a b : list label) : Prop :=
  (forall l, In l a -> label_rule_first l b) /\ (forall l, In l b -> label_rule_first l a).

(** What is announced and registered, read off the history. *)
Definition ev_is (t : ctype) (k : N) (t' : ctype) (k' : N) : bool := ctype_eqb t t' && (k =? k').
Fixpoint services_rev (t : ctype) (k : N) (l : list dev) : list item :=  (* history newest first *)
  match l with
  | [] => []
  | DCreated t' k' s :: r => if ev_is t k t' k' then services_rev t k r ++ [svc_item t' s] else services_rev t k r
  | DRemoved t' k' s :: r =>
      if ev_is t k t' k' then filter (fun x => negb (i_id x =? i_id s)) (services_rev t k r) else services_rev t k r
  | DRegister _ _ _ :: r => services_rev t k r
  end.
Fixpoint handlers_rev (t : ctype) (k : N) (l : list dev) : list item :=
  match l with
  | [] => []
  | DRegister t' k' h :: r => if ev_is t k t' k' then handlers_rev t k r ++ [h] else handlers_rev t k r
  | _ :: r => handlers_rev t k r
  end.
(** The services announced and not removed, and the handlers registered, after the history [l]. *)
Definition services (t : ctype) (k : N) (l : list dev) : list item := services_rev t k (rev l).
Definition handlers (t : ctype) (k : N) (l : list dev) : list item := handlers_rev t k (rev l).

(** A service is announced only while it is not announced already; handlers have distinct identities. *)
Definition wf_event (l : list dev) (e : dev) : Prop :=
  match e with
  | DCreated t k s => ~ In (i_id s) (map i_id (services t k l))
  | DRemoved t k s => In (svc_item t s) (services t k l)
  | DRegister t k h => ~ In (i_id h) (map i_id (handlers t k l))
  end.
Definition wf_history (l : list dev) : Prop :=
  forall l1 e l2, l = l1 ++ e :: l2 -> wf_event l1 e.

Definition all_mandatory (it : item) : Prop := forall l, In l (i_labels it) -> l_mandatory l = true.
(** The one situation in which a match can be missed: [me] has an optional label with a key that [it] lacks, and [it]
    has labels. *)
Definition risky (me it : item) : Prop :=
  i_labels it <> [] /\
  exists l, In l (i_labels me) /\ l_mandatory l = false /\ (forall l', In l' (i_labels it) -> l_key l' <> l_key l).

(** Everything handler [h] is told about service [s] of type [t] and key [k] during a run. *)
Definition pair_notes (hid sid : N) (ns : list note) : list bool :=
  flat_map (fun n => let '(a, b, c) := n in if (a =? hid) && (c =? sid) then [b] else []) ns.
Definition ev_of (e : dev) : ctype * N := match e with DCreated t k _ | DRemoved t k _ | DRegister t k _ => (t, k) end.
Fixpoint pair_log (t : ctype) (k : N) (hid sid : N) (l : list dev) (st : store) : list bool :=
  match l with
  | [] => []
  | e :: r => (if ev_is t k (fst (ev_of e)) (snd (ev_of e)) then pair_notes hid sid (fst (dstep e st)) else []) ++
              pair_log t k hid sid r (snd (dstep e st))
  end.
(** What it should be told, given that they match: [reg] and [ann] say whether the handler is registered and the
    service announced. *)
Fixpoint expected_log (t : ctype) (k : N) (hid sid : N) (reg ann : bool) (l : list dev) : list bool :=
  match l with
  | [] => []
  | DCreated t' k' s :: r =>
      if ev_is t k t' k' && (i_id s =? sid) then (if reg then [true] else []) ++ expected_log t k hid sid reg true r
      else expected_log t k hid sid reg ann r
  | DRemoved t' k' s :: r =>
      if ev_is t k t' k' && (i_id s =? sid) then (if reg then [false] else []) ++ expected_log t k hid sid reg false r
      else expected_log t k hid sid reg ann r
  | DRegister t' k' h :: r =>
      if ev_is t k t' k' && (i_id h =? hid) then (if ann then [true] else []) ++ expected_log t k hid sid true ann r
      else expected_log t k hid sid reg ann r
  end.
(** Every event about handler [h] or service [s] carries these descriptors. *)
Definition only_about (t : ctype) (k : N) (h s : item) (l : list dev) : Prop :=
  (forall x, In (DCreated t k x) l \/ In (DRemoved t k x) l -> i_id x = i_id s -> svc_item t x = s) /\
  (forall x, In (DRegister t k x) l -> i_id x = i_id h -> x = h).
