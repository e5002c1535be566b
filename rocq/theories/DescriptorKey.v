(** Model of ServiceDescriptor::to_string, S/core/internal/ServiceDescriptor.hpp 22-51 and 275-306
    (S = /repo/SilKit/source): the key under which ServiceDiscovery caches a service. Strings are byte strings. *)
From Coq Require Import List String Ascii Bool.
Import ListNotations.
Local Open Scope string_scope.

(** ServiceDescriptor.hpp 22-30. *)
Inductive stype := Undefined | Link | Controller | SimulatedController | InternalController.
(** ServiceDescriptor.hpp 31-51. *)
Definition stype_name (t : stype) : string :=
  match t with
  | Undefined => "Undefined" | Link => "Link" | Controller => "Controller"
  | SimulatedController => "SimulatedController" | InternalController => "InternalController"
  end.
(** ServiceDescriptor.hpp 112-119 without the ids; the network type by its name, of the supplemental data only the
    controller type. *)
Record sd := mkSD { sd_participant : string; sd_type : stype; sd_network : string; sd_nettype : string;
                    sd_name : string; sd_ctype : option string }.
(** ServiceDescriptor.hpp 275-304; None is the LogicError of line 291. *)
Definition to_key (d : sd) : option string :=
  let common := sd_participant d ++ "/" ++ stype_name (sd_type d) in
  match sd_type d with
  | Link => Some (common ++ "/" ++ sd_nettype d ++ "/" ++ sd_network d)
  | Controller | SimulatedController =>
      match sd_ctype d with
      | None => None
      | Some c => Some (common ++ "/" ++ c ++ "/" ++ sd_network d ++ "/" ++ sd_name d)
      end
  | InternalController => Some (common ++ "/" ++ sd_name d)
  | Undefined => Some (common ++ "/" ++ sd_network d ++ "/" ++ sd_name d)
  end.

Fixpoint no_slash (s : string) : bool :=
  match s with
  | EmptyString => true
  | String c r => negb (Ascii.eqb c "/"%char) && no_slash r
  end.

Lemma split_slash : forall a b x y, no_slash a = true -> no_slash b = true ->
  a ++ "/" ++ x = b ++ "/" ++ y -> a = b /\ x = y.
Proof.
  induction a as [|c a IH]; intros [|d b] x y A B E; cbn in *.
  - inversion E. auto.
  - inversion E; subst d. cbn in B. discriminate.
  - inversion E; subst c. cbn in A. discriminate.
  - apply andb_true_iff in A, B. inversion E; subst d. destruct (IH b x y) as [-> ->]; tauto.
Qed.
Lemma app_inj : forall a x y : string, a ++ x = a ++ y -> x = y.
Proof. induction a as [|c a IH]; intros x y E; cbn in E; [exact E|]. inversion E. auto. Qed.
Lemma append_assoc : forall a b c : string, (a ++ b) ++ c = a ++ b ++ c.
Proof. induction a as [|x a IH]; intros; cbn; [reflexivity|]. rewrite IH. reflexivity. Qed.

Lemma stype_no_slash : forall t, no_slash (stype_name t) = true.
Proof. intros []; reflexivity. Qed.
Lemma stype_name_inj : forall s t, stype_name s = stype_name t -> s = t.
Proof. intros [] [] H; try reflexivity; discriminate H. Qed.

(** The part of the descriptor its key stands for. *)
Definition same_service (a b : sd) : Prop :=
  sd_participant a = sd_participant b /\ sd_type a = sd_type b /\
  match sd_type a with
  | Link => sd_nettype a = sd_nettype b /\ sd_network a = sd_network b
  | Controller | SimulatedController => sd_ctype a = sd_ctype b /\ sd_network a = sd_network b /\ sd_name a = sd_name b
  | InternalController => sd_name a = sd_name b
  | Undefined => sd_network a = sd_network b /\ sd_name a = sd_name b
  end.
(** No slash in any part but the last. *)
Definition clean (d : sd) : bool :=
  no_slash (sd_participant d) &&
  match sd_type d with
  | Link => no_slash (sd_nettype d)
  | Controller | SimulatedController => match sd_ctype d with Some c => no_slash c | None => true end && no_slash (sd_network d)
  | InternalController => true
  | Undefined => no_slash (sd_network d)
  end.

Lemma to_key_inj : forall a b k, clean a = true -> clean b = true -> to_key a = Some k -> to_key b = Some k ->
  same_service a b.
Proof.
  intros [p t n nt sn ct] [p' t' n' nt' sn' ct'] k. unfold clean, to_key, same_service. cbn.
  intros A B E1 E2. apply andb_true_iff in A, B. destruct A as [A1 A2], B as [B1 B2].
  assert (exists x y, p ++ "/" ++ stype_name t ++ "/" ++ x = p' ++ "/" ++ stype_name t' ++ "/" ++ y /\
     Some (p ++ "/" ++ stype_name t ++ "/" ++ x) = Some k /\ Some (p' ++ "/" ++ stype_name t' ++ "/" ++ y) = Some k) as (x & y & E & X1 & X2).
  { assert (G : forall p t n nt sn ct, (match t with
       | Link => Some ((p ++ "/" ++ stype_name t) ++ "/" ++ nt ++ "/" ++ n)
       | Controller | SimulatedController =>
         match ct with None => None | Some c => Some ((p ++ "/" ++ stype_name t) ++ "/" ++ c ++ "/" ++ n ++ "/" ++ sn) end
       | InternalController => Some ((p ++ "/" ++ stype_name t) ++ "/" ++ sn)
       | Undefined => Some ((p ++ "/" ++ stype_name t) ++ "/" ++ n ++ "/" ++ sn) end) = Some k ->
       exists x, Some (p ++ "/" ++ stype_name t ++ "/" ++ x) = Some k).
    { clear. intros p t n nt sn ct H.
      destruct t; [ | |destruct ct; [|discriminate]|destruct ct; [|discriminate]| ]; cbn [stype_name];
        rewrite append_assoc in H; rewrite append_assoc in H; eexists; exact H. }
    destruct (G _ _ _ _ _ _ E1) as [x X]. destruct (G _ _ _ _ _ _ E2) as [y Y]. exists x, y. split; [congruence|]. auto. }
  destruct (split_slash _ _ _ _ A1 B1 E) as [<- E']. destruct (split_slash _ _ _ _ (stype_no_slash t) (stype_no_slash t') E') as [T _].
  apply stype_name_inj in T. subst t'. clear E E' X1 X2. split; [reflexivity|]. split; [reflexivity|].
  assert (I : forall z w, Some ((p ++ "/" ++ stype_name t) ++ "/" ++ z) = Some k -> Some ((p ++ "/" ++ stype_name t) ++ "/" ++ w) = Some k -> z = w).
  { intros z w H1 H2. assert (H : (p ++ "/" ++ stype_name t) ++ "/" ++ z = (p ++ "/" ++ stype_name t) ++ "/" ++ w) by congruence.
    apply app_inj in H. inversion H. reflexivity. }
  destruct t.
  - specialize (I _ _ E1 E2). destruct (split_slash _ _ _ _ A2 B2 I). auto.
  - specialize (I _ _ E1 E2). destruct (split_slash _ _ _ _ A2 B2 I). auto.
  - destruct ct, ct'; try discriminate. specialize (I _ _ E1 E2).
    apply andb_true_iff in A2, B2. destruct A2 as [A2 A3], B2 as [B2 B3].
    destruct (split_slash _ _ _ _ A2 B2 I) as [-> I']. destruct (split_slash _ _ _ _ A3 B3 I') as [-> ->]. auto.
  - destruct ct, ct'; try discriminate. specialize (I _ _ E1 E2).
    apply andb_true_iff in A2, B2. destruct A2 as [A2 A3], B2 as [B2 B3].
    destruct (split_slash _ _ _ _ A2 B2 I) as [-> I']. destruct (split_slash _ _ _ _ A3 B3 I') as [-> ->]. auto.
  - specialize (I _ _ E1 E2). exact I.
Qed.
