From Coq Require Import List Arith Bool Lia.
From Verif Require Import ListenModel.
Import ListNotations.

(** ** Maps *)
Lemma find_in : forall i l a, lookup i l = Some a -> In (i, a) l.
Proof. intros i l a H. unfold lookup in H. destruct (find _ l) as [[j b]|] eqn:F; [|discriminate]. apply find_some in F. destruct F as [I E]. apply Nat.eqb_eq in E. cbn in *. subst. now injection H as ->. Qed.
Lemma lookup_none : forall i l, lookup i l = None <-> ~ In i (map fst l).
Proof.
  intros i l. unfold lookup. induction l as [|[j b] l IH]; cbn; [tauto|]. destruct (Nat.eqb_spec j i) as [->|N]; cbn; [split; [discriminate|intros H; elim H; now left]|]. rewrite IH. tauto.
Qed.
Lemma lookup_update : forall i j a l, lookup j (update i a l) = if j =? i then (match lookup j l with Some _ => Some a | None => None end) else lookup j l.
Proof.
  intros i j a l. unfold lookup, update. induction l as [|[k b] l IH]; cbn; [now destruct (j =? i)|].
  destruct (Nat.eqb_spec k i) as [->|K]; cbn.
  - destruct (Nat.eqb_spec i j) as [->|N]; cbn; [now rewrite Nat.eqb_refl|]. destruct (Nat.eqb_spec j i) as [E|_]; [now elim N|]. rewrite IH. destruct (Nat.eqb_spec j i) as [E|_]; [now elim N|]. reflexivity.
  - destruct (Nat.eqb_spec k j) as [->|N]; cbn; [|exact IH]. destruct (Nat.eqb_spec j i) as [E|_]; [now elim K|reflexivity].
Qed.
Lemma lookup_erase : forall i j l, lookup j (erase i l) = if j =? i then None else lookup j l.
Proof.
  intros i j l. unfold lookup, erase. induction l as [|[k b] l IH]; cbn; [now destruct (j =? i)|].
  destruct (Nat.eqb_spec k i) as [->|K]; cbn.
  - rewrite IH. destruct (Nat.eqb_spec i j) as [->|N]; cbn; [now rewrite Nat.eqb_refl|]. destruct (Nat.eqb_spec j i) as [E|_]; [now elim N|reflexivity].
  - destruct (Nat.eqb_spec k j) as [->|N]; cbn; [|exact IH]. destruct (Nat.eqb_spec j i) as [E|_]; [now elim K|reflexivity].
Qed.
Lemma lookup_app : forall j l k a, lookup j (l ++ [(k, a)]) = match lookup j l with Some x => Some x | None => if k =? j then Some a else None end.
Proof. intros j l k a. unfold lookup. induction l as [|[m b] l IH]; cbn; [now destruct (k =? j)|]. destruct (m =? j); [reflexivity|exact IH]. Qed.
Lemma lookup_map : forall j f l, lookup j (map (fun x : nat * acceptor => (fst x, f (snd x))) l) = option_map f (lookup j l).
Proof. intros j f l. unfold lookup. induction l as [|[m b] l IH]; cbn; [reflexivity|]. destruct (m =? j); [reflexivity|exact IH]. Qed.

(** ** The handlers that are run *)
Definition handled (c : conn) (o : cop) : list (nat * result) :=
  match o with
  | CRun i => match lookup i (c_list c) with Some a => match a_op a with ADone r => [(i, r)] | _ => [] end | None => [] end
  | _ => []
  end.
Fixpoint history (ops : list cop) (c : conn) : list (nat * result) :=
  match ops with [] => [] | o :: ops => handled c o ++ history ops (cstep c o) end.
Definition results (i : nat) (h : list (nat * result)) : list result := map snd (filter (fun x => fst x =? i) h).
Lemma results_app : forall i a b, results i (a ++ b) = results i a ++ results i b.
Proof. intros. unfold results. now rewrite filter_app, map_app. Qed.
Lemma history_app : forall a b c, history (a ++ b) c = history a c ++ history b (crun a c).
Proof. induction a as [|o a IH]; intros b c; [reflexivity|]. cbn. now rewrite IH, app_assoc. Qed.
Lemma crun_app : forall a b c, crun (a ++ b) c = crun b (crun a c).
Proof. intros. unfold crun. apply fold_left_app. Qed.

(** a connection that becomes a peer; a failure after which the acceptor is removed; one after which it is not *)
Definition accepted (r : result) : Prop := r = RSock (mkSock true true true true).
Definition refused (r : result) : Prop := r = RErr \/ exists s, r = RSock s /\ s_opts s = false.
Definition broken (r : result) : Prop := exists s, r = RSock s /\ s_opts s = true /\ (s_local s = false \/ s_remote s = false \/ s_peer s = false).
Lemma result_cases : forall r, accepted r \/ refused r \/ broken r.
Proof.
  intros [|[o l m p]]; [right; left; now left|]. destruct o; [|right; left; right; eexists; split; reflexivity]. destruct l, m, p;
  try (right; right; eexists; split; [reflexivity|]; cbn; intuition fail). now left.
Qed.
Definition idle (a : acceptor) : Prop := a_pending a = false /\ a_op a = ANone.
Definition listening (a : acceptor) : Prop := a_open a = true /\ a_pending a = true /\ a_op a <> ANone.
Definition wellformed (a : acceptor) : Prop := a_pending a = true <-> a_op a <> ANone.

Lemma run_handler : forall c i a r, lookup i (c_list c) = Some a -> a_op a = ADone r -> a_pending a = true ->
  (accepted r -> exists a', lookup i (c_list (cstep c (CRun i))) = Some a' /\ a_open a' = a_open a /\ a_pending a' = true /\ a_op a' = (if a_open a then AWait else ADone RErr) /\ c_peers (cstep c (CRun i)) = c_peers c ++ [i]) /\
  (refused r -> lookup i (c_list (cstep c (CRun i))) = None /\ c_peers (cstep c (CRun i)) = c_peers c) /\
  (broken r -> exists a', lookup i (c_list (cstep c (CRun i))) = Some a' /\ idle a' /\ c_peers (cstep c (CRun i)) = c_peers c).
Proof.
  intros c i a r L O P. cbn [cstep]. rewrite L, O. unfold complete. rewrite P. cbn [negb]. repeat split.
  - intros ->. cbn [s_opts s_local negb]. unfold on_success. cbn. eexists. rewrite lookup_update, Nat.eqb_refl, L. repeat split.
  - destruct H as [->|(s & -> & S)]; [cbn; now rewrite lookup_erase, Nat.eqb_refl|]. rewrite S. cbn. now rewrite lookup_erase, Nat.eqb_refl.
  - destruct H as [->|(s & -> & S)]; [reflexivity|]. rewrite S. reflexivity.
  - intros (s & -> & S & D). rewrite S. cbn [negb]. destruct (s_local s) eqn:X; cbn [negb].
    + unfold on_success. rewrite X. cbn [negb orb]. destruct (s_remote s) eqn:Y; cbn [negb].
      * destruct (s_peer s) eqn:Z; [destruct D as [D|[D|D]]; discriminate|]. cbn. eexists. rewrite lookup_update, Nat.eqb_refl, L. repeat split.
      * eexists. cbn. rewrite lookup_update, Nat.eqb_refl, L. repeat split.
    + eexists. cbn. rewrite lookup_update, Nat.eqb_refl, L. repeat split.
Qed.
Lemma run_other : forall c o i, (forall r, o <> CNet i r) -> o <> CRun i -> o <> CShutdown -> (o = COpen -> i <> c_next c) ->
  lookup i (c_list (cstep c o)) = lookup i (c_list c) /\ count_occ Nat.eq_dec (c_peers (cstep c o)) i = count_occ Nat.eq_dec (c_peers c) i /\ results i (handled c o) = [].
Proof.
  intros c [|j r|j|] i N1 N2 N3 N4; cbn [cstep handled].
  - cbn. rewrite lookup_app. destruct (lookup i (c_list c)); [auto|]. destruct (Nat.eqb_spec (c_next c) i) as [<-|]; [now elim (N4 eq_refl)|auto].
  - assert (i <> j) by (intros <-; now elim (N1 r)). destruct (lookup j (c_list c)); [|auto]. cbn. rewrite lookup_update. destruct (Nat.eqb_spec i j); [congruence|auto].
  - assert (J : i <> j) by (intros <-; now elim N2). assert (EQ : (i =? j) = false) by now apply Nat.eqb_neq. destruct (lookup j (c_list c)) as [a|]; [|auto]. destruct (a_op a) as [| |r]; [auto|auto|].
    assert (R : results i [(j, r)] = []) by (unfold results; cbn; rewrite Nat.eqb_sym, EQ; reflexivity). rewrite R.
    destruct (complete r a) as [a' [s| |]]; cbn; rewrite ?lookup_erase, ?lookup_update, ?EQ; [|auto|auto]. unfold on_success.
    destruct (negb (s_local s) || negb (s_remote s)); [cbn; rewrite lookup_update, EQ; auto|]. destruct (negb (s_peer s)); [cbn; rewrite lookup_update, EQ; auto|].
    destruct (async_accept false a'); cbn; rewrite lookup_update, EQ, count_occ_app; cbn; (destruct (Nat.eq_dec j i); [congruence|]); rewrite Nat.add_0_r; auto.
  - now elim N3.
Qed.
