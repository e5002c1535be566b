(** Proofs about the network simulator. *)
From Coq Require Import List Arith Bool ZArith Lia.
From Verif Require Import Base NetSimModel.
Import ListNotations.
Open Scope nat_scope.

Ltac spl := repeat match goal with |- _ /\ _ => split end.

(** ** Vocabulary *)
Definition net_of (d : desc) : ntype * nat := (d_type d, d_net d).
Definition addr (d : desc) : nat * nat := (d_part d, d_sid d).
(** a descriptor of a controller as it should be *)
Definition proper (d : desc) : bool :=
  kind_eqb (d_kind d) KController && negb (ntype_eqb (d_type d) TUndef) && negb (d_net d =? 0) && d_named d.

(** The history of operations in the abstract: which networks are simulated, and which controllers are present, with
    the numbers in which they were discovered. *)
Record abs := { a_sims : list (ntype * nat); a_started : bool; a_reg : bool; a_next : nat; a_alive : list (nat * desc) }.
Definition abs0 : abs := {| a_sims := []; a_started := false; a_reg := false; a_next := 0; a_alive := [] |}.
Definition simulated (n : ntype * nat) (a : abs) : bool := existsb (net_eqb n) (a_sims a).

Section Spec.
Variable me : nat.
Variable provide : ntype * nat -> nat -> option nat.
(** the discovery of [d] ends with an exception: another simulator of a simulated network, a controller without network or
    name, or a simulated controller without type *)
Definition rejects (created : bool) (d : desc) (a : abs) : bool :=
  match d_kind d with
  | KLink => negb (d_part d =? me) && simulated (net_of d) a
  | KController =>
    if proper d then created && simulated (net_of d) a && negb (d_typed d) &&
                     match provide (net_of d) (S (a_next a)) with Some _ => true | None => false end
    else negb (ntype_eqb (d_type d) TUndef)
  | KOther => false
  end.
Definition abs_discover (created : bool) (d : desc) (a : abs) : abs :=
  if proper d then
    if created then {| a_sims := a_sims a; a_started := a_started a; a_reg := a_reg a; a_next := S (a_next a);
                       a_alive := a_alive a ++ [(S (a_next a), d)] |}
    else {| a_sims := a_sims a; a_started := a_started a; a_reg := a_reg a; a_next := a_next a;
            a_alive := filter (fun x => negb (pair_eqb (addr d) (addr (snd x)))) (a_alive a) |}
  else a.
Fixpoint abs_all (l : list desc) (a : abs) : abs * bool :=
  match l with
  | [] => (a, false)
  | d :: r => if rejects true d a then (abs_discover true d a, true) else abs_all r (abs_discover true d a)
  end.
Definition abs_step (a : abs) (o : op) : abs :=
  match o with
  | OSimulate n => if a_started a || ntype_eqb (fst n) TUndef || simulated n a then a else
      {| a_sims := n :: a_sims a; a_started := a_started a; a_reg := a_reg a; a_next := a_next a; a_alive := a_alive a |}
  | OStart l => if a_started a then a else
      let (b, x) := abs_all l {| a_sims := a_sims a; a_started := true; a_reg := a_reg a; a_next := a_next a; a_alive := a_alive a |} in
      if x then b else {| a_sims := a_sims b; a_started := true; a_reg := true; a_next := a_next b; a_alive := a_alive b |}
  | ODiscover c d => if a_reg a then abs_discover c d a else a
  | _ => a
  end.
Definition abs_run (ops : list op) : abs := fold_left abs_step ops abs0.
(** What the service discovery guarantees: a participant uses a service id for one service at a time, and a service
    is removed only after it was created. *)
Definition ok_op (a : abs) (o : op) : Prop :=
  match o with
  | OStart l => NoDup (map addr (filter proper l))
  | ODiscover true d => a_reg a = true -> proper d = true -> ~ In (addr d) (map (fun x => addr (snd x)) (a_alive a))
  | ODiscover false d => a_reg a = true -> proper d = true -> In d (map snd (a_alive a))
  | _ => True
  end.
Definition wf (ops : list op) : Prop := forall ops1 o ops2, ops = ops1 ++ o :: ops2 -> ok_op (abs_run ops1) o.
End Spec.

(** ** Maps *)
Lemma pair_eqb_eq a b : pair_eqb a b = true <-> a = b.
Proof. destruct a, b. unfold pair_eqb. cbn. rewrite andb_true_iff, !Nat.eqb_eq. split; [intros [-> ->]|intros [= -> ->]]; auto. Qed.
Lemma ntype_eqb_eq a b : ntype_eqb a b = true <-> a = b.
Proof. destruct a, b; cbn; split; congruence. Qed.
Lemma net_eqb_eq a b : net_eqb a b = true <-> a = b.
Proof. destruct a, b. unfold net_eqb. cbn. rewrite andb_true_iff, ntype_eqb_eq, Nat.eqb_eq. split; [intros [-> ->]|intros [= -> ->]]; auto. Qed.
Section MapLemmas.
Context {K V : Type} (eqb : K -> K -> bool) (E : forall a b, eqb a b = true <-> a = b).
Lemma eqb_r k : eqb k k = true. Proof. now apply E. Qed.
Lemma get_put k v l k' : get eqb k' (put eqb k v l) = if eqb k' k then Some v else get (V := V) eqb k' l.
Proof.
  induction l as [|[x y] r IH]; cbn. { reflexivity. }
  destruct (eqb k x) eqn:A.
  - apply E in A. subst. cbn. destruct (eqb k' x); auto.
  - cbn. destruct (eqb k' x) eqn:B; auto. destruct (eqb k' k) eqn:C; auto. apply E in B, C. subst. rewrite eqb_r in A. discriminate.
Qed.
Lemma get_app k l1 l2 : get eqb k (l1 ++ l2) = match get (V := V) eqb k l1 with Some v => Some v | None => get eqb k l2 end.
Proof. induction l1 as [|[x y] r IH]; cbn; auto. destruct (eqb k x); auto. Qed.
Lemma get_ins k v l k' : get eqb k' (ins eqb k v l) =
  if eqb k' k then match get (V := V) eqb k l with Some v' => Some v' | None => Some v end else get eqb k' l.
Proof.
  unfold ins. destruct (get eqb k l) eqn:A; destruct (eqb k' k) eqn:B; auto.
  - apply E in B. now subst.
  - apply E in B. subst. rewrite get_app, A. cbn. now rewrite eqb_r.
  - rewrite get_app. cbn. rewrite B. destruct (get eqb k' l); auto.
Qed.
Lemma get_del k l k' : get eqb k' (del eqb k l) = if eqb k' k then None else get (V := V) eqb k' l.
Proof.
  unfold del.
  induction l as [|[x y] r IH]; cbn. { now destruct eqb. }
  destruct (eqb k x) eqn:A; cbn.
  - rewrite IH. apply E in A. subst. destruct (eqb k' x) eqn:B; auto.
  - rewrite IH. destruct (eqb k' x) eqn:B; auto. destruct (eqb k' k) eqn:C; auto. apply E in B, C. subst. rewrite eqb_r in A. discriminate.
Qed.
End MapLemmas.

Lemma NoDup_app_iff_local {A} (l1 l2 : list A) : NoDup (l1 ++ l2) <-> NoDup l1 /\ NoDup l2 /\ (forall x, In x l1 -> ~ In x l2).
Proof.
  induction l1 as [|x l IH]; cbn.
  - split; [intros H; spl; auto; constructor|tauto].
  - rewrite !NoDup_cons_iff, IH, in_app_iff. firstorder. subst. tauto.
Qed.
Lemma lookup_store n w s m : lookup m (store n w s) = if net_eqb m n then Some w else lookup m s.
Proof. unfold lookup, store. cbn. apply get_put, net_eqb_eq. Qed.

(** ** Conditions on logs *)
Definition hist (C : list ev -> ev -> Prop) (l : list ev) : Prop := forall a e b, l = a ++ e :: b -> C a e.
Lemma hist_nil C : hist C []. Proof. intros a e b H. destruct a; discriminate. Qed.
Lemma hist_snoc C l e : hist C l -> C l e -> hist C (l ++ [e]).
Proof.
  intros H1 H2 a x b Hx. destruct (exists_last (l := x :: b)) as (b' & y & Hy); [discriminate|].
  rewrite Hy, app_assoc in Hx. apply app_inj_tail in Hx as [-> <-].
  destruct b' as [|z b']; cbn in Hy.
  - injection Hy as -> ->. now rewrite app_nil_r in H2.
  - injection Hy as <- ->. eapply H1. reflexivity.
Qed.
Definition cond (a : list ev) (e : ev) : Prop :=
  match e with
  | EProvide n i => 1 <= i /\ forall m, ~ In (EProvide m i) a
  | ERemoved n i => In (EProvide n i) a /\ forall m, ~ In (ERemoved m i) a
  | EProducer n => ~ In (EProducer n) a
  | _ => True
  end.

(** ** The invariant *)
Section Inv.
Variable me : nat.
Variable provide : ntype * nat -> nat -> option nat.
Notation handler := (discovery_handler me provide).

Record NetOk (n : ntype * nat) (w : network) (a : abs) : Prop := {
  o_ids : forall x i, get pair_eqb x (n_ids w) = Some i <-> exists d, In (i, d) (a_alive a) /\ addr d = x /\ net_of d = n;
  o_ctl : forall x u, get pair_eqb x (n_ctl w) = Some u <->
    exists i d, In (i, d) (a_alive a) /\ addr d = x /\ net_of d = n /\ d_typed d = true /\ provide n i = Some u;
  o_tgt : forall i x, get Nat.eqb i (n_tgt w) = Some x <->
    exists d, In (i, d) (a_alive a) /\ addr d = x /\ net_of d = n /\ d_typed d = true /\ provide n i <> None }.
Record Inv1 (s : st) (a : abs) : Prop := {
  v_started : s_started s = a_started a; v_reg : s_reg s = a_reg a; v_next : s_next s = a_next a;
  v_sims : forall n, simulated n a = match lookup n s with Some _ => true | None => false end;
  v_nets : forall n w, lookup n s = Some w -> NetOk n w a;
  v_le : forall i d, In (i, d) (a_alive a) -> 1 <= i <= a_next a;
  v_ids : NoDup (map fst (a_alive a));
  v_addr : NoDup (map (fun x => addr (snd x)) (a_alive a));
  v_proper : forall i d, In (i, d) (a_alive a) -> proper d = true;
  v_fresh : a_started a = false -> a_alive a = [] /\ a_reg a = false;
  v_prov_le : forall n i, In (EProvide n i) (s_log s) -> i <= a_next a /\ simulated n a = true;
  v_rem : forall n i d, In (ERemoved n i) (s_log s) -> ~ In (i, d) (a_alive a);
  v_prov : forall n i, In (EProvide n i) (s_log s) -> In (ERemoved n i) (s_log s) \/ exists d, In (i, d) (a_alive a) /\ net_of d = n;
  v_alive : forall i d, In (i, d) (a_alive a) -> simulated (net_of d) a = true -> In (EProvide (net_of d) i) (s_log s);
  v_hist : hist cond (s_log s);
  v_prod : forall n, In (EProducer n) (s_log s) <-> exists w, lookup n s = Some w /\ n_prod w = true }.
Record Inv2 (s : st) (a : abs) : Prop := {
  v_cnt : forall x, s_cnt s x = Z.of_nat (length (filter (fun y => d_net (snd y) =? x) (a_alive a)));
  v_seen : forall x, In x (s_seen s) <-> exists y, In y (a_alive a) /\ d_net (snd y) = x }.

Lemma inv1_0 : Inv1 init abs0.
Proof.
  constructor; cbn; auto; try (intros; contradiction); try (intros; discriminate); try constructor; try (intros [? [? ?]]; discriminate);
    try (intros []); try (intros (? & [] & _)); try apply hist_nil; try discriminate.
Qed.
Lemma inv2_0 : Inv2 init abs0.
Proof. constructor; cbn; auto. intros x. split; [intros []|intros (? & [] & _)]. Qed.

(** events that are not about controllers *)
Definition plain (e : ev) : bool := match e with ERequest _ _ | ESend _ _ _ | EThrow | EUb => true | _ => false end.
Lemma in_emit_plain e x s : plain e = true -> plain x = false -> In x (s_log (emit e s)) <-> In x (s_log s).
Proof.
  intros H H'. cbn. rewrite in_app_iff. cbn. intuition. subst. congruence.
Qed.
Lemma inv1_plain e s a : plain e = true -> Inv1 s a -> Inv1 (emit e s) a.
Proof.
  intros P []. constructor; auto.
  - intros n i H. apply in_emit_plain in H; auto.
  - intros n i d H. apply in_emit_plain in H; auto. eauto.
  - intros n i H. apply in_emit_plain in H; auto. destruct (v_prov0 n i H); auto. left. now apply in_emit_plain.
  - intros i d H1 H2. apply in_emit_plain; auto.
  - cbn. apply hist_snoc; auto. destruct e; try discriminate; exact I.
  - intros n. rewrite in_emit_plain; auto. exact (v_prod0 n).
Qed.
Lemma inv1_ext s s' a : Inv1 s a -> s_started s' = s_started s -> s_reg s' = s_reg s -> s_next s' = s_next s ->
  s_nets s' = s_nets s -> s_log s' = s_log s -> Inv1 s' a.
Proof.
  intros [] E1 E2 E3 E4 E5. unfold lookup in *. constructor; unfold lookup; rewrite ?E1, ?E2, ?E3, ?E4, ?E5; auto.
Qed.

Lemma inv1_network n s a : Inv1 s a -> Inv1 (on_network_discovered n s) a.
Proof.
  intros H. unfold on_network_discovered. cbn [s_seen set_seen].
  destruct (known (snd n) (s_seen s)). { eapply inv1_ext; eauto. }
  set (s1 := set_seen _ _ _). assert (H1 : Inv1 s1 a) by (eapply inv1_ext; eauto). clearbody s1. clear H.
  destruct (lookup n s1) as [w|] eqn:L; auto. destruct (n_prod w) eqn:P; auto.
  pose proof (v_nets _ _ H1 n w L) as N. destruct H1. constructor; auto.
  - intros m. rewrite v_sims0. change (lookup m (emit _ ?x)) with (lookup m x). rewrite lookup_store. destruct (net_eqb m n) eqn:E; auto.
    apply net_eqb_eq in E. subst. now rewrite L.
  - intros m w'. change (lookup m (emit _ ?x)) with (lookup m x). rewrite lookup_store. destruct (net_eqb m n) eqn:E; eauto.
    intros [= <-]. apply net_eqb_eq in E. subst. destruct N. constructor; auto.
  - intros m i. cbn. rewrite in_app_iff. cbn. intros [Hi|[Hi|[]]]; [eauto|discriminate].
  - intros m i d. cbn. rewrite in_app_iff. cbn. intros [Hi|[Hi|[]]]; [eauto|discriminate].
  - intros m i. cbn. rewrite !in_app_iff. cbn. intros [Hi|[Hi|[]]]; [|discriminate]. destruct (v_prov0 m i Hi); auto.
  - intros i d Hi Hs. cbn. rewrite in_app_iff. left. auto.
  - cbn. apply hist_snoc; auto. cbn. intros X. apply v_prod0 in X as (w' & X1 & X2). congruence.
  - intros m. cbn [s_log emit]. rewrite in_app_iff. change (lookup m (emit _ ?x)) with (lookup m x). rewrite lookup_store.
    destruct (net_eqb m n) eqn:E.
    + apply net_eqb_eq in E. subst. cbn. split; intros _; eauto.
    + split.
      * intros [Hi|[Hi|[]]]; [now apply v_prod0|]. injection Hi as ->. rewrite (proj2 (net_eqb_eq m m) eq_refl) in E. discriminate.
      * intros Hi. left. now apply v_prod0.
Qed.

Lemma netok_other n w a a' i d : NetOk n w a -> a_alive a' = a_alive a ++ [(i, d)] -> net_of d <> n -> NetOk n w a'.
Proof.
  intros [K1 K2 K3] E D. constructor; rewrite E.
  - intros x j. rewrite K1. split; intros (e & H & H1 & H2); exists e; rewrite in_app_iff in *; spl; auto.
    destruct H as [H|[[= <- <-]|[]]]; auto. contradiction.
  - intros x u. rewrite K2. split; intros (j & e & H & H1 & H2 & H3); exists j, e; rewrite in_app_iff in *; spl; try tauto.
    destruct H as [H|[[= <- <-]|[]]]; auto. contradiction.
  - intros j x. rewrite K3. split; intros (e & H & H1 & H2 & H3); exists e; rewrite in_app_iff in *; spl; try tauto.
    destruct H as [H|[[= <- <-]|[]]]; auto. contradiction.
Qed.
Lemma get_nat_r i : Nat.eqb i i = true. Proof. apply Nat.eqb_refl. Qed.
Lemma netok_add n w a a' i d : NetOk n w a -> a_alive a' = a_alive a ++ [(i, d)] -> net_of d = n ->
  (forall e, ~ In (i, e) (a_alive a)) -> ~ In (addr d) (map (fun x => addr (snd x)) (a_alive a)) ->
  NetOk n {| n_prod := n_prod w; n_ids := put pair_eqb (addr d) i (n_ids w);
             n_ctl := match provide n i with Some u => if d_typed d then ins pair_eqb (addr d) u (n_ctl w) else n_ctl w | None => n_ctl w end;
             n_tgt := match provide n i with Some u => if d_typed d then ins Nat.eqb i (addr d) (n_tgt w) else n_tgt w | None => n_tgt w end |} a'.
Proof.
  intros [K1 K2 K3] E D F1 F2.
  assert (F : forall j e, In (j, e) (a_alive a) -> addr e <> addr d).
  { intros j e H X. apply F2. rewrite <- X. exact (in_map (fun x => addr (snd x)) _ _ H). }
  assert (G : get pair_eqb (addr d) (n_ctl w) = None).
  { destruct (get pair_eqb (addr d) (n_ctl w)) eqn:X; auto. apply K2 in X as (j & e & X & X' & _). destruct (F _ _ X X'). }
  assert (G' : get Nat.eqb i (n_tgt w) = None).
  { destruct (get Nat.eqb i (n_tgt w)) eqn:X; auto. apply K3 in X as (e & X & _). destruct (F1 _ X). }
  constructor; rewrite E; cbn [n_ids n_ctl n_tgt].
  - intros x j. rewrite get_put by apply pair_eqb_eq. destruct (pair_eqb x (addr d)) eqn:X.
    + apply pair_eqb_eq in X. subst x. split.
      * intros [= <-]. exists d. rewrite in_app_iff. cbn. auto.
      * intros (e & H & H1 & _). apply in_app_iff in H as [H|[[= <- <-]|[]]]; auto. destruct (F _ _ H H1).
    + rewrite K1. split; intros (e & H & H1 & H2); exists e; rewrite in_app_iff in *; spl; auto.
      destruct H as [H|[[= <- <-]|[]]]; auto. subst x. rewrite (proj2 (pair_eqb_eq _ _) eq_refl) in X. discriminate.
  - intros x u. destruct (provide n i) as [u0|] eqn:P; [destruct (d_typed d) eqn:T|].
    + rewrite get_ins by apply pair_eqb_eq. rewrite G. destruct (pair_eqb x (addr d)) eqn:X.
      * apply pair_eqb_eq in X. subst x. split.
        -- intros [= <-]. exists i, d. rewrite in_app_iff. cbn. auto 8.
        -- intros (j & e & H & H1 & H2 & H3 & H4). apply in_app_iff in H as [H|[[= <- <-]|[]]]; [|congruence]. destruct (F _ _ H H1).
      * rewrite K2. split; intros (j & e & H & H1 & H2); exists j, e; rewrite in_app_iff in *; spl; try tauto.
        destruct H as [H|[[= <- <-]|[]]]; auto. subst x. rewrite (proj2 (pair_eqb_eq _ _) eq_refl) in X. discriminate.
    + rewrite K2. split; intros (j & e & H & H1 & H2 & H3 & H4); exists j, e; rewrite in_app_iff in *; spl; try tauto.
      destruct H as [H|[[= <- <-]|[]]]; auto. congruence.
    + rewrite K2. split; intros (j & e & H & H1 & H2 & H3 & H4); exists j, e; rewrite in_app_iff in *; spl; try tauto.
      destruct H as [H|[[= <- <-]|[]]]; auto. congruence.
  - intros j x. destruct (provide n i) as [u0|] eqn:P; [destruct (d_typed d) eqn:T|].
    + rewrite get_ins by apply Nat.eqb_eq. rewrite G'. destruct (Nat.eqb j i) eqn:X.
      * apply Nat.eqb_eq in X. subst j. split.
        -- intros [= <-]. exists d. rewrite in_app_iff. cbn. spl; auto. congruence.
        -- intros (e & H & H1 & H2 & H3 & H4). apply in_app_iff in H as [H|[[= <-]|[]]]; [|congruence]. destruct (F1 _ H).
      * rewrite K3. split; intros (e & H & H1 & H2); exists e; rewrite in_app_iff in *; spl; try tauto.
        destruct H as [H|[[= <- <-]|[]]]; auto. rewrite Nat.eqb_refl in X. discriminate.
    + rewrite K3. split; intros (e & H & H1 & H2 & H3 & H4); exists e; rewrite in_app_iff in *; spl; try tauto.
      destruct H as [H|[[= <- <-]|[]]]; auto. congruence.
    + rewrite K3. split; intros (e & H & H1 & H2 & H3 & H4); exists e; rewrite in_app_iff in *; spl; try tauto.
      destruct H as [H|[[= <- <-]|[]]]; auto. congruence.
Qed.

(** on_controller_discovered in one piece *)
Lemma controller_discovered_eq d s : exists s',
  on_controller_discovered provide d s = (s', match lookup (net_of d) s with
      Some _ => match provide (net_of d) (S (s_next s)) with Some _ => negb (d_typed d) | None => false end | None => false end) /\
  s_started s' = s_started s /\ s_reg s' = s_reg s /\ s_next s' = S (s_next s) /\ s_cnt s' = s_cnt s /\ s_seen s' = s_seen s /\ s_dead s' = s_dead s /\
  s_log s' = s_log s ++ match lookup (net_of d) s with Some _ => [EProvide (net_of d) (S (s_next s))] | None => [] end /\
  forall m, lookup m s' = match lookup (net_of d) s with
    | Some w => if net_eqb m (net_of d) then let i := S (s_next s) in let n := net_of d in Some
       {| n_prod := n_prod w; n_ids := put pair_eqb (addr d) i (n_ids w);
             n_ctl := match provide n i with Some u => if d_typed d then ins pair_eqb (addr d) u (n_ctl w) else n_ctl w | None => n_ctl w end;
             n_tgt := match provide n i with Some u => if d_typed d then ins Nat.eqb i (addr d) (n_tgt w) else n_tgt w | None => n_tgt w end |}
      else lookup m s
    | None => lookup m s end.
Proof.
  unfold on_controller_discovered. fold (net_of d). set (s1 := set_desc _ _ s).
  change (lookup (net_of d) s1) with (lookup (net_of d) s). destruct (lookup (net_of d) s) as [w|] eqn:L.
  - unfold add_controller. fold (addr d). cbn [n_prod n_ids n_ctl n_tgt]. destruct (provide (net_of d) (S (s_next s))) as [u|].
    + destruct (d_typed d); eexists; (split; [reflexivity|]); spl; try reflexivity.
      * intros m. rewrite lookup_store. destruct (net_eqb m (net_of d)) eqn:X; auto.
        change (lookup m (emit ?e ?x)) with (lookup m x). rewrite lookup_store, X. reflexivity.
      * intros m. change (lookup m (emit ?e ?x)) with (lookup m x). rewrite lookup_store. reflexivity.
    + eexists; (split; [reflexivity|]); spl; try reflexivity.
      intros m. change (lookup m (emit ?e ?x)) with (lookup m x). rewrite lookup_store. reflexivity.
  - eexists; (split; [reflexivity|]); spl; try reflexivity. cbn. now rewrite app_nil_r.
Qed.
Lemma inv1_created d s a : Inv1 s a -> proper d = true -> a_started a = true -> ~ In (addr d) (map (fun x => addr (snd x)) (a_alive a)) ->
  Inv1 (fst (on_controller_discovered provide d s)) (abs_discover true d a).
Proof.
  intros H P S0 F. destruct (controller_discovered_eq d s) as (s' & -> & E1 & E2 & E3 & _ & _ & _ & E4 & E5). cbn [fst].
  unfold abs_discover. rewrite P. pose proof (v_sims _ _ H) as VS. pose proof (v_nets _ _ H) as VN. pose proof (v_next _ _ H) as VX. destruct H.
  assert (LE : forall e, ~ In (S (a_next a), e) (a_alive a)). { intros e X. apply v_le0 in X. lia. }
  constructor; cbn [a_started a_reg a_next a_alive]; try congruence.
  - intros n. change (simulated n _) with (simulated n a). rewrite VS, E5. destruct (lookup (net_of d) s) eqn:L; auto.
    destruct (net_eqb n (net_of d)) eqn:X; auto. apply net_eqb_eq in X. subst. now rewrite L.
  - intros n w. rewrite E5. destruct (lookup (net_of d) s) as [w0|] eqn:L.
    + destruct (net_eqb n (net_of d)) eqn:X.
      * intros [= <-]. apply net_eqb_eq in X. subst n. rewrite VX. eapply netok_add; eauto.
      * intros Hw. eapply netok_other; [eauto|cbn; reflexivity|]. intros <-. rewrite (proj2 (net_eqb_eq _ _) eq_refl) in X. discriminate.
    + intros Hw. eapply netok_other; [eauto|cbn; reflexivity|congruence].
  - intros i e Hi. apply in_app_iff in Hi as [Hi|[[= <- <-]|[]]]; [apply v_le0 in Hi|]; lia.
  - rewrite map_app. cbn. apply NoDup_app_iff_local; spl; auto. { repeat constructor; auto. }
    intros x Hx [<-|[]]. apply in_map_iff in Hx as ([j e] & Hj & Hx). cbn in Hj. subst. eapply LE; eauto.
  - rewrite map_app. cbn. apply NoDup_app_iff_local; spl; auto. { repeat constructor; auto. }
    intros x Hx [<-|[]]. auto.
  - intros i e Hi. apply in_app_iff in Hi as [Hi|[[= <- <-]|[]]]; eauto.
  - intros n i. rewrite E4, in_app_iff. intros [Hi|Hi]. { apply v_prov_le0 in Hi as [Hi Hi']. split; [lia|exact Hi']. }
    destruct (lookup (net_of d) s) eqn:L; [|destruct Hi]. destruct Hi as [[= <- <-]|[]]. split; [lia|]. change (simulated (net_of d) _) with (simulated (net_of d) a). now rewrite VS, L.
  - intros n i e. rewrite E4, in_app_iff. intros [Hi|Hi]; [|destruct (lookup (net_of d) s); [destruct Hi as [Hi|[]]; discriminate|destruct Hi]].
    rewrite in_app_iff. intros [X|[[= <- <-]|[]]]; [eapply v_rem0; eauto|].
    assert (Q : In (EProvide n (S (a_next a))) (s_log s)).
    { apply in_split in Hi as (l1 & l2 & Hl). apply v_hist0 in Hl as Hc. cbn in Hc. rewrite Hl. apply in_or_app. tauto. }
    apply v_prov_le0 in Q as [Q _]. lia.
  - intros n i. rewrite E4, !in_app_iff. intros [Hi|Hi].
    + destruct (v_prov0 _ _ Hi) as [X|(e & X & X')]; auto. right. exists e. rewrite in_app_iff. auto.
    + destruct (lookup (net_of d) s); [|destruct Hi]. destruct Hi as [[= <- <-]|[]]. right. exists d. rewrite in_app_iff, VX. cbn. auto.
  - intros i e. change (simulated (net_of e) _) with (simulated (net_of e) a). intros Hi Hs. rewrite E4, in_app_iff.
    apply in_app_iff in Hi as [Hi|[[= <- <-]|[]]]; auto. right. rewrite VS in Hs. rewrite VX. destruct (lookup (net_of d) s); [left; auto|discriminate].
  - rewrite E4. destruct (lookup (net_of d) s); [|now rewrite app_nil_r]. apply hist_snoc; auto. cbn. split; [lia|]. intros m X.
    apply v_prov_le0 in X as [X _]. lia.
  - intros n. rewrite E4, in_app_iff, E5, v_prod0. destruct (lookup (net_of d) s) as [w|] eqn:L.
    + destruct (net_eqb n (net_of d)) eqn:X.
      * apply net_eqb_eq in X. subst n. rewrite L. split.
        -- intros [(w' & [= <-] & Hw)|[Hi|[]]]; [|discriminate]. eexists. split; [reflexivity|]. auto.
        -- intros (w' & [= <-] & Hw). left. eauto.
      * split; [intros [Hi|[Hi|[]]]; [auto|discriminate]|auto].
    + cbn. tauto.
Qed.

Lemma inv1_network_removed n s a : Inv1 s a -> Inv1 (on_network_removed n s) a.
Proof. intros H. unfold on_network_removed. match goal with |- context [if ?b then _ else _] => destruct b end; eapply inv1_ext; eauto. Qed.

Notation without d l := (filter (fun x => negb (pair_eqb (addr d) (addr (snd x)))) l).
Lemma nodup_inj {A B} (f : A -> B) l x y : NoDup (map f l) -> In x l -> In y l -> f x = f y -> x = y.
Proof.
  induction l as [|z l IH]; [intros _ []|]. cbn. rewrite NoDup_cons_iff. intros [N1 N2] [->|Hx] [->|Hy] E; auto.
  - destruct N1. rewrite E. now apply in_map.
  - destruct N1. rewrite <- E. now apply in_map.
Qed.
Lemma in_without i d (l : list (nat * desc)) j e : In (i, d) l -> NoDup (map (fun x => addr (snd x)) l) -> NoDup (map fst l) ->
  In (j, e) (without d l) <-> In (j, e) l /\ j <> i.
Proof.
  intros H N1 N2. rewrite filter_In. cbn. rewrite negb_true_iff. split.
  - intros [H1 H2]. split; auto. intros ->. pose proof (nodup_inj _ _ _ _ N2 H H1 eq_refl) as [= <-].
    rewrite (proj2 (pair_eqb_eq _ _) eq_refl) in H2. discriminate.
  - intros [H1 H2]. split; auto. destruct (pair_eqb (addr d) (addr e)) eqn:X; auto. apply pair_eqb_eq in X. exfalso. apply H2.
    pose proof (nodup_inj _ _ _ _ N1 H H1 X) as [= <- <-]. auto.
Qed.
Lemma nodup_without {B} (f : nat * desc -> B) d l : NoDup (map f l) -> NoDup (map f (without d l)).
Proof.
  induction l as [|x l IH]; cbn; auto. intros H. inversion H; subst. destruct (negb _); auto. cbn. constructor; auto.
  intros X. apply H2. apply in_map_iff in X as (y & Hy & X). apply filter_In in X as [X _]. rewrite <- Hy. now apply in_map.
Qed.
Lemma inv1_removed d i s a : Inv1 s a -> proper d = true -> a_started a = true -> In (i, d) (a_alive a) ->
  Inv1 (on_controller_removed d s) (abs_discover false d a).
Proof.
  intros H P S0 A. unfold abs_discover. rewrite P. pose proof (fun j e => in_without i d _ j e A (v_addr _ _ H) (v_ids _ _ H)) as W.
  pose proof (v_sims _ _ H) as VS. pose proof (v_nets _ _ H) as VN.
  assert (AD : forall j e, In (j, e) (a_alive a) -> addr e = addr d -> j = i /\ e = d).
  { intros j e Hj X. pose proof (nodup_inj _ _ _ _ (v_addr _ _ H) A Hj (eq_sym X)) as [= <- <-]. auto. }
  assert (ID : forall e, In (i, e) (a_alive a) -> e = d).
  { intros e Hj. pose proof (nodup_inj _ _ _ _ (v_ids _ _ H) A Hj eq_refl) as [= <-]. auto. }
  set (a' := {| a_sims := _ |}).
  assert (NO : forall n w, lookup n s = Some w -> n <> net_of d -> NetOk n w a').
  { intros n w L D. destruct (VN _ _ L) as [K1 K2 K3].
    assert (Q : forall j e, In (j, e) (a_alive a) -> net_of e = n -> j <> i) by (intros j e Q1 Q2 ->; apply ID in Q1; congruence).
    constructor; cbn [a_alive a'].
    - intros x j. rewrite K1. split; intros (e & X & X1 & X2); exists e; [rewrite W|rewrite W in X]; spl; eauto; tauto.
    - intros x j. rewrite K2. split; intros (k & e & X & X1 & X2 & X3); exists k, e; [rewrite W|rewrite W in X]; spl; eauto; tauto.
    - intros x j. rewrite K3. split; intros (e & X & X1 & X2 & X3); exists e; [rewrite W|rewrite W in X]; spl; eauto; tauto. }
  assert (NS : forall w, lookup (net_of d) s = Some w -> get pair_eqb (addr d) (n_ids w) = Some i /\
    NetOk (net_of d) {| n_prod := n_prod w; n_ids := del pair_eqb (addr d) (n_ids w); n_ctl := del pair_eqb (addr d) (n_ctl w);
                        n_tgt := del Nat.eqb i (n_tgt w) |} a').
  { intros w L. destruct (VN _ _ L) as [K1 K2 K3]. split. { apply K1. eauto. }
    constructor; cbn [a_alive a' n_ids n_ctl n_tgt].
    - intros x j. rewrite get_del by apply pair_eqb_eq. destruct (pair_eqb x (addr d)) eqn:X.
      + apply pair_eqb_eq in X. subst x. split; [discriminate|]. intros (e & X & X1 & X2). apply W in X as [X X']. destruct (AD _ _ X X1). contradiction.
      + rewrite K1. split; intros (e & Y & Y1 & Y2); exists e; [rewrite W|rewrite W in Y]; spl; auto; try tauto.
        intros ->. apply ID in Y. subst. rewrite (proj2 (pair_eqb_eq _ _) eq_refl) in X. discriminate.
    - intros x j. rewrite get_del by apply pair_eqb_eq. destruct (pair_eqb x (addr d)) eqn:X.
      + apply pair_eqb_eq in X. subst x. split; [discriminate|]. intros (k & e & X & X1 & X2). apply W in X as [X X']. destruct (AD _ _ X X1). contradiction.
      + rewrite K2. split; intros (k & e & Y & Y1 & Y2); exists k, e; [rewrite W|rewrite W in Y]; spl; auto; try tauto.
        intros ->. apply ID in Y. subst. rewrite (proj2 (pair_eqb_eq _ _) eq_refl) in X. discriminate.
    - intros j x. rewrite get_del by apply Nat.eqb_eq. destruct (Nat.eqb j i) eqn:X.
      + apply Nat.eqb_eq in X. subst j. split; [discriminate|]. intros (e & X & X1 & X2). apply W in X as [X X']. contradiction.
      + apply Nat.eqb_neq in X. rewrite K3. split; intros (e & Y & Y1 & Y2); exists e; [rewrite W|rewrite W in Y]; spl; auto; tauto. }
  unfold on_controller_removed. fold (net_of d). fold (addr d). destruct (lookup (net_of d) s) as [w|] eqn:L.
  - destruct (NS w eq_refl) as [-> NS']. destruct H. constructor; cbn [a_started a_reg a_next a_alive a']; auto; try congruence.
    + intros n. change (simulated n a') with (simulated n a). rewrite VS, lookup_store. destruct (net_eqb n (net_of d)) eqn:X; auto.
      apply net_eqb_eq in X. subst. now rewrite L.
    + intros n w'. rewrite lookup_store. destruct (net_eqb n (net_of d)) eqn:X.
      * intros [= <-]. apply net_eqb_eq in X. subst n. exact NS'.
      * intros L'. apply NO; auto. intros ->. rewrite (proj2 (net_eqb_eq _ _) eq_refl) in X. discriminate.
    + intros j e Hj. apply W in Hj as [Hj _]. eauto.
    + now apply nodup_without.
    + now apply nodup_without.
    + intros j e Hj. apply W in Hj as [Hj _]. eauto.
    + intros n j. cbn. rewrite in_app_iff. intros [Hj|[Hj|[]]]; [eauto|discriminate].
    + intros n j e. cbn. rewrite in_app_iff. intros [Hj|[[= <- <-]|[]]] X; apply W in X as [X X']; [eapply v_rem0; eauto|contradiction].
    + intros n j. cbn. rewrite !in_app_iff. intros [Hj|[Hj|[]]]; [|discriminate]. destruct (v_prov0 _ _ Hj) as [X|(e & X & X')]; auto.
      destruct (Nat.eq_dec j i) as [->|D].
      * apply ID in X. subst. left. right. left. reflexivity.
      * right. exists e. rewrite W. auto.
    + intros j e Hj Hs. apply W in Hj as [Hj _]. cbn. rewrite in_app_iff. left. now apply v_alive0.
    + cbn. apply hist_snoc; auto. cbn. split.
      * apply v_alive0; auto. rewrite VS, L. reflexivity.
      * intros m X. eapply v_rem0; eauto.
    + intros n. cbn [s_log store set_nets emit]. rewrite in_app_iff, v_prod0. change (lookup n (emit ?e ?x)) with (lookup n x). rewrite lookup_store.
      change (lookup n (emit (ERemoved (net_of d) i) s)) with (lookup n s).
      destruct (net_eqb n (net_of d)) eqn:X.
      * apply net_eqb_eq in X. subst n. rewrite L. split.
        -- intros [(w' & [= <-] & Hw)|[Hi|[]]]; [|discriminate]. eexists. split; [reflexivity|]. auto.
        -- intros (w' & [= <-] & Hw). left. eauto.
      * split; [intros [Hi|[Hi|[]]]; [auto|discriminate]|auto].
  - destruct H. constructor; cbn [a_started a_reg a_next a_alive a']; auto; try congruence.
    + intros n w' L'. apply NO; auto. congruence.
    + intros j e Hj. apply W in Hj as [Hj _]. eauto.
    + now apply nodup_without.
    + now apply nodup_without.
    + intros j e Hj. apply W in Hj as [Hj _]. eauto.
    + intros n j e Hj X. apply W in X as [X X']. eapply v_rem0; eauto.
    + intros n j Hj. destruct (v_prov0 _ _ Hj) as [X|(e & X & X')]; auto. right. exists e. rewrite W. split; auto. split; auto.
      intros ->. apply ID in X. subst e n. apply v_prov_le0 in Hj as [_ Hj]. rewrite VS, L in Hj. discriminate.
    + intros j e Hj Hs. apply W in Hj as [Hj _]. now apply v_alive0.
Qed.

Notation count x l := (length (filter (fun y : nat * desc => d_net (snd y) =? x) l)).
Lemma known_In x l : known x l = true <-> In x l.
Proof.
  unfold known. rewrite existsb_exists. split.
  - intros (y & H & E). apply Nat.eqb_eq in E. now subst.
  - intros H. exists x. split; auto. apply Nat.eqb_refl.
Qed.
Lemma network_seen n s x : In x (s_seen (on_network_discovered n s)) <-> x = snd n \/ In x (s_seen s).
Proof.
  unfold on_network_discovered. cbn [s_seen set_seen]. destruct (known (snd n) (s_seen s)) eqn:K.
  - apply known_In in K. cbn. split; auto. intros [->|]; auto.
  - set (s1 := set_seen _ _ _). assert (E : s_seen s1 = snd n :: s_seen s) by reflexivity. clearbody s1.
    assert (X : In x (s_seen s1) <-> x = snd n \/ In x (s_seen s)). { rewrite E. cbn. intuition. }
    destruct (lookup n s1); auto. destruct (n_prod _); auto.
Qed.
Lemma network_cnt n s x : s_cnt (on_network_discovered n s) x = if x =? snd n then (s_cnt s x + 1)%Z else s_cnt s x.
Proof.
  unfold on_network_discovered. cbn [s_seen set_seen]. destruct (known (snd n) (s_seen s)) eqn:K; [reflexivity|].
  set (s1 := set_seen _ _ _). assert (E : s_cnt s1 x = if x =? snd n then (s_cnt s x + 1)%Z else s_cnt s x) by reflexivity. clearbody s1.
  destruct (lookup n s1); auto. destruct (n_prod _); auto.
Qed.
Lemma inv2_created d s a : Inv2 s a -> proper d = true ->
  Inv2 (fst (on_controller_discovered provide d (on_network_discovered (net_of d) s))) (abs_discover true d a).
Proof.
  intros [H1 H2] P. destruct (controller_discovered_eq d (on_network_discovered (net_of d) s)) as (s' & -> & _ & _ & _ & E1 & E2 & _). cbn [fst].
  unfold abs_discover. rewrite P. constructor; cbn [a_alive].
  - intros x. rewrite E1, network_cnt, H1, filter_app, app_length. cbn. rewrite (Nat.eqb_sym x). destruct (d_net d =? x); cbn; lia.
  - intros x. rewrite E2, network_seen, H2. cbn. split.
    + intros [->|(y & Y & Y')].
      * exists (S (a_next a), d). rewrite in_app_iff. cbn. auto.
      * exists y. rewrite in_app_iff. auto.
    + intros (y & Y & Y'). apply in_app_iff in Y as [Y|[<-|[]]]; cbn in *; eauto.
Qed.
Lemma count_without d i x l : In (i, d) l -> NoDup (map (fun x => addr (snd x)) l) ->
  count x (without d l) + (if d_net d =? x then 1 else 0) = count x l.
Proof.
  induction l as [|[j e] l IH]; [intros []|]. cbn [map]. rewrite NoDup_cons_iff. intros H [N1 N2]. cbn [filter snd]. destruct H as [[= -> ->]|H].
  - rewrite (proj2 (pair_eqb_eq (addr d) _) eq_refl). cbn [negb snd] in *.
    assert (W : without d l = l).
    { clear - N1. induction l as [|z l IH]; auto. cbn in N1. cbn [filter]. rewrite IH by (intros Y; apply N1; right; exact Y).
      destruct (pair_eqb (addr d) (addr (snd z))) eqn:X; auto. apply pair_eqb_eq in X. destruct N1. auto. }
    rewrite W. destruct (d_net d =? x); cbn; lia.
  - specialize (IH H N2). destruct (pair_eqb (addr d) (addr e)) eqn:X; cbn [negb].
    + apply pair_eqb_eq in X. destruct N1. cbn. rewrite <- X. exact (in_map (fun x => addr (snd x)) _ _ H).
    + cbn [filter snd]. destruct (d_net e =? x); cbn [length]; lia.
Qed.
Lemma count_zero x l : count x l = 0 <-> ~ exists y, In y l /\ d_net (snd y) = x.
Proof.
  split.
  - intros H (y & Y & <-). assert (Q : In y (filter (fun z : nat * desc => d_net (snd z) =? d_net (snd y)) l)).
    { apply filter_In. split; auto. apply Nat.eqb_refl. }
    destruct (filter _ l); [destruct Q|discriminate].
  - intros H. induction l as [|z l IH]; auto. cbn. destruct (d_net (snd z) =? x) eqn:X.
    + apply Nat.eqb_eq in X. destruct H. exists z. cbn. auto.
    + apply IH. intros (y & Y & Y'). apply H. exists y. cbn. auto.
Qed.
Lemma removed_same d s : s_cnt (on_controller_removed d s) = s_cnt s /\ s_seen (on_controller_removed d s) = s_seen s.
Proof. unfold on_controller_removed. destruct lookup; [destruct get|]; auto. Qed.
Lemma inv2_removed d i s a : Inv2 s a -> Inv1 s a -> proper d = true -> In (i, d) (a_alive a) ->
  Inv2 (on_controller_removed d (on_network_removed (net_of d) s)) (abs_discover false d a).
Proof.
  intros [H1 H2] H P A. destruct (removed_same d (on_network_removed (net_of d) s)) as [E1 E2].
  unfold abs_discover. rewrite P.
  pose proof (fun x => count_without d i x _ A (v_addr _ _ H)) as C.
  assert (N : forall x, (if x =? d_net d then (s_cnt s x - 1)%Z else s_cnt s x) = Z.of_nat (count x (without d (a_alive a)))).
  { intros x. specialize (C x). rewrite H1. rewrite (Nat.eqb_sym x). destruct (d_net d =? x); lia. }
  assert (Q : forall x, x <> d_net d -> (exists y, In y (without d (a_alive a)) /\ d_net (snd y) = x) <-> exists y, In y (a_alive a) /\ d_net (snd y) = x).
  { intros x D. split; intros ([j e] & Y & Y'); exists (j, e); cbn in Y'; [apply filter_In in Y as [Y _]; auto|].
    split; auto. apply (in_without i d); auto; try apply H. split; auto. intros ->.
    pose proof (nodup_inj _ _ _ _ (v_ids _ _ H) A Y eq_refl) as [= <-]. congruence. }
  constructor; cbn [a_alive].
  - intros x. rewrite E1. unfold on_network_removed. cbn [snd net_of s_cnt set_seen]. rewrite Nat.eqb_refl.
    match goal with |- context [if ?b then _ else _] => destruct b end; cbn [s_cnt set_seen]; apply N.
  - intros x. rewrite E2. unfold on_network_removed. cbn [snd net_of s_cnt set_seen s_seen]. rewrite Nat.eqb_refl.
    pose proof (N (d_net d)) as Nd. rewrite Nat.eqb_refl in Nd. rewrite Nd.
    destruct (Z.of_nat (count (d_net d) (without d (a_alive a))) =? 0)%Z eqn:Z0; cbn [s_seen set_seen].
    + rewrite filter_In, negb_true_iff, Nat.eqb_neq, H2. destruct (Nat.eq_dec x (d_net d)) as [->|D].
      * split; [tauto|]. intros X. assert (Z1 : count (d_net d) (without d (a_alive a)) = 0) by lia. apply count_zero in Z1. contradiction.
      * rewrite Q by auto. tauto.
    + rewrite H2. destruct (Nat.eq_dec x (d_net d)) as [->|D]; [|now rewrite Q].
      split; intros _; [|exists (i, d); auto]. destruct (count (d_net d) (without d (a_alive a))) eqn:X; [lia|].
      clear - X. induction (without d (a_alive a)) as [|z l IH]; [discriminate|]. cbn in X. destruct (d_net (snd z) =? d_net d) eqn:Y.
      * apply Nat.eqb_eq in Y. exists z. cbn. auto.
      * destruct (IH X) as (y & Y1 & Y2). exists y. cbn. auto.
Qed.

Definition Inv (s : st) (a : abs) : Prop := Inv1 s a /\ Inv2 s a.
Lemma inv_handler (c : bool) d s a : Inv s a -> a_started a = true ->
  (if c then proper d = true -> ~ In (addr d) (map (fun x => addr (snd x)) (a_alive a)) else proper d = true -> In d (map snd (a_alive a))) ->
  Inv (fst (discovery_handler me provide c d s)) (abs_discover c d a) /\ snd (discovery_handler me provide c d s) = rejects me provide c d a.
Proof.
  intros [H1 H2] S0 O. unfold discovery_handler. fold (net_of d). unfold rejects.
  pose proof (v_sims _ _ H1 (net_of d)) as VS.
  assert (PR : forall k, d_kind d = k -> k <> KController -> proper d = false) by (intros k E ?; unfold proper; rewrite E; destruct k; cbn; congruence).
  destruct (d_kind d) eqn:K; cbn [kind_eqb andb negb].
  - (* controller *)
    destruct (proper d) eqn:P.
    + assert (Q := P). unfold proper in Q. rewrite K in Q. cbn [kind_eqb andb] in Q. rewrite !andb_true_iff, !negb_true_iff in Q.
      destruct Q as [[Q1 Q2] Q3]. rewrite Q1, Q2, Q3. cbn [negb]. destruct c.
      * pose proof (inv1_network (net_of d) _ _ H1) as N1. split.
        -- split; [apply inv1_created; auto|apply inv2_created; auto].
        -- destruct (controller_discovered_eq d (on_network_discovered (net_of d) s)) as (s' & -> & _). cbn [snd].
           pose proof (v_sims _ _ N1 (net_of d)) as VS'. rewrite (v_next _ _ N1). cbn [andb]. rewrite VS'.
           destruct (lookup (net_of d) (on_network_discovered (net_of d) s)); [|reflexivity]. destruct (provide _ _); destruct (d_typed d); reflexivity.
      * specialize (O eq_refl). apply in_map_iff in O as ([i e] & E & O). cbn in E. subst e. split; [|reflexivity]. split.
        -- apply inv1_removed with i; auto. now apply inv1_network_removed.
        -- apply inv2_removed with i; auto.
    + unfold abs_discover. rewrite P. unfold proper in P. rewrite K in P. cbn [kind_eqb andb] in P.
      destruct (ntype_eqb (d_type d) TUndef); [split; [split|]; auto|]. cbn [negb andb] in *.
      destruct (d_net d =? 0); [split; [split|]; auto|]. cbn [negb andb] in *. rewrite P. split; [split|]; auto.
  - unfold abs_discover. rewrite (PR KLink) by (auto; discriminate). rewrite VS. destruct (d_part d =? me); cbn [negb andb]; [split; [split|]; auto|].
    destruct (lookup _ _); split; [split| |split|]; auto.
  - unfold abs_discover. rewrite (PR KOther) by (auto; discriminate). split; [split|]; auto.
Qed.

Lemma inv_flags s a x y : Inv s a -> (x = false -> a_alive a = [] /\ y = false) -> Inv (set_flags x y s) {| a_sims := a_sims a; a_started := x; a_reg := y; a_next := a_next a; a_alive := a_alive a |}.
Proof.
  intros [[] []] F. split; constructor; auto; cbn.
  - intros n w H. destruct (v_nets0 n w H). constructor; auto.
Qed.
Lemma inv_plain e s a : plain e = true -> Inv s a -> Inv (emit e s) a.
Proof. intros P [H1 []]. split; [now apply inv1_plain|constructor; auto]. Qed.
Lemma inv_all l : forall s a, Inv s a -> a_started a = true -> NoDup (map addr (filter proper l)) ->
  (forall d, In d l -> proper d = true -> ~ In (addr d) (map (fun x => addr (snd x)) (a_alive a))) ->
  Inv (fst (discover_all me provide l s)) (fst (abs_all me provide l a)) /\ snd (discover_all me provide l s) = snd (abs_all me provide l a) /\
  a_started (fst (abs_all me provide l a)) = true /\ a_reg (fst (abs_all me provide l a)) = a_reg a /\ a_sims (fst (abs_all me provide l a)) = a_sims a.
Proof.
  induction l as [|d l IH]; intros s a H S0 N F; cbn [discover_all abs_all]. { cbn. auto. }
  destruct (inv_handler true d s a H S0) as [A B]. { intros P. apply F; cbn; auto. }
  destruct (discovery_handler me provide true d s) as [s' x] eqn:E. cbn [fst snd] in *. rewrite B.
  assert (ST : a_started (abs_discover true d a) = true /\ a_reg (abs_discover true d a) = a_reg a /\ a_sims (abs_discover true d a) = a_sims a).
  { unfold abs_discover. destruct (proper d); auto. }
  destruct ST as (ST & ST' & ST'').
  destruct (rejects me provide true d a); [cbn; auto|]. rewrite <- ST', <- ST''. apply IH; auto.
  - cbn in N. destruct (proper d); auto. cbn in N. now inversion N.
  - intros e He Pe. unfold abs_discover. destruct (proper d) eqn:P; [|apply F; cbn; auto]. cbn. rewrite map_app, in_app_iff. cbn.
    intros [X|[X|[]]]; [revert X; apply F; [right; auto|auto]|]. cbn in N. rewrite P in N. cbn in N. inversion N; subst. apply H2. rewrite X.
    apply in_map. apply filter_In. auto.
Qed.
Lemma inv_step s a o : Inv s a -> ok_op a o -> Inv (step me provide s o) (abs_step me provide a o).
Proof.
  intros H O. pose proof H as [H1 H2]. destruct o as [n|l|c d|n p sid x m|n rs m]; cbn [step abs_step].
  - unfold simulate. rewrite (v_started _ _ H1), (v_sims _ _ H1). destruct (a_started a) eqn:S0; auto. cbn [orb]. destruct (ntype_eqb (fst n) TUndef); cbn [orb]; [now apply inv_plain|].
    destruct (lookup n s) as [w|] eqn:L.
    + apply inv_plain; auto. split; [eapply inv1_ext; eauto|]. destruct H2. constructor; auto.
    + destruct (v_fresh _ _ H1 S0) as [Ea Er]. destruct H2. split; [|constructor; auto]. destruct H1. constructor; auto; cbn [a_alive a_started a_reg a_next].
      * cbn. rewrite S0 in v_started0. exact v_started0.
      * intros m. unfold simulated. cbn [a_sims existsb]. rewrite lookup_store. destruct (net_eqb m n); auto. apply v_sims0.
      * intros m w. rewrite lookup_store. destruct (net_eqb m n) eqn:X.
        -- intros [= <-]. constructor; cbn; rewrite Ea.
           ++ split; [discriminate|]. intros (? & [] & _).
           ++ split; [discriminate|]. intros (? & ? & [] & _).
           ++ split; [discriminate|]. intros (? & [] & _).
        -- intros L'. destruct (v_nets0 _ _ L'). constructor; auto.
      * intros m i Hi. destruct (v_prov_le0 m i Hi) as [A B]. split; auto. unfold simulated in *. cbn. now rewrite B, orb_true_r.
      * rewrite Ea. intros i d [].
      * intros m. cbn [s_log store set_nets]. rewrite v_prod0, lookup_store. destruct (net_eqb m n) eqn:X; [|reflexivity].
        apply net_eqb_eq in X. subst m. rewrite L. split; [intros (? & ? & _); discriminate|]. intros (w & [= <-] & X). discriminate.
  - unfold start. rewrite (v_started _ _ H1). destruct (a_started a) eqn:S0; auto. destruct (v_fresh _ _ H1 S0) as [Ea Er].
    set (a1 := {| a_sims := _ |}). rewrite (v_reg _ _ H1).
    assert (I1 : Inv (set_flags true (a_reg a) s) a1). { apply inv_flags; auto; discriminate. }
    destruct (inv_all l _ a1 I1 eq_refl O) as (A & B & C & D & E). { intros d _ _. cbn. rewrite Ea. intros []. }
    destruct (discover_all me provide l _) as [s' x]. destruct (abs_all me provide l a1) as [b y]. cbn [fst snd] in *. subst y.
    destruct x; [now apply inv_plain|]. apply (inv_flags s' b true true); auto; discriminate.
  - unfold discover. rewrite (v_reg _ _ H1). destruct (a_reg a) eqn:R; auto.
    assert (S0 : a_started a = true). { destruct (a_started a) eqn:X; auto. apply (v_fresh _ _ H1) in X as [_ X]. congruence. }
    destruct (inv_handler c d s a H S0) as [A B]. { destruct c; cbn in O; auto. }
    destruct (discovery_handler me provide c d s) as [s' x]. cbn [fst] in A. destruct x; auto. now apply inv_plain.
  - unfold receive. assert (X : forall s', Inv s' a -> Inv (if existsb (net_eqb n) (s_dead s') then emit EUb s' else s') a).
    { intros s' H'. destruct existsb; auto. now apply inv_plain. }
    destruct (lookup n s); [|now apply X]. destruct x; [now apply X|]. destruct get; [|now apply X]. apply X. now apply inv_plain.
  - unfold produce. destruct (lookup n s); auto. destruct (n_prod n0); auto. clear O H1 H2. revert s H. induction rs as [|r rs IH]; intros s H; auto.
    cbn [fold_left]. apply IH. destruct get as [[p q]|]; auto. now apply inv_plain.
Qed.
Lemma run_snoc ops o : run me provide (ops ++ [o]) = step me provide (run me provide ops) o.
Proof. unfold run. now rewrite fold_left_app. Qed.
Lemma abs_snoc ops o : abs_run me provide (ops ++ [o]) = abs_step me provide (abs_run me provide ops) o.
Proof. unfold abs_run. now rewrite fold_left_app. Qed.
Lemma wf_app ops ops' : wf me provide (ops ++ ops') -> wf me provide ops.
Proof. intros H a o b ->. apply (H a o (b ++ ops')). now rewrite <- app_assoc. Qed.
Theorem inv_run ops : wf me provide ops -> Inv (run me provide ops) (abs_run me provide ops).
Proof.
  induction ops as [|o ops IH] using rev_ind; intros H. { split; [apply inv1_0|apply inv2_0]. }
  rewrite run_snoc, abs_snoc. apply inv_step; [apply IH; now apply wf_app in H|]. apply (H ops o []). reflexivity.
Qed.

(** ** The event producer comes before the controllers *)
Definition condp (a : list ev) (e : ev) : Prop := match e with EProvide n _ => In (EProducer n) a | _ => True end.
Section Producer.
Variable ok : desc -> Prop.
Variable sim : ntype * nat -> Prop.
Hypothesis one : forall n d, sim n -> ok d -> d_net d = snd n -> net_of d = n.
Record Inv3 (s : st) (a : abs) : Prop := {
  w_hist : hist condp (s_log s); w_ok : forall i e, In (i, e) (a_alive a) -> ok e; w_sim : forall n, simulated n a = true -> sim n }.
Lemma inv3_plain e s a : plain e = true -> Inv3 s a -> Inv3 (emit e s) a.
Proof. intros P []. constructor; auto. cbn. apply hist_snoc; auto. destruct e; try discriminate; exact I. Qed.
Lemma network_log n s : s_log (on_network_discovered n s) = s_log s \/ s_log (on_network_discovered n s) = s_log s ++ [EProducer n].
Proof.
  unfold on_network_discovered. match goal with |- context [if known ?x ?y then _ else _] => destruct (known x y) end; auto.
  match goal with |- context [match ?x with Some _ => _ | None => _ end] => destruct x end; auto. destruct (n_prod _); auto.
Qed.
Lemma network_prod n s w : lookup n (on_network_discovered n s) = Some w -> ~ In (snd n) (s_seen s) -> n_prod w = true.
Proof.
  intros L K. unfold on_network_discovered in L. cbn [s_seen set_seen] in L. destruct (known (snd n) (s_seen s)) eqn:X; [apply known_In in X; contradiction|].
  match type of L with context [match ?x with Some _ => _ | None => _ end] => destruct x eqn:Y end.
  - destruct (n_prod n0) eqn:Z; [congruence|]. change (lookup n (emit ?e ?x)) with (lookup n x) in L. rewrite lookup_store, (proj2 (net_eqb_eq n n) eq_refl) in L.
    injection L as <-. reflexivity.
  - congruence.
Qed.
Lemma inv3_handler c d s a : Inv s a -> Inv3 s a -> ok d -> Inv3 (fst (discovery_handler me provide c d s)) (abs_discover c d a).
Proof.
  intros [H1 H2] H3 D. unfold discovery_handler. fold (net_of d). unfold abs_discover.
  destruct (proper d) eqn:P.
  - assert (Q := P). unfold proper in Q. rewrite !andb_true_iff, !negb_true_iff in Q. destruct Q as [[[K Q1] Q2] Q3].
    destruct (d_kind d); try discriminate. cbn [kind_eqb andb negb]. rewrite Q1, Q2, Q3. cbn [negb]. destruct c.
    + pose proof (inv1_network (net_of d) _ _ H1) as N1. destruct (controller_discovered_eq d (on_network_discovered (net_of d) s)) as (s' & -> & _ & _ & _ & _ & _ & _ & E & _).
      cbn [fst]. assert (HL : hist condp (s_log (on_network_discovered (net_of d) s))).
      { destruct (network_log (net_of d) s) as [->| ->]; [apply H3|]. apply hist_snoc; [apply H3|exact I]. }
      constructor.
      * rewrite E. destruct (lookup (net_of d) (on_network_discovered (net_of d) s)) as [w|] eqn:L; [|now rewrite app_nil_r]. apply hist_snoc; auto.
        cbn. apply (v_prod _ _ N1). exists w. split; auto.
        destruct (in_dec Nat.eq_dec (snd (net_of d)) (s_seen s)) as [I|I]; [|eapply network_prod; eauto].
        apply (v_seen _ _ H2) in I as ([j e] & I & I'). cbn in I'.
        assert (SM : simulated (net_of d) a = true) by (rewrite (v_sims _ _ N1), L; auto).
        assert (X : net_of e = net_of d). { apply one; auto; [apply H3; auto|eapply w_ok; eauto]. }
        rewrite <- X in SM. pose proof (v_alive _ _ N1 _ _ I SM) as V. apply in_split in V as (l1 & l2 & V). pose proof (HL _ _ _ V) as V'. cbn in V'.
        assert (V2 : In (EProducer (net_of d)) (s_log (on_network_discovered (net_of d) s))). { rewrite V, <- X. apply in_or_app. auto. }
        apply (v_prod _ _ N1) in V2 as (w' & W1 & W2). congruence.
      * cbn. intros i e X. apply in_app_iff in X as [X|[[= <- <-]|[]]]; auto. eapply w_ok; eauto.
      * intros n. change (simulated n _) with (simulated n a). apply H3.
    + constructor.
      * cbn [fst]. assert (HL : hist condp (s_log (on_network_removed (net_of d) s))).
        { unfold on_network_removed. match goal with |- context [if ?b then _ else _] => destruct b end; apply H3. }
        unfold on_controller_removed. destruct (lookup _ _); auto. destruct (get _ _ _); auto. cbn. apply hist_snoc; auto. exact I.
      * cbn. intros i e X. apply filter_In in X as [X _]. eapply w_ok; eauto.
      * intros n. change (simulated n _) with (simulated n a). apply H3.
  - match goal with |- Inv3 (fst (if ?b then _ else _)) _ => destruct b end; auto.
    unfold proper in P. destruct (d_kind d); cbn [kind_eqb negb andb] in *; auto.
    destruct (ntype_eqb (d_type d) TUndef); auto. destruct (d_net d =? 0); auto. cbn [negb andb] in *. rewrite P. auto.
Qed.
Definition ok_descs (o : op) : Prop :=
  match o with OSimulate n => sim n | OStart l => Forall ok l | ODiscover c d => ok d | _ => True end.
Lemma inv3_all l : forall s a, Inv s a -> Inv3 s a -> a_started a = true -> NoDup (map addr (filter proper l)) -> Forall ok l ->
  (forall d, In d l -> proper d = true -> ~ In (addr d) (map (fun x => addr (snd x)) (a_alive a))) ->
  Inv3 (fst (discover_all me provide l s)) (fst (abs_all me provide l a)).
Proof.
  induction l as [|d l IH]; intros s a H H3 S0 N OK F; cbn [discover_all abs_all]. { cbn. auto. }
  inversion OK as [|? ? OK1 OK2]; subst.
  destruct (inv_handler true d s a H S0) as [A B]. { intros P. apply F; cbn; auto. }
  pose proof (inv3_handler true d s a H H3 OK1) as A3.
  destruct (discovery_handler me provide true d s) as [s' x] eqn:E. cbn [fst snd] in *. rewrite B.
  assert (ST : a_started (abs_discover true d a) = true). { unfold abs_discover. destruct (proper d); auto. }
  destruct (rejects me provide true d a); [cbn; auto|]. apply IH; auto.
  - cbn in N. destruct (proper d); auto. cbn in N. now inversion N.
  - intros e He Pe. unfold abs_discover. destruct (proper d) eqn:P; [|apply F; cbn; auto]. cbn. rewrite map_app, in_app_iff. cbn.
    intros [X|[X|[]]]; [revert X; apply F; [right; auto|auto]|]. cbn in N. rewrite P in N. cbn in N. inversion N; subst. apply H2. rewrite X.
    apply in_map. apply filter_In. auto.
Qed.
Lemma inv3_step s a o : Inv s a -> Inv3 s a -> ok_op a o -> ok_descs o -> Inv3 (step me provide s o) (abs_step me provide a o).
Proof.
  intros H H3 O D. pose proof H as [H1 H2]. destruct o as [n|l|c d|n p sid x m|n rs m]; cbn [step abs_step].
  - unfold simulate. rewrite (v_started _ _ H1), (v_sims _ _ H1). destruct (a_started a) eqn:S0; auto. cbn [orb]. destruct (ntype_eqb (fst n) TUndef); cbn [orb]; [now apply inv3_plain|].
    destruct (lookup n s) as [w|] eqn:L.
    + apply inv3_plain; auto. destruct H3. constructor; auto.
    + destruct H3. constructor; auto. intros m. unfold simulated. cbn. rewrite orb_true_iff. intros [X|X]; auto. apply net_eqb_eq in X. now subst.
  - unfold start. rewrite (v_started _ _ H1). destruct (a_started a) eqn:S0; auto. destruct (v_fresh _ _ H1 S0) as [Ea Er].
    set (a1 := {| a_sims := _ |}). rewrite (v_reg _ _ H1).
    assert (I1 : Inv (set_flags true (a_reg a) s) a1). { apply inv_flags; auto; discriminate. }
    assert (I3 : Inv3 (set_flags true (a_reg a) s) a1). { destruct H3. constructor; auto. }
    assert (X : Inv3 (fst (discover_all me provide l (set_flags true (a_reg a) s))) (fst (abs_all me provide l a1))).
    { apply inv3_all; auto. intros d _ _. cbn. rewrite Ea. intros []. }
    destruct (inv_all l _ a1 I1 eq_refl O) as (A & B & _). { intros d _ _. cbn. rewrite Ea. intros []. }
    destruct (discover_all me provide l _) as [s' x]. destruct (abs_all me provide l a1) as [b y]. cbn [fst snd] in *. subst y.
    destruct x; [now apply inv3_plain|]. destruct X. constructor; auto.
  - unfold discover. rewrite (v_reg _ _ H1). destruct (a_reg a) eqn:R; auto.
    pose proof (inv3_handler c d s a H H3 D) as A.
    destruct (discovery_handler me provide c d s) as [s' x]. cbn [fst] in A. destruct x; auto. now apply inv3_plain.
  - unfold receive. assert (X : forall s', Inv3 s' a -> Inv3 (if existsb (net_eqb n) (s_dead s') then emit EUb s' else s') a).
    { intros s' H'. destruct existsb; auto. now apply inv3_plain. }
    destruct (lookup n s); [|now apply X]. destruct x; [now apply X|]. destruct get; [|now apply X]. apply X. now apply inv3_plain.
  - unfold produce. destruct (lookup n s); auto. destruct (n_prod n0); auto. clear O H H1 H2 D. revert s H3. induction rs as [|r rs IH]; intros s H; auto.
    cbn [fold_left]. apply IH. destruct get as [[p q]|]; auto. now apply inv3_plain.
Qed.
Theorem inv3_run ops : wf me provide ops -> Forall ok_descs ops -> Inv3 (run me provide ops) (abs_run me provide ops).
Proof using one.
  induction ops as [|o ops IH] using rev_ind; intros H F.
  { constructor; cbn; try (intros; contradiction); try discriminate. apply hist_nil. }
  rewrite run_snoc, abs_snoc. apply Forall_app in F as [F1 F2]. inversion F2; subst.
  apply inv3_step; auto; [apply inv_run|apply IH|]; auto; try (now apply wf_app in H). apply (H ops o []). reflexivity.
Qed.
End Producer.

(** ** No destroyed router is called unless a network is simulated twice *)
Definition sims (ops : list op) : list (ntype * nat) := flat_map (fun o => match o with OSimulate n => [n] | _ => [] end) ops.
Lemma handler_dead c d s : s_dead (fst (discovery_handler me provide c d s)) = s_dead s /\
  (forall n, lookup n (fst (discovery_handler me provide c d s)) <> None <-> lookup n s <> None) /\
  (In EUb (s_log (fst (discovery_handler me provide c d s))) -> In EUb (s_log s)).
Proof.
  unfold discovery_handler. fold (net_of d).
  repeat match goal with |- context [fst (if ?b then (s, _) else _)] => destruct b; [cbn; tauto|] end.
  destruct c.
  - destruct (controller_discovered_eq d (on_network_discovered (net_of d) s)) as (s' & -> & _ & _ & _ & _ & _ & E1 & E2 & E3). cbn [fst].
    assert (A : s_dead (on_network_discovered (net_of d) s) = s_dead s /\ forall n, lookup n (on_network_discovered (net_of d) s) <> None <-> lookup n s <> None).
    { unfold on_network_discovered. cbn [s_seen set_seen]. destruct (known _ _); [cbn; tauto|].
      set (s1 := set_seen _ _ _). assert (X : s_dead s1 = s_dead s /\ forall n, lookup n s1 = lookup n s) by (split; reflexivity). clearbody s1.
      destruct X as [X1 X2]. setoid_rewrite <- X2. destruct (lookup (net_of d) s1) eqn:L; [|tauto]. destruct (n_prod n); [tauto|]. split; auto.
      intros m. change (lookup m (emit ?e ?x)) with (lookup m x). rewrite lookup_store. destruct (net_eqb m (net_of d)) eqn:Y; [|tauto].
      apply net_eqb_eq in Y. subst. rewrite L. split; congruence. }
    destruct A as [A1 A2]. split; [congruence|]. split.
    + intros n. rewrite E3, <- A2. destruct (lookup (net_of d) (on_network_discovered (net_of d) s)) eqn:L; [|tauto]. destruct (net_eqb n (net_of d)) eqn:Y; [|tauto].
      apply net_eqb_eq in Y. subst. rewrite L. split; congruence.
    + rewrite E2, in_app_iff. intros [X|X].
      * destruct (network_log (net_of d) s) as [Y|Y]; rewrite Y in X; auto. apply in_app_iff in X as [X|[X|[]]]; auto. discriminate.
      * destruct (lookup _ _); [destruct X as [X|[]]; discriminate|destruct X].
  - cbn [fst]. assert (A : s_dead (on_network_removed (net_of d) s) = s_dead s /\ s_log (on_network_removed (net_of d) s) = s_log s /\ forall n, lookup n (on_network_removed (net_of d) s) = lookup n s).
    { unfold on_network_removed. match goal with |- context [if ?b then _ else _] => destruct b end; auto. }
    destruct A as (A1 & A2 & A3). unfold on_controller_removed. fold (net_of d). destruct (lookup (net_of d) (on_network_removed (net_of d) s)) eqn:L.
    + destruct (get _ _ _).
      * split; [exact A1|]. split.
        -- intros m. rewrite lookup_store. change (lookup m (emit ?e ?x)) with (lookup m x). destruct (net_eqb m (net_of d)) eqn:Y; [|now rewrite A3].
           apply net_eqb_eq in Y. subst. rewrite <- A3, L. split; congruence.
        -- cbn. rewrite A2, in_app_iff. intros [X|[X|[]]]; auto. discriminate.
      * rewrite A1, A2. setoid_rewrite A3. tauto.
    + rewrite A1, A2. setoid_rewrite A3. tauto.
Qed.
Lemma all_dead l : forall s, s_dead (fst (discover_all me provide l s)) = s_dead s /\
  (forall n, lookup n (fst (discover_all me provide l s)) <> None <-> lookup n s <> None) /\
  (In EUb (s_log (fst (discover_all me provide l s))) -> In EUb (s_log s)).
Proof.
  induction l as [|d l IH]; intros s; cbn [discover_all]. { cbn. tauto. }
  destruct (handler_dead true d s) as (A & B & C). destruct (discovery_handler me provide true d s) as [s' x]. cbn [fst] in *.
  destruct x; cbn [fst]; auto. destruct (IH s') as (A' & B' & C'). split; [congruence|]. split; auto. intros n. now rewrite B', B.
Qed.
Theorem no_ub ops : NoDup (sims ops) -> s_dead (run me provide ops) = [] /\ (forall n, lookup n (run me provide ops) <> None -> In n (sims ops)) /\
  ~ In EUb (s_log (run me provide ops)).
Proof.
  induction ops as [|o ops IH] using rev_ind; intros N. { cbn. spl; auto. }
  unfold sims in N. rewrite flat_map_app in N. apply NoDup_app_iff_local in N as (N1 & N2 & N3). fold (sims ops) in *. specialize (IH N1). destruct IH as (D & L & U).
  rewrite run_snoc. assert (SS : sims (ops ++ [o]) = sims ops ++ sims [o]) by apply flat_map_app. rewrite SS.
  set (s := run me provide ops) in *. destruct o as [n|l|c d|n p sid x m|n rs m]; cbn [step].
  - cbn [flat_map app] in *. unfold simulate. destruct (s_started s). { spl; auto. intros; apply in_or_app; auto. }
    destruct (ntype_eqb (fst n) TUndef). { cbn. spl; auto. intros; apply in_or_app; auto. rewrite in_app_iff. intros [X|[X|[]]]; [tauto|discriminate]. }
    destruct (lookup n s) eqn:E.
    + exfalso. apply (N3 n); [apply L; congruence|cbn; auto].
    + spl; auto. intros m. rewrite lookup_store. rewrite in_app_iff. destruct (net_eqb m n) eqn:Y; auto. apply net_eqb_eq in Y. subst. cbn. auto.
  - unfold start. cbn [sims flat_map]. rewrite app_nil_r. destruct (s_started s); [spl; auto|]. destruct (all_dead l (set_flags true (s_reg s) s)) as (A & B & C).
    destruct (discover_all me provide l _) as [s' y]. cbn [fst] in *. assert (X : forall n, lookup n s' <> None -> In n (sims ops)). { intros n Hn. apply L. apply B in Hn. exact Hn. }
    destruct y; cbn; rewrite A; spl; auto. rewrite in_app_iff. intros [Y|[Y|[]]]; [tauto|discriminate].
  - unfold discover. cbn [sims flat_map]. rewrite app_nil_r. destruct (s_reg s); [|spl; auto]. destruct (handler_dead c d s) as (A & B & C).
    destruct (discovery_handler me provide c d s) as [s' y]. cbn [fst] in *. assert (X : forall n, lookup n s' <> None -> In n (sims ops)). { intros n Hn. apply L. apply B in Hn. exact Hn. }
    destruct y; cbn; rewrite A; spl; auto. rewrite in_app_iff. intros [Y|[Y|[]]]; [tauto|discriminate].
  - unfold receive. cbn [sims flat_map]. rewrite app_nil_r. destruct (lookup n s); [|rewrite D; cbn; spl; auto]. destruct x; [rewrite D; cbn; spl; auto|].
    destruct get; cbn; rewrite D; cbn; spl; auto. rewrite in_app_iff. intros [Y|[Y|[]]]; [tauto|discriminate].
  - unfold produce. cbn [sims flat_map]. rewrite app_nil_r. destruct (lookup n s); [|spl; auto]. destruct (n_prod n0); [|spl; auto].
    clear N2 N3 SS. clearbody s. revert s D L U. induction rs as [|r rs IH]; intros s D L U; [spl; auto|]. cbn [fold_left]. apply IH; destruct get as [[p q]|]; auto.
    cbn. rewrite in_app_iff. intros [Y|[Y|[]]]; [tauto|discriminate].
Qed.
End Inv.
