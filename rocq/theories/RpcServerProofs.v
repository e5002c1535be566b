From Coq Require Import List Arith ZArith Bool Lia.
From Verif Require Import RpcModel RpcSpec.
Import ListNotations.
Open Scope nat_scope.

Lemma srun_app : forall a b s, srun (a ++ b) s = (fst (srun a s) ++ fst (srun b (snd (srun a s))), snd (srun b (snd (srun a s)))).
Proof.
  induction a as [|e r IH]; intros b s; cbn [app srun].
  - cbn [fst snd app]. destruct (srun b s); reflexivity.
  - destruct (sstep e s) as [o s']. rewrite IH. destruct (srun r s') as [o1 s1]. cbn [fst snd].
    destruct (srun b s1) as [o2 s2]. cbn [fst snd]. rewrite app_assoc. reflexivity.
Qed.
Lemma srun_cons : forall e b s, srun (e :: b) s = (fst (sstep e s) ++ fst (srun b (snd (sstep e s))), snd (srun b (snd (sstep e s)))).
Proof. intros e b s. cbn [srun]. destruct (sstep e s) as [o s']. cbn [fst snd]. destruct (srun b s'); reflexivity. Qed.
Lemma srun_snoc : forall a e s, srun (a ++ [e]) s = (fst (srun a s) ++ fst (sstep e (snd (srun a s))), snd (sstep e (snd (srun a s)))).
Proof. intros. rewrite srun_app, srun_cons. cbn [srun fst snd]. rewrite app_nil_r. reflexivity. Qed.

(** ** Access to the internal servers *)
Definition act (c : nat) (s : server) : list (nat * nat) :=
  match find_internal c (s_internals s) with Some i => i_active i | None => [] end.
Definition clients (s : server) : list nat := map i_client (s_internals s).

Lemma find_internal_some : forall c l i, find_internal c l = Some i -> In i l /\ i_client i = c.
Proof.
  intros c. induction l as [|j r IH]; intros i H; cbn in *; [discriminate|].
  destruct (Nat.eqb_spec (i_client j) c); [injection H as <-; auto|]. apply IH in H. tauto.
Qed.
Lemma find_internal_in : forall c l, In c (map i_client l) -> exists i, find_internal c l = Some i.
Proof.
  intros c. induction l as [|j r IH]; intros H; cbn in *; [tauto|].
  destruct (Nat.eqb_spec (i_client j) c); [eauto|]. apply IH. tauto.
Qed.
Lemma find_internal_none : forall c l, find_internal c l = None -> ~ In c (map i_client l).
Proof. intros c l H I. apply find_internal_in in I. destruct I as [i I]. congruence. Qed.
Lemma find_internal_app : forall c a b, find_internal c (a ++ b) = match find_internal c a with Some i => Some i | None => find_internal c b end.
Proof. intros c. induction a as [|j r IH]; intros b; cbn; [reflexivity|]. destruct (i_client j =? c); auto. Qed.
Lemma set_active_clients : forall c f l, map i_client (set_active c f l) = map i_client l.
Proof.
  intros c f. induction l as [|j r IH]; [reflexivity|]. cbn [set_active map]. fold (set_active c f r). rewrite IH. f_equal.
  destruct (i_client j =? c); reflexivity.
Qed.
Lemma find_set_active : forall c c' f l, find_internal c' (set_active c f l) =
  if (c =? c') then option_map (fun i => mkInternal (i_client i) (i_handler i) (f (i_active i))) (find_internal c' l)
  else find_internal c' l.
Proof.
  intros c c' f. induction l as [|j r IH]; cbn [set_active map find_internal]; [destruct (c =? c'); reflexivity|].
  fold (set_active c f r). destruct (Nat.eqb_spec (i_client j) c) as [E|N]; cbn [i_client].
  - rewrite E. destruct (Nat.eqb_spec c c') as [D|D]; [cbn; rewrite E; reflexivity|]. exact IH.
  - rewrite IH. destruct (Nat.eqb_spec (i_client j) c') as [E'|N']; [|reflexivity].
    destruct (Nat.eqb_spec c c'); [congruence|reflexivity].
Qed.
Lemma find_nat_in : forall k l x, find_nat k l = Some x -> In (k, x) l.
Proof.
  intros k. induction l as [|[a b] r IH]; intros x H; cbn in *; [discriminate|].
  destruct (Nat.eqb_spec a k); [injection H as ->; subst; auto|auto].
Qed.
Lemma find_nat_none : forall k l x, find_nat k l = None -> ~ In (k, x) l.
Proof.
  intros k. induction l as [|[a b] r IH]; intros x H; cbn in *; [tauto|].
  destruct (Nat.eqb_spec a k); [discriminate|]. intros [E|I]; [injection E; congruence|eapply IH; eauto].
Qed.
Lemma find_nat_app : forall k a b, find_nat k (a ++ b) = match find_nat k a with Some x => Some x | None => find_nat k b end.
Proof. intros k. induction a as [|[x y] r IH]; intros b; cbn; [reflexivity|]. destruct (x =? k); auto. Qed.

Lemma alive_iff : forall h s, NoDup (clients s) ->
  (alive h s = true <-> In h (s_running s) \/ exists c u, In (u, h) (act c s)).
Proof.
  intros h s ND. unfold alive. rewrite orb_true_iff, !existsb_exists. split.
  - intros [(x & I & E)|(i & I & E)].
    + left. apply Nat.eqb_eq in E. subst. exact I.
    + right. apply existsb_exists in E. destruct E as ([u h'] & I' & E). cbn in E. apply Nat.eqb_eq in E. subst h'.
      exists (i_client i), u. unfold act, clients in *. destruct (find_internal (i_client i) (s_internals s)) as [j|] eqn:F.
      * apply find_internal_some in F. destruct F as [Ij Ej].
        assert (i = j); [|subst; exact I'].
        clear - ND I Ij Ej. induction (s_internals s) as [|k r IH]; cbn in *; [tauto|]. inversion ND as [|? ? N ND']; subst.
        destruct I as [->|I], Ij as [->|Ij]; auto.
        -- elim N. rewrite <- Ej. apply in_map. exact Ij.
        -- elim N. rewrite Ej. apply in_map. exact I.
      * apply find_internal_none in F. elim F. apply in_map. exact I.
  - intros [I|(c & u & I)].
    + left. exists h. rewrite Nat.eqb_refl. auto.
    + right. unfold act in I. destruct (find_internal c (s_internals s)) as [i|] eqn:F; [|destruct I].
      exists i. split; [apply find_internal_some in F; tauto|]. apply existsb_exists. exists (u, h). cbn. rewrite Nat.eqb_refl. auto.
Qed.

(** ** Invariant *)
Definition outs (p : list sevent) : list sout := fst (srun p (server0 true)).
Definition st (p : list sevent) : server := snd (srun p (server0 true)).
Definition submitted (h : nat) (p : list sevent) : Prop := exists order, In (Submit (Some h) order) p.

Record inv (p : list sevent) (s : server) (o : list sout) : Prop := mkInv {
  v_clients : forall c, In c (clients s) <-> In (Arrive c true) p;
  v_nodup : NoDup (clients s);
  v_handler : s_handler s = true /\ forall i, In i (s_internals s) -> i_handler i = true;
  v_uuid : forall c u h, In (Called c u h) o -> find_nat h (s_uuid s) = Some u /\ In (Arrive c true) p /\ In (Receive c u) p;
  v_fresh : forall h u, In (h, u) (s_uuid s) -> h < List.length (s_uuid s);
  v_same_u : forall c u h c' h', In (Called c u h) o -> In (Called c' u h') o -> c = c' /\ h = h';
  v_same_h : forall c u h c' u', In (Called c u h) o -> In (Called c' u' h) o -> c = c' /\ u = u';
  v_active : forall c u h, In (u, h) (act c s) <-> In (Called c u h) o /\ ~ submitted h p;
  v_running : forall h, In h (s_running s) <-> (exists c u, In (Called c u h) o) /\ ~ In (Return h) p;
  v_once : NoDup (s_running s);
  v_known : forall h, submitted h p \/ In (Return h) p -> exists c u, In (Called c u h) o }.

Lemma submitted_snoc : forall h p e, submitted h (p ++ [e]) <-> submitted h p \/ exists order, e = Submit (Some h) order.
Proof.
  intros h p e. unfold submitted. split.
  - intros (o & I). apply in_app_or in I. destruct I as [I|[->|[]]]; eauto.
  - intros [(o & I)|(o & ->)]; exists o; apply in_or_app; cbn; auto.
Qed.

(** the loop of SubmitResult *)
Definition erased (c u : nat) (s : server) : server :=
  mkServer (s_handler s) (set_active c (filter (fun e => negb (Nat.eqb (fst e) u))) (s_internals s)) (s_uuid s) (s_running s).

Lemma submit_one_miss : forall h u c s, alive h s = true -> find_nat h (s_uuid s) = Some u -> (forall h', ~ In (u, h') (act c s)) ->
  submit_one h c s = Some ([], s, false).
Proof.
  intros h u c s A F N. unfold submit_one. rewrite A, F. unfold act in N. destruct (find_internal c (s_internals s)) as [i|]; [|reflexivity].
  destruct (find_nat u (i_active i)) as [h'|] eqn:E; [|reflexivity]. apply find_nat_in in E. elim (N h' E).
Qed.
Lemma submit_one_hit : forall h u c s h', alive h s = true -> find_nat h (s_uuid s) = Some u -> In (u, h') (act c s) ->
  submit_one h c s = Some ([Response c u WSuccess], erased c u s, true).
Proof.
  intros h u c s h' A F N. unfold submit_one. rewrite A, F. unfold act in N. destruct (find_internal c (s_internals s)) as [i|]; [|destruct N].
  destruct (find_nat u (i_active i)) as [h''|] eqn:E; [reflexivity|]. elim (find_nat_none _ _ h' E N).
Qed.
Lemma loop_miss : forall h u order k s, alive h s = true -> find_nat h (s_uuid s) = Some u ->
  (forall c h', In c order -> ~ In (u, h') (act c s)) -> submit_loop h order k s = ([], s, Some k).
Proof.
  intros h u. induction order as [|c r IH]; intros k s A F N; [reflexivity|]. cbn [submit_loop].
  rewrite (submit_one_miss h u c s A F); [|intros h'; apply N; left; reflexivity].
  rewrite IH; [reflexivity|exact A|exact F|]. intros c' h' I. apply N. right. exact I.
Qed.
Lemma loop_app_miss : forall h u a b k s, alive h s = true -> find_nat h (s_uuid s) = Some u ->
  (forall c h', In c a -> ~ In (u, h') (act c s)) -> submit_loop h (a ++ b) k s = submit_loop h b k s.
Proof.
  intros h u. induction a as [|c r IH]; intros b k s A F N; [reflexivity|]. cbn [app submit_loop].
  rewrite (submit_one_miss h u c s A F); [|intros h'; apply N; left; reflexivity].
  rewrite IH; [|exact A|exact F|intros c' h' I; apply N; right; exact I].
  destruct (submit_loop h b k s) as [[o s'] k']. reflexivity.
Qed.
Lemma loop_dead : forall h c r k s, alive h s = false -> submit_loop h (c :: r) k s = ([SUndefined], s, None).
Proof. intros h c r k s A. cbn [submit_loop]. unfold submit_one. rewrite A. reflexivity. Qed.

Lemma act_erased : forall c u c' s, act c' (erased c u s) =
  if c =? c' then filter (fun e => negb (Nat.eqb (fst e) u)) (act c' s) else act c' s.
Proof.
  intros c u c' s. unfold act, erased. cbn [s_internals]. rewrite find_set_active.
  destruct (c =? c'); [|reflexivity]. destruct (find_internal c' (s_internals s)); reflexivity.
Qed.
Lemma clients_erased : forall c u s, clients (erased c u s) = clients s.
Proof. intros. unfold clients, erased. cbn [s_internals]. apply set_active_clients. Qed.

(** what SubmitResult does for a handle whose result has not been submitted *)
Lemma submit_first : forall p s o c u h order, inv p s o -> In (Called c u h) o -> ~ submitted h p ->
  NoDup order -> (forall x, In x order <-> In (Arrive x true) p) ->
  exists a b, order = a ++ c :: b /\
    submit (Some h) order s =
    ((Response c u WSuccess :: match b with [] => [] | _ => if existsb (Nat.eqb h) (s_running s) then [] else [SUndefined] end),
     erased c u s).
Proof.
  intros p s o c u h order V C NS ND OR.
  assert (IC : In c order). { apply OR. apply (v_uuid _ _ _ V) in C. tauto. }
  apply in_split in IC. destruct IC as (a & b & ->). exists a, b. split; [reflexivity|].
  destruct (v_uuid _ _ _ V c u h C) as (FU & _ & _).
  assert (IA : In (u, h) (act c s)) by (apply (v_active _ _ _ V); auto).
  assert (A : alive h s = true). { apply alive_iff; [apply (v_nodup _ _ _ V)|]. right. eauto. }
  assert (OTHER : forall c' h', c' <> c -> ~ In (u, h') (act c' s)).
  { intros c' h' N I. apply (v_active _ _ _ V) in I. destruct I as [I _].
    destruct (v_same_u _ _ _ V _ _ _ _ _ C I). congruence. }
  assert (DIS : forall c', In c' a \/ In c' b -> c' <> c).
  { intros c' I ->. apply NoDup_remove_2 in ND. apply ND. apply in_or_app. exact I. }
  unfold submit. rewrite (loop_app_miss h u a (c :: b) 0 s A FU); [|intros c' h' I; apply OTHER, DIS; auto].
  cbn [submit_loop]. rewrite (submit_one_hit h u c s h A FU IA).
  set (s' := erased c u s).
  assert (OTHER' : forall c' h', ~ In (u, h') (act c' s')).
  { intros c' h' I. unfold s' in I. rewrite act_erased in I. destruct (Nat.eqb_spec c c') as [<-|N].
    - apply filter_In in I. cbn in I. rewrite Nat.eqb_refl in I. destruct I. discriminate.
    - exact (OTHER c' h' (not_eq_sym N) I). }
  assert (AL : alive h s' = existsb (Nat.eqb h) (s_running s)).
  { destruct (existsb (Nat.eqb h) (s_running s)) eqn:E.
    - unfold alive, s', erased. cbn [s_running]. rewrite E. reflexivity.
    - destruct (alive h s') eqn:AE; [|reflexivity].
      apply alive_iff in AE; [|unfold s'; rewrite clients_erased; apply (v_nodup _ _ _ V)].
      destruct AE as [I|(c' & u' & I)].
      + assert (X : existsb (Nat.eqb h) (s_running s) = true) by (apply existsb_exists; exists h; rewrite Nat.eqb_refl; auto). congruence.
      + assert (I2 := I). unfold s' in I2. rewrite act_erased in I2.
        assert (I3 : In (u', h) (act c' s)) by (destruct (c =? c'); [apply filter_In in I2; tauto|exact I2]).
        apply (v_active _ _ _ V) in I3. destruct I3 as [I3 _]. destruct (v_same_h _ _ _ V _ _ _ _ _ C I3) as [<- <-].
        elim (OTHER' c h I). }
  destruct b as [|c1 b1]; [reflexivity|].
  destruct (existsb (Nat.eqb h) (s_running s)) eqn:E.
  - rewrite (loop_miss h u (c1 :: b1) 1 s'); [reflexivity|exact AL|exact FU|]. intros c' h' _. apply OTHER'.
  - rewrite (loop_dead h c1 b1 1 s' AL). reflexivity.
Qed.

(** and for a handle whose result has been submitted before *)
Lemma submit_again : forall p s o c u h order, inv p s o -> In (Called c u h) o -> submitted h p ->
  (forall x, In x order <-> In (Arrive x true) p) ->
  submit (Some h) order s = ((if existsb (Nat.eqb h) (s_running s) then [StateError] else [SUndefined]), s).
Proof.
  intros p s o c u h order V C S OR.
  destruct (v_uuid _ _ _ V c u h C) as (FU & AR & _). apply OR in AR.
  unfold submit. destruct (existsb (Nat.eqb h) (s_running s)) eqn:E.
  - rewrite (loop_miss h u order 0 s); [reflexivity| |exact FU|].
    + unfold alive. rewrite E. reflexivity.
    + intros c' h' _ I. apply (v_active _ _ _ V) in I. destruct I as [I NS].
      destruct (v_same_u _ _ _ V _ _ _ _ _ C I) as [<- <-]. exact (NS S).
  - destruct order as [|c1 r]; [destruct AR|]. rewrite (loop_dead h c1 r 0 s); [reflexivity|].
    destruct (alive h s) eqn:AE; [|reflexivity]. apply alive_iff in AE; [|apply (v_nodup _ _ _ V)].
    destruct AE as [I|(c' & u' & I)].
    + assert (X : existsb (Nat.eqb h) (s_running s) = true) by (apply existsb_exists; exists h; rewrite Nat.eqb_refl; auto). congruence.
    + apply (v_active _ _ _ V) in I. tauto.
Qed.

Lemma in_snoc : forall (A : Type) (x : A) l y, In x (l ++ [y]) <-> In x l \/ x = y.
Proof. intros. rewrite in_app_iff. cbn. intuition. Qed.

Lemma remove_open_in : forall h l x, NoDup l -> (In x (remove_open h l) <-> In x l /\ x <> h).
Proof.
  intros h. induction l as [|y r IH]; intros x ND; cbn [remove_open]; [cbn; tauto|]. inversion ND as [|? ? N ND']; subst.
  destruct (Nat.eqb_spec y h) as [->|D]; cbn [In].
  - split; [intros I; split; [auto|intros ->; auto]|]. intros [[->|I] H]; [congruence|exact I].
  - rewrite IH by assumption. split; [intros [->|[I H]]; auto|]. intros [[->|I] H]; auto.
Qed.
Lemma remove_open_nodup : forall h l, NoDup l -> NoDup (remove_open h l).
Proof.
  intros h. induction l as [|y r IH]; intros ND; cbn [remove_open]; [constructor|]. inversion ND as [|? ? N ND']; subst.
  destruct (y =? h); [assumption|]. constructor; [|auto]. rewrite remove_open_in by assumption. tauto.
Qed.

(** events without calls and submissions leave the histories as they are *)
Lemma inv_step : forall p e s o, inv p s o ->
  (forall c u, e = Receive c u -> forall c', ~ In (Receive c' u) p) ->
  (forall h order, e = Submit (Some h) order ->
     (exists c u, In (Called c u h) o) /\ NoDup order /\ forall c, In c order <-> In (Arrive c true) p) ->
  (forall h, e = Return h -> exists c u, In (Called c u h) o) ->
  e <> SetCallHandler false ->
  inv (p ++ [e]) (snd (sstep e s)) (o ++ fst (sstep e s)).
Proof.
  intros p e s o V FR SU RE SH. pose proof V as [V1 V2 [V3 V3'] V4 V5 V6 V7 V8 V9 V10 V11].
  destruct e as [c m|c u|h|h order|b]; cbn [sstep].
  - (* Arrive *)
    cbn [fst snd]. rewrite app_nil_r.
    assert (SB : forall h, submitted h (p ++ [Arrive c m]) <-> submitted h p).
    { intros h. rewrite submitted_snoc. split; [intros [H|(x & H)]; [exact H|discriminate]|auto]. }
    unfold arrive. destruct (find_internal c (s_internals s)) as [i|] eqn:F.
    + assert (AR : In (Arrive c true) p). { apply V1. apply find_internal_some in F. unfold clients. destruct F as [I <-]. apply in_map, I. }
      constructor; auto.
      * intros x. rewrite in_snoc, V1. split; [auto|]. intros [H|E]; [exact H|]. injection E as -> <-. exact AR.
      * intros x u h H. destruct (V4 x u h H) as (A & B & D). rewrite !in_snoc. auto.
      * intros x u h. rewrite V8, SB. reflexivity.
      * intros h. rewrite V9, in_snoc. intuition discriminate.
      * intros h. rewrite SB, in_snoc. intros [H|[H|H]]; [auto|auto|discriminate].
    + destruct m.
      * constructor; cbn [s_running s_uuid s_handler s_internals]; auto.
        -- intros x. unfold clients. cbn [s_internals]. rewrite map_app, in_app_iff, in_snoc. cbn. fold (clients s). rewrite V1.
           split; [intros [H|[->|[]]]; auto|]. intros [H|E]; [auto|]. injection E as ->. auto.
        -- unfold clients. cbn [s_internals]. rewrite map_app. cbn. apply find_internal_none in F.
           clear - F V2. unfold clients in V2. induction (map i_client (s_internals s)) as [|y r IH]; cbn.
           ++ repeat constructor. tauto.
           ++ inversion V2 as [|? ? N ND]; subst. constructor; [|apply IH; [exact ND|cbn in F; tauto]].
              rewrite in_snoc. intros [H|H]; [auto|]. subst. cbn in F. tauto.
        -- split; [exact V3|]. intros i I. apply in_app_or in I. destruct I as [I|[<-|[]]]; auto.
        -- intros x u h H. destruct (V4 x u h H) as (A & B & D). rewrite !in_snoc. auto.
        -- intros x u h. rewrite SB, <- V8. unfold act. cbn [s_internals]. rewrite find_internal_app.
           destruct (find_internal x (s_internals s)) as [i|]; [reflexivity|]. cbn. destruct (c =? x); reflexivity.
        -- intros h. rewrite V9, in_snoc. intuition discriminate.
        -- intros h. rewrite SB, in_snoc. intros [H|[H|H]]; [auto|auto|discriminate].
      * constructor; auto.
        -- intros x. rewrite in_snoc, V1. split; [auto|]. intros [H|E]; [exact H|discriminate].
        -- intros x u h H. destruct (V4 x u h H) as (A & B & D). rewrite !in_snoc. auto.
        -- intros x u h. rewrite V8, SB. reflexivity.
        -- intros h. rewrite V9, in_snoc. intuition discriminate.
        -- intros h. rewrite SB, in_snoc. intros [H|[H|H]]; [auto|auto|discriminate].
  - (* Receive *)
    assert (SB : forall h, submitted h (p ++ [Receive c u]) <-> submitted h p).
    { intros h. rewrite submitted_snoc. split; [intros [H|(x & H)]; [exact H|discriminate]|auto]. }
    assert (KEEP : inv (p ++ [Receive c u]) s o).
    { constructor; auto.
      * intros x. rewrite in_snoc, V1. split; [auto|]. intros [H|E]; [exact H|discriminate].
      * intros x v h H. destruct (V4 x v h H) as (A & B & D). rewrite !in_snoc. auto.
      * intros x v h. rewrite V8, SB. reflexivity.
      * intros h. rewrite V9, in_snoc. intuition discriminate.
      * intros h. rewrite SB, in_snoc. intros [H|[H|H]]; [auto|auto|discriminate]. }
    unfold receive. destruct (find_internal c (s_internals s)) as [i|] eqn:F; [|cbn [fst snd]; rewrite app_nil_r; exact KEEP].
    rewrite V3' by (apply find_internal_some in F; tauto).
    destruct (find_nat u (i_active i)) as [h'|] eqn:FN.
    { exfalso. apply find_nat_in in FN. assert (I : In (u, h') (act c s)) by (unfold act; rewrite F; exact FN).
      apply V8 in I. destruct I as [I _]. apply V4 in I. apply (FR c u eq_refl c). tauto. }
    cbn [fst snd]. set (h := List.length (s_uuid s)).
    assert (NU : forall c' h', ~ In (Called c' u h') o). { intros c' h' I. apply V4 in I. apply (FR c u eq_refl c'). tauto. }
    assert (NH : forall c' u', ~ In (Called c' u' h) o).
    { intros c' u' I. apply V4 in I. destruct I as [I _]. apply find_nat_in, V5 in I. unfold h in I. lia. }
    assert (NK : ~ (submitted h p \/ In (Return h) p)). { intros K. apply V11 in K. destruct K as (x & v & K). exact (NH _ _ K). }
    assert (IO : forall x v k, In (Called x v k) (o ++ [Called c u h]) <-> In (Called x v k) o \/ (x = c /\ v = u /\ k = h)).
    { intros x v k. rewrite in_snoc. split; (intros [H|H]; [auto|right]); [injection H; auto|destruct H as (-> & -> & ->); reflexivity]. }
    constructor; cbn [s_running s_uuid s_handler s_internals].
    + intros x. unfold clients. cbn [s_internals]. rewrite set_active_clients. fold (clients s). rewrite in_snoc, V1. intuition discriminate.
    + unfold clients. cbn [s_internals]. rewrite set_active_clients. exact V2.
    + split; [exact V3|]. intros j I. unfold set_active in I. apply in_map_iff in I. destruct I as (k & <- & I).
      destruct (i_client k =? c); cbn; auto.
    + intros x v k H. apply IO in H. rewrite find_nat_app, !in_snoc. destruct H as [H|(-> & -> & ->)].
      * destruct (V4 _ _ _ H) as (A & B & D). rewrite A. auto.
      * destruct (find_nat h (s_uuid s)) as [z|] eqn:FZ; [apply find_nat_in, V5 in FZ; unfold h in FZ; lia|].
        cbn. rewrite Nat.eqb_refl. split; [reflexivity|]. split; [left; apply V1|auto].
        apply find_internal_some in F. destruct F as [I <-]. unfold clients. apply in_map, I.
    + intros k v I. rewrite app_length. cbn. apply in_app_or in I. destruct I as [I|[E|[]]]; [apply V5 in I; lia|injection E as <- _; unfold h; lia].
    + intros x v k x' k' H H'. apply IO in H. apply IO in H'.
      destruct H as [H|(-> & -> & ->)], H' as [H'|(E1 & E2 & E3)]; subst; eauto.
      * elim (NU _ _ H).
      * elim (NU _ _ H').
    + intros x v k x' v' H H'. apply IO in H. apply IO in H'.
      destruct H as [H|(-> & -> & ->)], H' as [H'|(E1 & E2 & E3)]; subst; eauto.
      * elim (NH _ _ H).
      * elim (NH _ _ H').
    + intros x v k. rewrite SB, IO. unfold act. cbn [s_internals]. rewrite find_set_active. destruct (Nat.eqb_spec c x) as [<-|N].
      * rewrite F. cbn [option_map i_active]. rewrite in_snoc. specialize (V8 c v k). unfold act in V8. rewrite F in V8. rewrite V8.
        split.
        -- intros [[A B]|E]; [auto|]. injection E as -> ->. split; [auto|]. intros S. apply NK. auto.
        -- intros [[H|(_ & -> & ->)] B]; [left; auto|right; reflexivity].
      * specialize (V8 x v k). unfold act in V8. rewrite V8. split; [tauto|]. intros [[H|(E & _)] B]; [auto|congruence].
    + intros k. rewrite in_snoc, V9, in_snoc. split.
      * intros [[(x & v & H) B]| ->].
        -- split; [exists x, v; apply IO; auto|]. intuition discriminate.
        -- split; [exists c, u; apply IO; auto|]. intros [H|H]; [|discriminate]. apply NK. auto.
      * intros [(x & v & H) B]. apply IO in H. destruct H as [H|(-> & -> & ->)]; [left|right; reflexivity].
        split; [eauto|]. intros R. apply B. auto.
    + assert (NR : ~ In h (s_running s)). { intros I. apply V9 in I. destruct I as [(x & v & I) _]. exact (NH _ _ I). }
      clear - V10 NR. induction (s_running s) as [|y r IH]; cbn.
      * repeat constructor. tauto.
      * inversion V10 as [|? ? N ND]; subst. cbn in NR. constructor; [|apply IH; [exact ND|tauto]].
        rewrite in_snoc. intros [H|H]; [auto|]. subst. tauto.
    + intros k. rewrite SB, in_snoc. intros [H|[H|H]]; [| |discriminate]; (destruct (V11 k) as (x & v & K); [auto|]); exists x, v; apply IO; auto.
  - (* Return *)
    cbn [fst snd]. rewrite app_nil_r.
    assert (SB : forall k, submitted k (p ++ [Return h]) <-> submitted k p).
    { intros k. rewrite submitted_snoc. split; [intros [H|(x & H)]; [exact H|discriminate]|auto]. }
    constructor; cbn [s_running s_uuid s_handler s_internals]; auto.
    + intros x. unfold clients. cbn [s_internals]. fold (clients s). rewrite in_snoc, V1. intuition discriminate.
    + intros x v k H. destruct (V4 x v k H) as (A & B & D). rewrite !in_snoc. auto.
    + intros x v k. rewrite SB, <- V8. reflexivity.
    + intros k. rewrite remove_open_in, V9, in_snoc by exact V10. split.
      * intros [[A B] N]. split; [exact A|]. intros [H|H]; [auto|]. congruence.
      * intros [A B]. split; [split; [exact A|]|]; intros H; apply B; [auto|right; congruence].
    + apply remove_open_nodup, V10.
    + intros k. rewrite SB, in_snoc. intros [H|[H|H]]; [auto|auto|]. apply RE. congruence.
  - (* Submit *)
    destruct h as [h|].
    + destruct (SU h order eq_refl) as ((c & u & C) & ND & OR).
      assert (SB : forall k, submitted k (p ++ [Submit (Some h) order]) <-> submitted k p \/ k = h).
      { intros k. rewrite submitted_snoc. split; (intros [H|H]; [auto|right]); [destruct H as (x & H); congruence|subst; eauto]. }
      assert (ARR : forall x, In (Arrive x true) (p ++ [Submit (Some h) order]) <-> In (Arrive x true) p).
      { intros x. rewrite in_snoc. intuition discriminate. }
      assert (RET : forall x, In (Return x) (p ++ [Submit (Some h) order]) <-> In (Return x) p).
      { intros x. rewrite in_snoc. intuition discriminate. }
      assert (D : submitted h p \/ ~ submitted h p).
      { destruct (in_dec Nat.eq_dec h (flat_map (fun e => match e with Submit (Some k) _ => [k] | _ => [] end) p)) as [I|N].
        - left. apply in_flat_map in I. destruct I as (e & I & K). destruct e as [| | |[k|] x|]; try destruct K.
          + subst. exists x. exact I.
          + destruct H.
        - right. intros (x & I). apply N. apply in_flat_map. exists (Submit (Some h) x). cbn. auto. }
      destruct D as [S|NS].
      * rewrite (submit_again p s o c u h order V C S OR). cbn [fst snd].
        assert (OO : forall x v k, In (Called x v k) (o ++ (if existsb (Nat.eqb h) (s_running s) then [StateError] else [SUndefined])) <-> In (Called x v k) o).
        { intros x v k. destruct (existsb (Nat.eqb h) (s_running s)); rewrite in_snoc; intuition discriminate. }
        constructor; auto.
        -- intros x. rewrite ARR. apply V1.
        -- intros x v k H. apply OO in H. destruct (V4 x v k H) as (A & B & E). rewrite ARR, in_snoc. auto.
        -- intros x v k x' k' H H'. apply OO in H. apply OO in H'. eauto.
        -- intros x v k x' k' H H'. apply OO in H. apply OO in H'. eauto.
        -- intros x v k. rewrite OO, V8, SB. split; [intros [A B]; split; [exact A|]; intros [H|H]; [auto|subst; auto]|tauto].
        -- intros k. rewrite RET, V9. split; intros [(x & v & H) B]; (split; [exists x, v; apply OO, H|exact B]).
        -- intros k. rewrite RET, SB. intros H. destruct (V11 k) as (x & v & K); [intuition; subst; auto|]. exists x, v. apply OO, K.
      * destruct (submit_first p s o c u h order V C NS ND OR) as (a & b & -> & ->). cbn [fst snd].
        match goal with |- inv _ _ (o ++ ?t) => set (tl := t) end.
        assert (OO : forall x v k, In (Called x v k) (o ++ tl) <-> In (Called x v k) o).
        { intros x v k. rewrite in_app_iff. split; [|auto]. intros [H|H]; [exact H|]. unfold tl in H. destruct H as [H|H]; [discriminate|].
          destruct b; [destruct H|]. destruct (existsb (Nat.eqb h) (s_running s)); cbn in H; intuition discriminate. }
        constructor; rewrite ?clients_erased; cbn [erased s_running s_uuid s_handler s_internals]; auto.
        -- intros x. rewrite ARR. apply V1.
        -- split; [exact V3|]. intros j I. unfold set_active in I. apply in_map_iff in I. destruct I as (k & <- & I).
           destruct (i_client k =? c); cbn; auto.
        -- intros x v k H. apply OO in H. destruct (V4 x v k H) as (A & B & E). rewrite ARR, in_snoc. auto.
        -- intros x v k x' k' H H'. apply OO in H. apply OO in H'. eauto.
        -- intros x v k x' k' H H'. apply OO in H. apply OO in H'. eauto.
        -- intros x v k. rewrite OO, SB, act_erased. destruct (Nat.eqb_spec c x) as [<-|N].
           ++ rewrite filter_In, V8. cbn [fst]. split.
              ** intros [[A B] E]. split; [exact A|]. intros [H|H]; [auto|]. subst k.
                 destruct (V7 _ _ _ _ _ C A) as [_ <-]. rewrite Nat.eqb_refl in E. discriminate.
              ** intros [A B]. split; [split; [exact A|tauto]|]. destruct (Nat.eqb_spec v u) as [->|]; [|reflexivity].
                 destruct (V6 _ _ _ _ _ C A) as [_ <-]. tauto.
           ++ rewrite V8. split; [|tauto]. intros [A B]. split; [exact A|]. intros [H|H]; [auto|]. subst k.
              destruct (V7 _ _ _ _ _ C A). congruence.
        -- intros k. rewrite RET, V9. split; intros [(x & v & H) B]; (split; [exists x, v; apply OO, H|exact B]).
        -- intros k. rewrite RET, SB. intros H. assert (K : exists x v, In (Called x v k) o).
           { destruct H as [[H| ->]|H]; [apply V11; auto|eauto|apply V11; auto]. }
           destruct K as (x & v & K). exists x, v. apply OO, K.
    + cbn [submit fst snd].
      assert (SB : forall k, submitted k (p ++ [Submit None order]) <-> submitted k p).
      { intros k. rewrite submitted_snoc. split; [intros [H|(x & H)]; [exact H|discriminate]|auto]. }
      assert (OO : forall x v k, In (Called x v k) (o ++ [StateError]) <-> In (Called x v k) o).
      { intros x v k. rewrite in_snoc. intuition discriminate. }
      constructor; auto.
      * intros x. rewrite in_snoc, V1. intuition discriminate.
      * intros x v k H. apply OO in H. destruct (V4 x v k H) as (A & B & D). rewrite !in_snoc. auto.
      * intros x v k x' k' H H'. apply OO in H. apply OO in H'. eauto.
      * intros x v k x' k' H H'. apply OO in H. apply OO in H'. eauto.
      * intros x v k. rewrite OO, V8, SB. reflexivity.
      * intros k. rewrite in_snoc, V9. split; intros [(x & v & H) B]; (split; [exists x, v; apply OO, H|intuition discriminate]).
      * intros k. rewrite SB, in_snoc. intros H. destruct (V11 k) as (x & v & K); [intuition discriminate|]. exists x, v. apply OO, K.
  - (* SetCallHandler *)
    destruct b; [|congruence]. cbn [fst snd]. rewrite app_nil_r.
    assert (SB : forall k, submitted k (p ++ [SetCallHandler true]) <-> submitted k p).
    { intros k. rewrite submitted_snoc. split; [intros [H|(x & H)]; [exact H|discriminate]|auto]. }
    set (g := fun i => mkInternal (i_client i) true (i_active i)).
    assert (CL : forall l, map i_client (map g l) = map i_client l).
    { intros l. rewrite map_map. reflexivity. }
    assert (FI : forall x l, find_internal x (map g l) = option_map g (find_internal x l)).
    { intros x. induction l as [|j r IH]; [reflexivity|]. cbn [map find_internal]. change (i_client (g j)) with (i_client j).
      destruct (i_client j =? x); [reflexivity|exact IH]. }
    constructor; cbn [s_running s_uuid s_handler s_internals]; auto.
    + intros x. unfold clients. cbn [s_internals]. rewrite CL. fold (clients s). rewrite in_snoc, V1. intuition discriminate.
    + unfold clients. cbn [s_internals]. rewrite CL. exact V2.
    + split; [reflexivity|]. intros i I. apply in_map_iff in I. destruct I as (j & <- & _). reflexivity.
    + intros x v k H. destruct (V4 x v k H) as (A & B & D). rewrite !in_snoc. auto.
    + intros x v k. rewrite SB, <- V8. unfold act. cbn [s_internals]. rewrite FI. destruct (find_internal x (s_internals s)); reflexivity.
    + intros k. rewrite V9, in_snoc. intuition discriminate.
    + intros k. rewrite SB, in_snoc. intros [H|[H|H]]; [auto|auto|discriminate].
Qed.

Lemma inv0 : inv [] (server0 true) [].
Proof.
  constructor; cbn.
  - tauto.
  - constructor.
  - split; [reflexivity|tauto].
  - tauto.
  - tauto.
  - tauto.
  - tauto.
  - intros c u h. split; [tauto|intros [[] _]].
  - intros h. split; [tauto|intros [(? & ? & []) _]].
  - constructor.
  - intros h [(x & [])|[]].
Qed.

Lemma sane_app : forall a b, sane (a ++ b) -> sane a.
Proof.
  intros a b (A & B & C). split; [|split].
  - intros p h order q ->. apply (A p h order (q ++ b)). rewrite <- app_assoc. reflexivity.
  - intros p h q ->. apply (B p h (q ++ b)). rewrite <- app_assoc. reflexivity.
  - intros I. apply C, in_or_app. auto.
Qed.
Lemma nodup_app_l : forall (A : Type) (a b : list A), NoDup (a ++ b) -> NoDup a.
Proof.
  induction a as [|x r IH]; intros b H; [constructor|]. cbn in H. inversion H as [|? ? N ND]; subst. constructor; [|eauto].
  intros I. apply N, in_or_app. auto.
Qed.
Lemma distinct_app : forall a b, distinct_uuids (a ++ b) -> distinct_uuids a.
Proof.
  intros a b H. unfold distinct_uuids in *. rewrite flat_map_app in H. apply nodup_app_l in H. exact H.
Qed.
Lemma inv_run : forall evs, sane evs -> distinct_uuids evs -> inv evs (st evs) (outs evs).
Proof.
  intros evs. induction evs as [|e p IH] using rev_ind; intros S D; [exact inv0|].
  unfold st, outs. rewrite srun_snoc. cbn [fst snd].
  apply inv_step; [apply IH; [eapply sane_app; eauto|eapply distinct_app; eauto]| | | |].
  - intros c u -> c' I. unfold distinct_uuids in D. rewrite flat_map_app in D. cbn in D. apply NoDup_remove_2 in D.
    rewrite app_nil_r in D. apply D. apply in_flat_map. exists (Receive c' u). cbn. auto.
  - intros h order ->. apply (proj1 S p h order []). reflexivity.
  - intros h ->. apply (proj1 (proj2 S) p h []). reflexivity.
  - intros ->. apply (proj2 (proj2 S)), in_or_app. cbn. auto.
Qed.

(** ** Main statements for the server *)
Lemma running_iff : forall p s o h c u, inv p s o -> In (Called c u h) o -> (existsb (Nat.eqb h) (s_running s) = true <-> ~ In (Return h) p).
Proof.
  intros p s o h c u V C. rewrite existsb_exists. split.
  - intros (x & I & E). apply Nat.eqb_eq in E. subst x. apply (v_running _ _ _ V) in I. tauto.
  - intros N. exists h. split; [|apply Nat.eqb_refl]. apply (v_running _ _ _ V). split; eauto.
Qed.

Lemma first_submit : forall p h order q c u, sane (p ++ Submit (Some h) order :: q) -> distinct_uuids (p ++ Submit (Some h) order :: q) ->
  In (Called c u h) (outs p) -> ~ submitted h p ->
  exists rest, fst (sstep (Submit (Some h) order) (st p)) = Response c u WSuccess :: rest /\ (rest = [] \/ rest = [SUndefined]) /\
    (~ In (Return h) p \/ (exists a, order = a ++ [c]) -> rest = []).
Proof.
  intros p h order q c u S D C NS.
  pose proof (inv_run p (sane_app _ _ S) (distinct_app _ _ D)) as V.
  destruct (proj1 S p h order q eq_refl) as (_ & ND & OR).
  destruct (submit_first p (st p) (outs p) c u h order V C NS ND OR) as (a & b & E & R). cbn [sstep]. rewrite R. cbn [fst].
  eexists. split; [reflexivity|]. split.
  - destruct b; [auto|]. destruct (existsb (Nat.eqb h) (s_running (st p))); auto.
  - intros [N|(a' & E')].
    + destruct b; [reflexivity|]. rewrite (proj2 (running_iff p (st p) (outs p) h c u V C) N). reflexivity.
    + destruct b as [|x b]; [reflexivity|]. exfalso. rewrite E in ND. apply NoDup_remove_2 in ND. apply ND. apply in_or_app. right.
      assert (L : last (x :: b) 0 = c). { rewrite E in E'. apply (f_equal (fun l => last l 0)) in E'.
        rewrite last_last in E'. rewrite <- E'. symmetry. change (a ++ c :: x :: b) with (a ++ ([c] ++ (x :: b))).
        rewrite app_assoc. clear. generalize (a ++ [c]) as l. induction l as [|y l IH]; [reflexivity|]. cbn [app].
        change (last (y :: (l ++ x :: b)) 0 = last (x :: b) 0). rewrite <- IH. destruct (l ++ x :: b) eqn:Z; [|reflexivity].
        destruct l; discriminate. }
      rewrite <- L. clear. revert x. induction b as [|y b IH]; intros x; [cbn; auto|].
      change (In (last (y :: b) 0) (x :: y :: b)). right. apply IH.
Qed.

Lemma again_submit : forall p h order q c u, sane (p ++ Submit (Some h) order :: q) -> distinct_uuids (p ++ Submit (Some h) order :: q) ->
  In (Called c u h) (outs p) -> submitted h p ->
  fst (sstep (Submit (Some h) order) (st p)) = [StateError] /\ ~ In (Return h) p \/
  fst (sstep (Submit (Some h) order) (st p)) = [SUndefined] /\ In (Return h) p.
Proof.
  intros p h order q c u S D C SB.
  pose proof (inv_run p (sane_app _ _ S) (distinct_app _ _ D)) as V.
  destruct (proj1 S p h order q eq_refl) as (_ & ND & OR). cbn [sstep].
  rewrite (submit_again p (st p) (outs p) c u h order V C SB OR). cbn [fst].
  pose proof (running_iff p (st p) (outs p) h c u V C) as R.
  destruct (existsb (Nat.eqb h) (s_running (st p))); [left; split; [reflexivity|]; apply R; reflexivity|].
  right. split; [reflexivity|]. destruct (v_running _ _ _ V h) as [_ V9].
  assert (RD : forall e, e = Return h \/ e <> Return h).
  { intros e. destruct e as [| |k| |]; try (right; discriminate). destruct (Nat.eq_dec k h); [left; congruence|right; congruence]. }
  assert (DEC : In (Return h) p \/ ~ In (Return h) p).
  { clear - RD. induction p as [|e r IH]; [right; cbn; tauto|]. destruct (RD e) as [->|N]; [left; left; reflexivity|].
    destruct IH as [I|I]; [left; right; exact I|right]. intros [E|E]; auto. }
  destruct DEC as [I|N]; [exact I|]. apply R in N. discriminate.
Qed.

Lemma submit_loop_outs : forall h order k s x, In x (fst (fst (submit_loop h order k s))) -> x = SUndefined \/ exists c u, x = Response c u WSuccess.
Proof.
  intros h. induction order as [|c r IH]; intros k s x I; [destruct I|]. cbn [submit_loop] in I.
  destruct (submit_one h c s) as [[[o s'] b]|] eqn:E; [|cbn in I; intuition].
  specialize (IH (if b then S k else k) s' x). destruct (submit_loop h r (if b then S k else k) s') as [[o' s''] k']. cbn [fst] in *.
  apply in_app_or in I. destruct I as [I|I]; [|auto]. unfold submit_one in E. destruct (alive h s); [|discriminate].
  destruct (find_nat h (s_uuid s)) as [u|]; [|injection E as <- <- <-; destruct I].
  destruct (find_internal c (s_internals s)) as [i|]; [|injection E as <- <- <-; destruct I].
  destruct (find_nat u (i_active i)); injection E as <- <- <-; cbn in I; [|tauto]. destruct I as [<-|[]]. right. eauto.
Qed.
Lemma called_step : forall c u h e s, In (Called c u h) (fst (sstep e s)) -> e = Receive c u.
Proof.
  intros c u h e s I. destruct e as [c' m|c' u'|k|k order|b]; cbn [sstep fst] in I.
  - destruct I.
  - unfold receive in I. destruct (find_internal c' (s_internals s)) as [i|]; [|destruct I].
    destruct (i_handler i); [|cbn in I; intuition discriminate]. destruct (find_nat u' (i_active i)); cbn in I; destruct I as [I|[]]; [discriminate|].
    injection I. congruence.
  - destruct I.
  - destruct k as [k|]; cbn [submit] in I; [|cbn in I; intuition discriminate].
    pose proof (submit_loop_outs k order 0 s (Called c u h)) as L. destruct (submit_loop k order 0 s) as [[o s'] n]. cbn [fst] in L.
    assert (NI : ~ In (Called c u h) o) by (intros X; apply L in X; destruct X as [X|(x & y & X)]; discriminate).
    destruct n as [[|[|n]]|]; cbn [fst] in I; try (elim (NI I)); apply in_app_or in I; destruct I as [I|I]; try (elim (NI I)); cbn in I; intuition discriminate.
  - destruct I.
Qed.
Lemma called_app : forall c u a b, called c u (a ++ b) = called c u a ++ called c u b.
Proof. intros. apply flat_map_app. Qed.
Lemma called_nil : forall c u o, (forall h, ~ In (Called c u h) o) -> called c u o = [].
Proof.
  intros c u. induction o as [|x r IH]; intros N; [reflexivity|]. unfold called in *. cbn [flat_map]. rewrite IH; [|intros h I; apply (N h); right; exact I].
  rewrite app_nil_r. destruct x as [c' u' h| | |]; try reflexivity.
  destruct (Nat.eqb_spec c' c) as [->|]; [|reflexivity]. destruct (Nat.eqb_spec u' u) as [->|]; [|reflexivity].
  elim (N h). left. reflexivity.
Qed.
Lemma called_in_run : forall c u h evs s, In (Called c u h) (fst (srun evs s)) -> In (Receive c u) evs.
Proof.
  intros c u h. induction evs as [|e r IH]; intros s I; [destruct I|]. rewrite srun_cons in I. cbn [fst] in I. apply in_app_or in I.
  destruct I as [I|I]; [left; eapply called_step; exact I|right; eapply IH; exact I].
Qed.

Lemma called_once : forall p c u q, sane (p ++ Receive c u :: q) -> distinct_uuids (p ++ Receive c u :: q) -> In (Arrive c true) p ->
  exists h, fst (sstep (Receive c u) (st p)) = [Called c u h] /\ called c u (outs (p ++ Receive c u :: q)) = [h].
Proof.
  intros p c u q S D A. pose proof (inv_run p (sane_app _ _ S) (distinct_app _ _ D)) as V.
  unfold distinct_uuids in D. rewrite flat_map_app in D. cbn in D. apply NoDup_remove_2 in D.
  assert (NP : ~ In (Receive c u) p).
  { intros I. apply D, in_or_app. left. apply in_flat_map. exists (Receive c u). cbn. auto. }
  assert (NQ : ~ In (Receive c u) q).
  { intros I. apply D, in_or_app. right. apply in_flat_map. exists (Receive c u). cbn. auto. }
  assert (E : exists h, fst (sstep (Receive c u) (st p)) = [Called c u h]).
  { cbn [sstep]. unfold receive. apply (v_clients _ _ _ V) in A. apply find_internal_in in A. destruct A as [i F]. rewrite F.
    rewrite (proj2 (v_handler _ _ _ V)) by (apply find_internal_some in F; tauto).
    destruct (find_nat u (i_active i)) as [h'|] eqn:FN.
    - exfalso. apply find_nat_in in FN. assert (I : In (u, h') (act c (st p))) by (unfold act; rewrite F; exact FN).
      apply (v_active _ _ _ V) in I. destruct I as [I _]. apply (v_uuid _ _ _ V) in I. tauto.
    - cbn [fst]. eauto. }
  destruct E as [h E]. exists h. split; [exact E|]. unfold outs. rewrite srun_app, srun_cons. cbn [fst]. fold (st p). rewrite E, !called_app.
  rewrite (called_nil c u (fst (srun p _))); [|intros k I; apply called_in_run in I; auto].
  rewrite (called_nil c u (fst (srun q _))); [|intros k I; apply called_in_run in I; auto].
  cbn. rewrite !Nat.eqb_refl. reflexivity.
Qed.

Lemma answered_app : forall c u a b, answered c u (a ++ b) = answered c u a + answered c u b.
Proof. intros. unfold answered. rewrite filter_app, app_length. reflexivity. Qed.

Lemma answered_inv : forall evs c u, sane evs -> distinct_uuids evs ->
  (answered c u (outs evs) = 0 /\ (forall h, In (Called c u h) (outs evs) -> ~ submitted h evs)) \/
  (answered c u (outs evs) = 1 /\ exists h, In (Called c u h) (outs evs) /\ submitted h evs).
Proof.
  intros evs c u. induction evs as [|e p IH] using rev_ind; intros S D; [left; split; [reflexivity|intros h []]|].
  pose proof (inv_run _ (sane_app _ _ S) (distinct_app _ _ D)) as V.
  pose proof (inv_run _ S D) as V'.
  specialize (IH (sane_app _ _ S) (distinct_app _ _ D)).
  assert (OE : outs (p ++ [e]) = outs p ++ fst (sstep e (st p))) by (unfold outs, st; rewrite srun_snoc; reflexivity).
  assert (QUIET : answered c u (fst (sstep e (st p))) = 0 -> (forall h order, e <> Submit (Some h) order) ->
     (answered c u (outs (p ++ [e])) = 0 /\ (forall h, In (Called c u h) (outs (p ++ [e])) -> ~ submitted h (p ++ [e]))) \/
     (answered c u (outs (p ++ [e])) = 1 /\ exists h, In (Called c u h) (outs (p ++ [e])) /\ submitted h (p ++ [e]))).
  { intros Q NS. assert (SB : forall h, submitted h (p ++ [e]) <-> submitted h p).
    { intros h. rewrite submitted_snoc. split; [intros [H|(x & H)]; [exact H|elim (NS h x H)]|auto]. }
    rewrite OE, answered_app, Q, Nat.add_0_r. destruct IH as [[A B]|[A (h & B & C)]].
    - left. split; [exact A|]. intros h I SH. apply SB in SH. apply in_app_or in I. destruct I as [I|I]; [exact (B h I SH)|].
      destruct (v_known _ _ _ V h (or_introl SH)) as (c' & u' & K).
      destruct (v_same_h _ _ _ V' c' u' h c u) as [-> ->].
      + rewrite OE. apply in_or_app. auto.
      + rewrite OE. apply in_or_app. auto.
      + exact (B h K SH).
    - right. split; [exact A|]. exists h. split; [apply in_or_app; auto|apply SB, C]. }
  destruct e as [c' m|c' u'|k|k order|b].
  - apply QUIET; [reflexivity|discriminate].
  - apply QUIET; [|discriminate]. cbn [sstep]. unfold receive. destruct (find_internal c' (s_internals (st p))) as [i|]; [|reflexivity].
    destruct (i_handler i); [|reflexivity]. destruct (find_nat u' (i_active i)); reflexivity.
  - apply QUIET; [reflexivity|discriminate].
  - destruct k as [k|]; [|apply QUIET; [reflexivity|discriminate]].
    destruct (proj1 S p k order [] eq_refl) as ((c' & u' & C) & ND & OR). fold (outs p) in C.
    assert (SB : forall h, submitted h (p ++ [Submit (Some k) order]) <-> submitted h p \/ h = k).
    { intros h. rewrite submitted_snoc. split; (intros [H|H]; [auto|right]); [destruct H as (x & H); congruence|subst; eauto]. }
    assert (CC : forall c u h, In (Called c u h) (outs (p ++ [Submit (Some k) order])) -> In (Called c u h) (outs p)).
    { intros x v h I. rewrite OE in I. apply in_app_or in I. destruct I as [I|I]; [exact I|]. apply called_step in I. discriminate. }
    assert (CC' : forall c u h, In (Called c u h) (outs p) -> In (Called c u h) (outs (p ++ [Submit (Some k) order]))).
    { intros x v h I. rewrite OE. apply in_or_app. auto. }
    assert (DEC : submitted k p \/ ~ submitted k p).
    { destruct (in_dec Nat.eq_dec k (flat_map (fun e => match e with Submit (Some k) _ => [k] | _ => [] end) p)) as [I|N].
      - left. apply in_flat_map in I. destruct I as (e & I & K). destruct e as [| | |[j|] x|]; try destruct K.
        + subst. exists x. exact I.
        + destruct H.
      - right. intros (x & I). apply N. apply in_flat_map. exists (Submit (Some k) x). cbn. auto. }
    destruct DEC as [SK|NS].
    + assert (Q : answered c u (fst (sstep (Submit (Some k) order) (st p))) = 0).
      { destruct (again_submit p k order [] c' u' S D C SK) as [[R _]|[R _]]; rewrite R; reflexivity. }
      rewrite OE, answered_app, Q, Nat.add_0_r, <- OE. destruct IH as [[A B]|[A (h & B & E)]].
      * left. split; [exact A|]. intros h I SH. apply SB in SH. apply CC in I. destruct SH as [SH| ->]; [exact (B h I SH)|exact (B k I SK)].
      * right. split; [exact A|]. exists h. split; [apply CC', B|apply SB; auto].
    + destruct (first_submit p k order [] c' u' S D C NS) as (rest & R & RR & _).
      assert (Q : answered c u (fst (sstep (Submit (Some k) order) (st p))) = if (c' =? c) && (u' =? u) then 1 else 0).
      { rewrite R. unfold answered. cbn [filter]. destruct RR as [-> | ->]; destruct ((c' =? c) && (u' =? u)); reflexivity. }
      rewrite OE, answered_app, Q, <- OE.
      destruct (Nat.eqb_spec c' c) as [->|NC]; [destruct (Nat.eqb_spec u' u) as [->|NU]|]; cbn [andb].
      * right. destruct IH as [[A B]|[A (h & B & E)]].
        -- split; [lia|]. exists k. split; [apply CC', C|apply SB; auto].
        -- exfalso. destruct (v_same_u _ _ _ V c u k c h C B) as [_ <-]. exact (NS E).
      * rewrite Nat.add_0_r. destruct IH as [[A B]|[A (h & B & E)]].
        -- left. split; [exact A|]. intros h I SH. apply CC in I. apply SB in SH. destruct SH as [SH| ->]; [exact (B h I SH)|].
           destruct (v_same_h _ _ _ V _ _ _ _ _ C I). congruence.
        -- right. split; [exact A|]. exists h. split; [apply CC', B|apply SB; auto].
      * rewrite Nat.add_0_r. destruct IH as [[A B]|[A (h & B & E)]].
        -- left. split; [exact A|]. intros h I SH. apply CC in I. apply SB in SH. destruct SH as [SH| ->]; [exact (B h I SH)|].
           destruct (v_same_h _ _ _ V _ _ _ _ _ C I). congruence.
        -- right. split; [exact A|]. exists h. split; [apply CC', B|apply SB; auto].
  - apply QUIET; [reflexivity|discriminate].
Qed.

(** a call of a known client is either passed to the handler or refused *)
Lemma known_client : forall p c b, In (Arrive c true) p -> In c (clients (snd (srun p (server0 b)))).
Proof.
  assert (MONO : forall e s c, In c (clients s) -> In c (clients (snd (sstep e s)))).
  { intros e s c I. destruct e as [c' m|c' u'|k|k order|b]; cbn [sstep snd]; auto.
    - unfold arrive. destruct (find_internal c' (s_internals s)); [exact I|]. destruct m; [|exact I]. unfold clients. cbn [s_internals].
      rewrite map_app. apply in_or_app. auto.
    - unfold receive. destruct (find_internal c' (s_internals s)) as [i|]; [|exact I]. destruct (i_handler i); [|exact I].
      destruct (find_nat u' (i_active i)); [exact I|]. unfold clients. cbn [snd s_internals]. rewrite set_active_clients. exact I.
    - destruct k as [k|]; cbn [submit]; [|exact I].
      assert (L : clients (snd (fst (submit_loop k order 0 s))) = clients s).
      { generalize 0 as n. revert s I. induction order as [|x r IH]; intros s I n; [reflexivity|]. cbn [submit_loop].
        destruct (submit_one k x s) as [[[o s'] b]|] eqn:E; [|reflexivity].
        assert (CS : clients s' = clients s).
        { unfold submit_one in E. destruct (alive k s); [|discriminate]. destruct (find_nat k (s_uuid s)) as [u|]; [|injection E as <- <- <-; reflexivity].
          destruct (find_internal x (s_internals s)) as [i|]; [|injection E as <- <- <-; reflexivity].
          destruct (find_nat u (i_active i)); injection E as <- <- <-; [|reflexivity]. apply (clients_erased x u s). }
        specialize (IH s' ltac:(rewrite CS; exact I) (if b then S n else n)).
        destruct (submit_loop k r (if b then S n else n) s') as [[o' s''] k']. cbn [fst snd] in *. congruence. }
      destruct (submit_loop k order 0 s) as [[o s'] n]. cbn [fst snd] in L.
      destruct n as [[|[|n]]|]; cbn [snd]; rewrite L; exact I.
    - unfold clients. cbn [s_internals]. rewrite map_map. exact I. }
  intros p c b. induction p as [|e r IH] using rev_ind; intros I; [destruct I|]. rewrite srun_snoc. cbn [snd].
  apply in_snoc in I. destruct I as [I|<-]; [apply MONO, IH, I|]. cbn [sstep snd]. unfold arrive.
  destruct (find_internal c (s_internals (snd (srun r (server0 b))))) as [i|] eqn:F.
  - apply find_internal_some in F. unfold clients. destruct F as [F <-]. apply in_map, F.
  - unfold clients. cbn [s_internals]. rewrite map_app. apply in_or_app. right. left. reflexivity.
Qed.
Lemma received_answer : forall p c u b, In (Arrive c true) p ->
  (exists h, fst (sstep (Receive c u) (snd (srun p (server0 b)))) = [Called c u h]) \/
  fst (sstep (Receive c u) (snd (srun p (server0 b)))) = [Response c u WInternalError].
Proof.
  intros p c u b I. apply (known_client p c b) in I. apply find_internal_in in I. destruct I as [i F]. cbn [sstep]. unfold receive. rewrite F.
  destruct (i_handler i); [|auto]. destruct (find_nat u (i_active i)); cbn [fst]; eauto.
Qed.
