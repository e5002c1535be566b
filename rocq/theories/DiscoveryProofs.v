From Coq Require Import List NArith Arith Bool Lia Permutation.
From Verif Require Import Base DiscoveryModel DiscoverySpec.
Import ListNotations.
Local Open Scope N_scope.

(** * Label matching *)
Lemma find_label_some : forall k ls f, find_label k ls = Some f <-> first_with k ls f.
Proof.
  intros k ls; induction ls as [|l r IH]; intros f; cbn.
  - split; [discriminate|]. intros (p & q & E & _). destruct p; discriminate.
  - destruct (N.eqb_spec (l_key l) k) as [e|e].
    + split.
      * intros E; inversion E; subst. exists [], r. cbn; split; [reflexivity|]. split; [reflexivity|]. tauto.
      * intros (p & q & E & K & A). destruct p as [|x p].
        -- cbn in E; congruence.
        -- cbn in E. inversion E; subst. exfalso. eapply (A x); [left; reflexivity|reflexivity].
    + rewrite IH. split.
      * intros (p & q & E & K & A). exists (l :: p), q. subst r. cbn. split; [reflexivity|]. split; [assumption|].
        intros x [<-|H]; auto.
      * intros (p & q & E & K & A). destruct p as [|x p].
        -- cbn in E. inversion E; subst. contradiction.
        -- cbn in E. inversion E; subst. exists p, q. split; [reflexivity|]. split; [reflexivity|].
           intros y H; apply A; right; assumption.
Qed.
Lemma find_label_none : forall k ls, find_label k ls = None <-> forall l, In l ls -> l_key l <> k.
Proof.
  intros k ls; induction ls as [|l r IH]; cbn; [tauto|].
  destruct (N.eqb_spec (l_key l) k) as [e|e].
  - split; [discriminate|]. intros H. exfalso; apply (H l); auto.
  - rewrite IH. split; [intros H x [<-|I]; auto | intros H x I; apply H; auto].
Qed.
Lemma find_label_in : forall k ls f, find_label k ls = Some f -> In f ls /\ l_key f = k.
Proof.
  intros k ls f H. apply find_label_some in H. destruct H as (p & q & -> & K & _).
  split; [apply in_elt | assumption].
Qed.
Lemma label_matches_list_ok : forall l ls, label_matches_list l ls = true <-> label_rule_first l ls.
Proof.
  intros l ls. unfold label_matches_list, label_rule_first. destruct (find_label (l_key l) ls) as [f|] eqn:E.
  - rewrite N.eqb_eq. split.
    + intros V. split.
      * intros f' F. apply find_label_some in F. congruence.
      * intros _. exists f. apply find_label_some, E.
    + intros [H _]. symmetry. apply H, find_label_some, E.
  - rewrite negb_true_iff. split.
    + intros M. split; [|congruence]. intros f F. apply find_label_some in F. congruence.
    + intros [_ H]. destruct (l_mandatory l); [|reflexivity]. destruct (H eq_refl) as [f F].
      apply find_label_some in F. congruence.
Qed.
Lemma match_labels_first : forall a b, match_labels a b = true <-> labels_match_first a b.
Proof.
  intros a b. unfold match_labels, labels_match_first. rewrite andb_true_iff, !forallb_forall.
  split; intros [H1 H2]; split; intros l I; apply label_matches_list_ok; auto.
Qed.
Lemma match_labels_sym : forall a b, match_labels a b = match_labels b a.
Proof. intros. unfold match_labels. apply andb_comm. Qed.

Lemma unique_first : forall k ls f, unique_keys ls -> In f ls -> l_key f = k -> first_with k ls f.
Proof.
  intros k ls f U I K. apply in_split in I. destruct I as (p & q & ->).
  exists p, q. split; [reflexivity|]. split; [assumption|]. intros x Hx Kx.
  unfold unique_keys in U. rewrite map_app in U. cbn in U. apply NoDup_remove_2 in U. apply U.
  rewrite in_app_iff. left. rewrite K, <- Kx. apply in_map, Hx.
Qed.
Lemma rule_first_unique : forall l ls, unique_keys ls -> label_rule_first l ls <-> label_rule l ls.
Proof.
  intros l ls U. unfold label_rule_first, label_rule. destruct (l_mandatory l) eqn:M.
  - split.
    + intros [H1 H2]. destruct (H2 eq_refl) as [f F]. exists f. pose proof (H1 f F). apply find_label_some, find_label_in in F.
      tauto.
    + intros (f & I & K & V). split.
      * intros g G. apply (unique_first _ _ f U I) in K. apply find_label_some in G, K. congruence.
      * intros _. exists f. apply unique_first; assumption.
  - split.
    + intros [H _] f I K. apply H. apply unique_first; assumption.
    + intros H. split; [|discriminate]. intros f F. apply find_label_some, find_label_in in F. apply H; tauto.
Qed.
Lemma match_first_unique : forall a b, unique_keys a -> unique_keys b -> (labels_match_first a b <-> labels_match a b).
Proof.
  intros a b Ua Ub. unfold labels_match_first, labels_match.
  split; intros [H1 H2]; split; intros l I; apply rule_first_unique; auto.
Qed.
Lemma label_rule_perm : forall l b b', Permutation b b' -> label_rule l b -> label_rule l b'.
Proof.
  intros l b b' P. unfold label_rule. destruct (l_mandatory l).
  - intros (f & I & H). exists f. split; [eapply Permutation_in; eauto|assumption].
  - intros H f I. apply H. eapply Permutation_in; [apply Permutation_sym; eassumption|assumption].
Qed.
Lemma labels_match_perm : forall a a' b b', Permutation a a' -> Permutation b b' -> labels_match a b -> labels_match a' b'.
Proof.
  intros a a' b b' Pa Pb [H1 H2]. split; intros l I.
  - apply (label_rule_perm l b b' Pb), H1. eapply Permutation_in; [apply Permutation_sym; eassumption|assumption].
  - apply (label_rule_perm l a a' Pa), H2. eapply Permutation_in; [apply Permutation_sym; eassumption|assumption].
Qed.
Lemma match_labels_perm : forall a a' b b', unique_keys a -> unique_keys b -> Permutation a a' -> Permutation b b' ->
  match_labels a b = match_labels a' b'.
Proof.
  intros a a' b b' Ua Ub Pa Pb.
  assert (Ua' : unique_keys a') by (unfold unique_keys in *; eapply Permutation_NoDup; [apply Permutation_map; eassumption|assumption]).
  assert (Ub' : unique_keys b') by (unfold unique_keys in *; eapply Permutation_NoDup; [apply Permutation_map; eassumption|assumption]).
  apply eq_true_iff_eq. rewrite !match_labels_first, !match_first_unique by assumption.
  split; apply labels_match_perm; try assumption; apply Permutation_sym; assumption.
Qed.

(** * The clusters *)
Definition has_kv (k v : N) (x : item) : bool :=
  match find_label k (i_labels x) with Some f => l_val f =? v | None => false end.
Definition no_labels (x : item) : bool := match i_labels x with [] => true | _ => false end.

Record Inv (S : side -> list item) (e : entry) : Prop := {
  inv_all : forall sd, pick sd (e_all e) = S sd;
  inv_nol : forall sd, pick sd (e_nolabel e) = filter no_labels (S sd);
  inv_lab : forall sd k v, pick sd (e_label e k v) = filter (has_kv k v) (S sd);
  inv_not : forall sd k c, e_not e k = Some c -> incl (pick sd c) (S sd) /\ NoDup (map i_id (pick sd c));
  inv_ids : forall sd, NoDup (map i_id (S sd))
}.
Definition side_eqb (a b : side) : bool := match a, b with Nodes, Nodes | Infos, Infos => true | _, _ => false end.
Definition sapp (S : side -> list item) (sd : side) (it : item) : side -> list item :=
  fun s => if side_eqb s sd then S s ++ [it] else S s.
Lemma pick_put : forall s sd it c, pick s (put sd it c) = if side_eqb s sd then pick s c ++ [it] else pick s c.
Proof. intros [] []; reflexivity. Qed.

Lemma Inv_empty : Inv (fun _ => []) e_empty.
Proof. split; intros; try destruct sd; try reflexivity; try discriminate; cbn; constructor. Qed.

Lemma not_touch_Inv : forall S k e, Inv S e -> Inv S (not_touch k e).
Proof.
  intros S k e H. unfold not_touch. destruct (e_not e k) eqn:E; [assumption|].
  destruct H. split; cbn; auto.
  intros sd k' c. unfold upd. destruct (k' =? k).
  - intros X; inversion X; subst. destruct sd; cbn; split; try constructor; intros ? [].
  - apply inv_not0.
Qed.
Lemma not_touch_same : forall k e, e_label (not_touch k e) = e_label e /\ e_all (not_touch k e) = e_all e /\
  e_nolabel (not_touch k e) = e_nolabel e.
Proof. intros. unfold not_touch. destruct (e_not e k); auto. Qed.

Lemma greedy_loop_Inv : forall S sd ls n b e, Inv S e -> Inv S (snd (greedy_loop sd ls n b e)).
Proof.
  intros S sd ls; induction ls as [|l r IH]; intros n b e H; cbn [greedy_loop]; [exact H|].
  destruct (n <=? 1)%nat; [exact H|].
  destruct (l_mandatory l).
  - destruct (_ <? n)%nat; apply IH; assumption.
  - destruct (_ && _)%nat; apply IH, not_touch_Inv, H.
Qed.
Lemma greedy_loop_in : forall sd ls n b e l, fst (greedy_loop sd ls n b e) = Some l -> b = Some l \/ In l ls.
Proof.
  intros sd ls; induction ls as [|x r IH]; intros n b e l; cbn [greedy_loop].
  - cbn; auto.
  - destruct (n <=? 1)%nat; [cbn; auto|].
    destruct (l_mandatory x).
    + destruct (_ <? n)%nat; intros E; apply IH in E; cbn; intuition congruence.
    + destruct (_ && _)%nat; intros E; apply IH in E; cbn; intuition congruence.
Qed.
Lemma greedy_in : forall sd ls e l, fst (greedy sd ls e) = Some l -> In l ls.
Proof. intros sd ls e l H. apply greedy_loop_in in H. destruct H; [discriminate|assumption]. Qed.

Lemma NoDup_snoc : forall {A} (l : list A) x, NoDup l -> ~ In x l -> NoDup (l ++ [x]).
Proof.
  intros A l x N I. eapply Permutation_NoDup; [apply Permutation_cons_append|]. constructor; assumption.
Qed.
Lemma NoDup_map_filter : forall {A B} (f : A -> B) p l, NoDup (map f l) -> NoDup (map f (filter p l)).
Proof.
  intros A B f p l; induction l as [|x r IH]; cbn; [auto|]. intros N. inversion N; subst.
  destruct (p x); cbn; [constructor|]; auto.
  intros I. apply in_map_iff in I. destruct I as (y & E & I). apply filter_In in I. apply H1. rewrite <- E. apply in_map, I.
Qed.

Lemma ensure_all : forall ls e, e_label (fold_left ensure_label ls e) = e_label e /\
  e_all (fold_left ensure_label ls e) = e_all e /\ e_nolabel (fold_left ensure_label ls e) = e_nolabel e.
Proof.
  induction ls as [|l r IH]; intros e; cbn [fold_left]; [auto|].
  destruct (IH (ensure_label e l)) as (A & B & C). rewrite A, B, C.
  unfold ensure_label. destruct (e_not e (l_key l)); auto.
Qed.
Lemma ensure_mono : forall ls e k, e_not e k <> None -> e_not (fold_left ensure_label ls e) k <> None.
Proof.
  induction ls as [|l r IH]; intros e k H; cbn [fold_left]; [assumption|].
  apply IH. unfold ensure_label. destruct (e_not e (l_key l)) eqn:E; [assumption|].
  cbn. unfold upd. destruct (k =? l_key l); [discriminate|assumption].
Qed.
Lemma ensure_has : forall ls e k f, find_label k ls = Some f -> e_not (fold_left ensure_label ls e) k <> None.
Proof.
  induction ls as [|l r IH]; intros e k f; cbn [fold_left find_label]; [discriminate|].
  destruct (N.eqb_spec (l_key l) k) as [E|E].
  - intros _. apply ensure_mono. unfold ensure_label. subst k.
    destruct (e_not e (l_key l)) eqn:X; [congruence|]. cbn. unfold upd. rewrite N.eqb_refl. discriminate.
  - apply IH.
Qed.
(** After the first loop every cluster of notLabelMap is an old one, or a copy of everything for a key of the list. *)
Lemma ensure_not : forall ls e k c, e_not (fold_left ensure_label ls e) k = Some c ->
  e_not e k = Some c \/ (find_label k ls <> None /\ c = mkCluster (c_nodes (e_all e)) (c_infos (e_all e))).
Proof.
  induction ls as [|l r IH]; intros e k c; cbn [fold_left find_label]; [auto|].
  intros H. apply IH in H.
  assert (EA : e_all (ensure_label e l) = e_all e) by (unfold ensure_label; destruct (e_not e (l_key l)); reflexivity).
  rewrite EA in H. destruct H as [H|[H1 H2]].
  - unfold ensure_label in H. destruct (e_not e (l_key l)) eqn:X; [auto|].
    cbn in H. unfold upd in H. destruct (N.eqb_spec k (l_key l)) as [e0|e0]; [|auto].
    subst k. rewrite N.eqb_refl. inversion H. right. split; [discriminate|reflexivity].
  - right. split; [|assumption]. destruct (l_key l =? k); [discriminate|assumption].
Qed.

Lemma pick_copy : forall sd c, pick sd (mkCluster (c_nodes c) (c_infos c)) = pick sd c.
Proof. intros [] []; reflexivity. Qed.

Lemma filter_snoc : forall {A} (p : A -> bool) l x, filter p (l ++ [x]) = if p x then filter p l ++ [x] else filter p l.
Proof. intros. rewrite filter_app. cbn. destruct (p x); [reflexivity|apply app_nil_r]. Qed.

Lemma update_Inv : forall S e sd it, Inv S e -> ~ In (i_id it) (map i_id (S sd)) ->
  Inv (sapp S sd it) (update_clusters sd it e).
Proof.
  intros S e sd it H Fresh.
  assert (IDS : forall s, NoDup (map i_id (sapp S sd it s))).
  { intros s. unfold sapp. destruct (side_eqb s sd) eqn:E; [|apply (inv_ids _ _ H)].
    rewrite map_app. apply NoDup_snoc; [apply (inv_ids _ _ H)|].
    destruct s, sd; try discriminate E; assumption. }
  unfold update_clusters. destruct (i_labels it) as [|l0 r0] eqn:L.
  - split; cbn; auto.
    + intros s. rewrite pick_put, (inv_all _ _ H). reflexivity.
    + intros s. rewrite pick_put, (inv_nol _ _ H). unfold sapp. destruct (side_eqb s sd); [|reflexivity].
      rewrite filter_snoc. replace (no_labels it) with true by (unfold no_labels; rewrite L; reflexivity). reflexivity.
    + intros s k v. rewrite (inv_lab _ _ H). unfold sapp. destruct (side_eqb s sd); [|reflexivity].
      rewrite filter_snoc. replace (has_kv k v it) with false by (unfold has_kv; rewrite L; reflexivity). reflexivity.
    + intros s k c E. destruct (inv_not _ _ H s k c E) as [I N]. split; [|assumption].
      intros x Hx. unfold sapp. apply I in Hx. destruct (side_eqb s sd); [apply in_or_app; auto|assumption].
  - set (ls := l0 :: r0) in *.
    set (e1 := mkEntry (e_label e) (e_not e) (e_nolabel e) (put sd it (e_all e))).
    destruct (ensure_all ls e1) as (EL & EA & EN).
    set (e2 := fold_left ensure_label ls e1) in *.
    assert (NF : forall x, e_not e2 x = None -> find_label x ls = None).
    { intros x X. destruct (find_label x ls) eqn:F; [|reflexivity]. exfalso. eapply (ensure_has ls e1); eassumption. }
    split; cbn [e_all e_nolabel e_label e_not]; auto.
    + intros s. rewrite EA. cbn. rewrite pick_put, (inv_all _ _ H). reflexivity.
    + intros s. rewrite EN. cbn. rewrite (inv_nol _ _ H). unfold sapp. destruct (side_eqb s sd); [|reflexivity].
      rewrite filter_snoc. replace (no_labels it) with false by (unfold no_labels; rewrite L; reflexivity). reflexivity.
    + intros s k v. rewrite EL. cbn [e_label e1].
      assert (Q : pick s (match e_not e2 k, find_label k ls with
                    | Some _, Some f => if l_val f =? v then put sd it (e_label e k v) else e_label e k v
                    | _, _ => e_label e k v end)
                  = pick s (if has_kv k v it then put sd it (e_label e k v) else e_label e k v)).
      { f_equal. unfold has_kv. rewrite L. fold ls. destruct (e_not e2 k) eqn:X.
        - destruct (find_label k ls); reflexivity.
        - rewrite (NF k X). reflexivity. }
      etransitivity; [exact Q|]. clear Q. unfold sapp.
      destruct (has_kv k v it) eqn:K.
      * rewrite pick_put, (inv_lab _ _ H). destruct (side_eqb s sd); [|reflexivity]. rewrite filter_snoc, K. reflexivity.
      * rewrite (inv_lab _ _ H). destruct (side_eqb s sd); [|reflexivity]. rewrite filter_snoc, K. reflexivity.
    + intros s k c E. destruct (e_not e2 k) as [c0|] eqn:X; [|destruct (find_label k ls); discriminate E].
      apply (ensure_not ls e1) in X. cbn [e_not e_all e1] in X. destruct X as [X|[X1 X2]].
      * destruct (inv_not _ _ H s k c0 X) as [I N].
        assert (I' : incl (pick s c0) (sapp S sd it s)).
        { intros y Hy. apply I in Hy. unfold sapp. destruct (side_eqb s sd); [apply in_or_app; auto|assumption]. }
        destruct (find_label k ls); inversion E; subst; [split; assumption|].
        rewrite pick_put. unfold sapp in *. destruct (side_eqb s sd) eqn:Q; [|split; assumption].
        split.
        -- intros y Hy. apply in_app_or in Hy. destruct Hy as [Hy|Hy]; [auto|apply in_or_app; auto].
        -- rewrite map_app. apply NoDup_snoc; [assumption|]. intros Hin. apply Fresh.
           destruct s, sd; try discriminate Q; apply in_map_iff in Hin; destruct Hin as (y & Ey & Iy);
             rewrite <- Ey; apply in_map, I, Iy.
      * destruct (find_label k ls); [|congruence]. inversion E; subst c.
        rewrite X2, pick_copy, pick_put, (inv_all _ _ H). fold (sapp S sd it s).
        split; [apply incl_refl|apply IDS].
Qed.

Definition sdrop (S : side -> list item) (id : N) : side -> list item :=
  fun s => match s with Nodes => filter (fun x => negb (i_id x =? id)) (S Nodes) | Infos => S Infos end.
Lemma pick_drop : forall s id c, pick s (drop_node id c) =
  match s with Nodes => filter (fun x => negb (i_id x =? id)) (pick Nodes c) | Infos => pick Infos c end.
Proof. intros [] id c; reflexivity. Qed.
Lemma filter_filter_comm : forall {A} (p q : A -> bool) l, filter p (filter q l) = filter q (filter p l).
Proof.
  intros A p q l; induction l as [|x r IH]; cbn; [reflexivity|].
  destruct (q x) eqn:Q, (p x) eqn:P; cbn; rewrite ?Q, ?P, ?IH; reflexivity.
Qed.
Lemma remove_Inv : forall S e id, Inv S e -> Inv (sdrop S id) (remove_node id e).
Proof.
  intros S e id H. unfold remove_node. split; cbn [e_all e_nolabel e_label e_not].
  - intros s. rewrite pick_drop. destruct s; cbn; rewrite <- (inv_all _ _ H); reflexivity.
  - intros s. rewrite pick_drop, (inv_nol _ _ H). destruct s; cbn [sdrop]; [apply filter_filter_comm|].
    apply (inv_nol _ _ H).
  - intros s k v. rewrite pick_drop. destruct s; cbn [sdrop]; rewrite (inv_lab _ _ H); [apply filter_filter_comm|reflexivity].
  - intros s k c. destruct (e_not e k) as [c0|] eqn:E; cbn; [|discriminate]. intros X; inversion X; subst.
    destruct (inv_not _ _ H s k c0 E) as [I N]. rewrite pick_drop. destruct s; cbn [sdrop]; [|split; assumption].
    split; [|apply NoDup_map_filter, N].
    intros y Hy. apply filter_In in Hy. apply filter_In. split; [apply I|]; tauto.
  - intros [] ; cbn [sdrop]; [apply NoDup_map_filter|]; apply (inv_ids _ _ H).
Qed.

Lemma candidates_Inv : forall S sd skip me e, Inv S e -> Inv S (snd (candidates sd skip me e)).
Proof.
  intros S sd skip me e H. unfold candidates.
  pose proof (greedy_loop_Inv S sd (i_labels me) (length (pick sd (e_all e))) None e H) as G.
  unfold greedy. destruct (greedy_loop _ _ _ _ _) as [[l|] e']; cbn in G; [|exact G].
  destruct (l_mandatory l); [exact G|]. cbn. apply not_touch_Inv, G.
Qed.

(** Which items are found, for a state with the invariant. *)
Lemma candidates_sound : forall S sd skip me e x, Inv S e -> In x (fst (candidates sd skip me e)) ->
  In x (S sd) /\ (skip = true \/ match_labels (i_labels me) (i_labels x) = true).
Proof.
  intros S sd skip me e x H. unfold candidates.
  pose proof (greedy_loop_Inv S sd (i_labels me) (length (pick sd (e_all e))) None e H) as G.
  unfold greedy. destruct (greedy_loop _ _ _ _ _) as [[l|] e']; cbn in G.
  - destruct (l_mandatory l).
    + cbn. rewrite filter_In, (inv_lab _ _ G), filter_In. tauto.
    + set (e'' := not_touch (l_key l) e'). assert (G2 : Inv S e'') by apply not_touch_Inv, G.
      cbn [fst]. rewrite !in_app_iff, !filter_In, (inv_lab _ _ G2), (inv_nol _ _ G2), !filter_In.
      intros [[I M]|[[[I _] M]|[[I _] M]]]; (split; [|right; assumption]); try assumption.
      unfold not_get in I. destruct (e_not e'' (l_key l)) as [c|] eqn:E; [|destruct sd; contradiction].
      apply (inv_not _ _ G2 sd _ _ E), I.
  - cbn. rewrite filter_In, (inv_all _ _ G), orb_true_iff. tauto.
Qed.

Lemma match_labels_mand : forall me x l, match_labels me x = true -> In l me -> l_mandatory l = true ->
  exists f, find_label (l_key l) x = Some f /\ l_val f = l_val l.
Proof.
  intros me x l M I Q. apply match_labels_first in M. destruct M as [M _]. destruct (M l I) as [A B].
  destruct (B Q) as [f F]. exists f. split; [apply find_label_some, F|apply A, F].
Qed.
Lemma match_labels_found : forall me x l f, match_labels me x = true -> In l me -> find_label (l_key l) x = Some f ->
  l_val f = l_val l.
Proof.
  intros me x l f M I F. apply match_labels_first in M. destruct M as [M _]. destruct (M l I) as [A B].
  apply A, find_label_some, F.
Qed.

Lemma candidates_complete : forall S sd skip me e x, Inv S e -> In x (S sd) ->
  match_labels (i_labels me) (i_labels x) = true -> ~ risky me x ->
  In x (fst (candidates sd skip me e)).
Proof.
  intros S sd skip me e x H Hx M R. unfold candidates.
  pose proof (greedy_loop_Inv S sd (i_labels me) (length (pick sd (e_all e))) None e H) as G.
  pose proof (greedy_in sd (i_labels me) e) as GI.
  unfold greedy in *. destruct (greedy_loop _ _ _ _ _) as [[l|] e']; cbn in G, GI.
  - specialize (GI l eq_refl). destruct (l_mandatory l) eqn:ML.
    + cbn. rewrite filter_In, (inv_lab _ _ G), filter_In. split; [|assumption]. split; [assumption|].
      destruct (match_labels_mand _ _ _ M GI ML) as (f & F & V). unfold has_kv. rewrite F. apply N.eqb_eq, V.
    + set (e'' := not_touch (l_key l) e'). assert (G2 : Inv S e'') by apply not_touch_Inv, G.
      cbn [fst]. rewrite !in_app_iff, !filter_In, (inv_lab _ _ G2), (inv_nol _ _ G2), !filter_In.
      destruct (find_label (l_key l) (i_labels x)) as [f|] eqn:F.
      * right; right. split; [|assumption]. split; [assumption|]. unfold has_kv. rewrite F.
        apply N.eqb_eq. eapply match_labels_found; eassumption.
      * destruct (no_labels x) eqn:NL; [right; left; auto|]. exfalso. apply R. split.
        -- unfold no_labels in NL. destruct (i_labels x); [discriminate|discriminate].
        -- exists l. split; [assumption|]. split; [assumption|]. apply find_label_none, F.
  - cbn. rewrite filter_In, (inv_all _ _ G), orb_true_iff. tauto.
Qed.
Lemma candidates_skip : forall S sd me e, Inv S e -> i_labels me = [] -> fst (candidates sd true me e) = S sd.
Proof.
  intros S sd me e H L. unfold candidates, greedy. rewrite L. cbn. rewrite (inv_all _ _ H).
  clear; induction (S sd); cbn; congruence.
Qed.

Lemma candidates_once : forall S sd skip me e, Inv S e -> all_mandatory me ->
  NoDup (map i_id (fst (candidates sd skip me e))).
Proof.
  intros S sd skip me e H AM. unfold candidates.
  pose proof (greedy_loop_Inv S sd (i_labels me) (length (pick sd (e_all e))) None e H) as G.
  pose proof (greedy_in sd (i_labels me) e) as GI.
  unfold greedy in *. destruct (greedy_loop _ _ _ _ _) as [[l|] e']; cbn in G, GI.
  - rewrite (AM l (GI l eq_refl)). cbn. rewrite (inv_lab _ _ G). apply NoDup_map_filter, NoDup_map_filter, (inv_ids _ _ G).
  - cbn. apply NoDup_map_filter. rewrite (inv_all _ _ G). apply (inv_ids _ _ G).
Qed.

Lemma count_NoDup : forall (l : list N) x, NoDup l -> (count_occ N.eq_dec l x <= 1)%nat.
Proof. intros l x H. apply NoDup_count_occ; assumption. Qed.
Lemma candidates_twice : forall S sd skip me e id, Inv S e ->
  (count_occ N.eq_dec (map i_id (fst (candidates sd skip me e))) id <= 2)%nat.
Proof.
  intros S sd skip me e id H. unfold candidates.
  pose proof (greedy_loop_Inv S sd (i_labels me) (length (pick sd (e_all e))) None e H) as G.
  unfold greedy in *. destruct (greedy_loop _ _ _ _ _) as [[l|] e']; cbn in G.
  - destruct (l_mandatory l).
    + cbn. rewrite (inv_lab _ _ G).
      assert (X := count_NoDup _ id (NoDup_map_filter i_id (fun x => match_labels (i_labels me) (i_labels x)) _
                  (NoDup_map_filter i_id (has_kv (l_key l) (l_val l)) _ (inv_ids _ _ G sd)))). lia.
    + set (e'' := not_touch (l_key l) e'). assert (G2 : Inv S e'') by apply not_touch_Inv, G.
      cbn [fst]. rewrite !map_app, !count_occ_app.
      set (ok := fun x => match_labels (i_labels me) (i_labels x)).
      assert (N1 : (count_occ N.eq_dec (map i_id (filter ok (pick sd (not_get (l_key l) e'')))) id <= 1)%nat).
      { apply count_NoDup, NoDup_map_filter. unfold not_get. destruct (e_not e'' (l_key l)) as [c|] eqn:E.
        - apply (inv_not _ _ G2 sd _ _ E).
        - destruct sd; constructor. }
      assert (N2 : (count_occ N.eq_dec (map i_id (filter ok (pick sd (e_nolabel e'')))) id +
                    count_occ N.eq_dec (map i_id (filter ok (pick sd (e_label e'' (l_key l) (l_val l))))) id <= 1)%nat).
      { rewrite (inv_nol _ _ G2), (inv_lab _ _ G2), <- count_occ_app, <- map_app.
        apply count_NoDup. pose proof (inv_ids _ _ G2 sd) as ND. revert ND. generalize (S sd). intros xs ND.
        induction xs as [|y r IH]; cbn; [constructor|]. inversion ND; subst. specialize (IH H3).
        assert (NI : ~ In (i_id y) (map i_id (filter ok (filter no_labels r) ++ filter ok (filter (has_kv (l_key l) (l_val l)) r)))).
        { rewrite map_app, in_app_iff, !in_map_iff. intros [(z & E & I)|(z & E & I)]; apply filter_In in I; destruct I as [I _];
            apply filter_In in I; apply H2; rewrite <- E; apply in_map, I. }
        destruct (no_labels y) eqn:NL.
        - assert (HK : has_kv (l_key l) (l_val l) y = false).
          { unfold no_labels, has_kv in *. destruct (i_labels y); [reflexivity|discriminate]. }
          rewrite HK. cbn. destruct (ok y); cbn; [constructor; assumption|assumption].
        - destruct (has_kv (l_key l) (l_val l) y); [|assumption]. cbn. destruct (ok y); [|assumption].
          rewrite map_app in *. cbn. eapply Permutation_NoDup; [apply Permutation_middle|]. constructor; assumption. }
      lia.
  - cbn. assert (X : NoDup (map i_id (filter (fun x => skip || match_labels (i_labels me) (i_labels x)) (pick sd (e_all e'))))).
    { apply NoDup_map_filter. rewrite (inv_all _ _ G). apply (inv_ids _ _ G). }
    apply (count_NoDup _ id) in X. lia.
Qed.

(** * Histories *)
Definition Sof (t : ctype) (k : N) (l : list dev) : side -> list item :=
  fun s => match s with Nodes => services t k l | Infos => handlers t k l end.
Definition SInv (l : list dev) (st : store) : Prop := forall t k, Inv (Sof t k l) (st t k).

Lemma ctype_eqb_ok : forall a b, ctype_eqb a b = true <-> a = b.
Proof. intros [] []; cbn; split; congruence. Qed.
Lemma ev_is_ok : forall t k t' k', ev_is t k t' k' = true <-> t = t' /\ k = k'.
Proof. intros. unfold ev_is. rewrite andb_true_iff, ctype_eqb_ok, N.eqb_eq. tauto. Qed.
Lemma services_snoc : forall t k l e, services t k (l ++ [e]) =
  match e with
  | DCreated t' k' s => if ev_is t k t' k' then services t k l ++ [svc_item t' s] else services t k l
  | DRemoved t' k' s => if ev_is t k t' k' then filter (fun x => negb (i_id x =? i_id s)) (services t k l) else services t k l
  | DRegister _ _ _ => services t k l
  end.
Proof. intros. unfold services. rewrite rev_app_distr. destruct e; reflexivity. Qed.
Lemma handlers_snoc : forall t k l e, handlers t k (l ++ [e]) =
  match e with
  | DRegister t' k' h => if ev_is t k t' k' then handlers t k l ++ [h] else handlers t k l
  | _ => handlers t k l
  end.
Proof. intros. unfold handlers. rewrite rev_app_distr. destruct e; reflexivity. Qed.

Lemma Inv_ext : forall S S' e, (forall s, S s = S' s) -> Inv S e -> Inv S' e.
Proof.
  intros S S' e E H. destruct H. split; intros; rewrite <- ?E; eauto.
Qed.
Lemma svc_id : forall t s, i_id (svc_item t s) = i_id s.
Proof. intros [] s; reflexivity. Qed.

Lemma dstep_Inv : forall l e st, SInv l st -> wf_event l e -> SInv (l ++ [e]) (snd (dstep e st)).
Proof.
  intros l e st H W t k. destruct e as [t' k' s|t' k' s|t' k' h]; cbn [dstep wf_event] in *.
  - pose proof (candidates_Inv (Sof t' k' l) Infos (ctype_eqb t' CRpcServerInternal) (svc_item t' s) _ (H t' k')) as C.
    destruct (candidates _ _ _ _) as [hs en]. cbn [snd] in *. unfold st_set.
    fold (ev_is t k t' k'). destruct (ev_is t k t' k') eqn:E.
    + apply ev_is_ok in E. destruct E; subst t' k'.
      eapply Inv_ext; [|apply update_Inv; [exact C|rewrite svc_id; exact W]].
      intros []; unfold sapp, Sof; cbn; rewrite ?services_snoc, ?handlers_snoc; [|reflexivity].
      replace (ev_is t k t k) with true by (symmetry; apply ev_is_ok; auto). reflexivity.
    + eapply Inv_ext; [|apply (H t k)]. intros []; unfold Sof; rewrite ?services_snoc, ?handlers_snoc, ?E; reflexivity.
  - pose proof (candidates_Inv (Sof t' k' l) Infos (ctype_eqb t' CRpcServerInternal) (svc_item t' s) _ (H t' k')) as C.
    destruct (candidates _ _ _ _) as [hs en]. cbn [snd] in *. unfold st_set.
    fold (ev_is t k t' k'). destruct (ev_is t k t' k') eqn:E.
    + apply ev_is_ok in E. destruct E; subst t' k'.
      eapply Inv_ext; [|apply remove_Inv; exact C].
      intros []; unfold sdrop, Sof; cbn; rewrite ?services_snoc, ?handlers_snoc, ?svc_id; [|reflexivity].
      replace (ev_is t k t k) with true by (symmetry; apply ev_is_ok; auto). reflexivity.
    + eapply Inv_ext; [|apply (H t k)]. intros []; unfold Sof; rewrite ?services_snoc, ?handlers_snoc, ?E; reflexivity.
  - pose proof (candidates_Inv (Sof t' k' l) Nodes false h _ (H t' k')) as C.
    destruct (candidates _ _ _ _) as [hs en]. cbn [snd] in *. unfold st_set.
    fold (ev_is t k t' k'). destruct (ev_is t k t' k') eqn:E.
    + apply ev_is_ok in E. destruct E; subst t' k'.
      eapply Inv_ext; [|apply update_Inv; [exact C|exact W]].
      intros []; unfold sapp, Sof; cbn; rewrite ?services_snoc, ?handlers_snoc; [reflexivity|].
      replace (ev_is t k t k) with true by (symmetry; apply ev_is_ok; auto). reflexivity.
    + eapply Inv_ext; [|apply (H t k)]. intros []; unfold Sof; rewrite ?services_snoc, ?handlers_snoc, ?E; reflexivity.
Qed.

Lemma drun_app : forall l e st, drun (l ++ [e]) st = snd (dstep e (drun l st)).
Proof. induction l as [|x r IH]; intros e st; cbn; [reflexivity|apply IH]. Qed.
Lemma wf_history_prefix : forall l e, wf_history (l ++ [e]) -> wf_history l /\ wf_event l e.
Proof.
  intros l e H. split.
  - intros l1 x l2 E. apply (H l1 x (l2 ++ [e])). rewrite E, <- app_assoc. reflexivity.
  - apply (H l e []). reflexivity.
Qed.
Lemma drun_Inv : forall l, wf_history l -> SInv l (drun l st_empty).
Proof.
  intros l; induction l as [|e l IH] using rev_ind; intros W.
  - intros t k. eapply Inv_ext; [|apply Inv_empty]. intros []; reflexivity.
  - destruct (wf_history_prefix _ _ W) as [W1 W2]. rewrite drun_app. apply dstep_Inv; auto.
Qed.

(** * What one handler is told about one service *)
Lemma pair_notes_hs : forall hid sid b s hs, NoDup (map i_id hs) ->
  pair_notes hid sid (map (fun h => (i_id h, b, i_id s)) hs) =
  if (i_id s =? sid) && existsb (fun h => i_id h =? hid) hs then [b] else [].
Proof.
  intros hid sid b s hs; induction hs as [|h r IH]; cbn; intros N.
  - rewrite andb_false_r. reflexivity.
  - inversion N; subst. fold (pair_notes hid sid (map (fun h => (i_id h, b, i_id s)) r)). rewrite (IH H2).
    destruct (N.eqb_spec (i_id s) sid) as [E|E]; cbn; rewrite ?andb_true_r, ?andb_false_r; [|reflexivity].
    destruct (N.eqb_spec (i_id h) hid) as [E2|E2]; cbn; [|reflexivity].
    replace (existsb (fun h0 => i_id h0 =? hid) r) with false; [reflexivity|]. symmetry.
    apply not_true_is_false. intros X. apply existsb_exists in X. destruct X as (y & I & Q). apply N.eqb_eq in Q.
    apply H1. rewrite E2, <- Q. apply in_map, I.
Qed.
Lemma pair_notes_ss : forall hid sid b h ss, NoDup (map i_id ss) ->
  pair_notes hid sid (map (fun s => (i_id h, b, i_id s)) ss) =
  if (i_id h =? hid) && existsb (fun s => i_id s =? sid) ss then [b] else [].
Proof.
  intros hid sid b h ss; induction ss as [|s r IH]; cbn; intros N.
  - rewrite andb_false_r. reflexivity.
  - inversion N; subst. fold (pair_notes hid sid (map (fun s => (i_id h, b, i_id s)) r)). rewrite (IH H2).
    destruct (N.eqb_spec (i_id h) hid) as [E|E]; cbn; [|reflexivity].
    destruct (N.eqb_spec (i_id s) sid) as [E2|E2]; cbn; [|reflexivity].
    replace (existsb (fun h0 => i_id h0 =? sid) r) with false; [reflexivity|]. symmetry.
    apply not_true_is_false. intros X. apply existsb_exists in X. destruct X as (y & I & Q). apply N.eqb_eq in Q.
    apply H1. rewrite E2, <- Q. apply in_map, I.
Qed.

Lemma pair_notes_other_s : forall hid sid b s hs, i_id s <> sid ->
  pair_notes hid sid (map (fun h => (i_id h, b, i_id s)) hs) = [].
Proof.
  intros hid sid b s hs E. apply N.eqb_neq in E. induction hs as [|h r IH]; cbn; [reflexivity|].
  rewrite E, andb_false_r. exact IH.
Qed.
Lemma pair_notes_other_h : forall hid sid b h ss, i_id h <> hid ->
  pair_notes hid sid (map (fun s => (i_id h, b, i_id s)) ss) = [].
Proof.
  intros hid sid b h ss E. apply N.eqb_neq in E. induction ss as [|s r IH]; cbn; [reflexivity|].
  rewrite E. exact IH.
Qed.

Definition known (id : N) (l : list item) : bool := existsb (fun x => i_id x =? id) l.
Lemma known_in : forall id l, known id l = true <-> In id (map i_id l).
Proof.
  intros. unfold known. rewrite existsb_exists, in_map_iff. split; intros (x & A & B); exists x.
  - apply N.eqb_eq in B; auto.
  - rewrite N.eqb_eq; auto.
Qed.
Lemma mand_not_risky : forall a b, all_mandatory a -> ~ risky a b.
Proof. intros a b M (_ & l & I & F & _). rewrite (M l I) in F. discriminate. Qed.

(** The handlers asked about a service find [h] exactly if it is registered. *)
Lemma known_candidates : forall S sd skip me e x, Inv S e -> all_mandatory me ->
  match_labels (i_labels me) (i_labels x) = true -> (forall y, In y (S sd) -> i_id y = i_id x -> y = x) ->
  existsb (fun y => i_id y =? i_id x) (fst (candidates sd skip me e)) = known (i_id x) (S sd).
Proof.
  intros S sd skip me e x H AM M U. apply eq_true_iff_eq. fold (known (i_id x) (fst (candidates sd skip me e))).
  rewrite !known_in, !in_map_iff. split; intros (y & E & I); exists y; split; auto.
  - eapply candidates_sound; eassumption.
  - assert (y = x) by auto. subst y. eapply candidates_complete; eauto. apply mand_not_risky, AM.
Qed.

Lemma wf_history_app : forall l0 e r, wf_history (l0 ++ e :: r) -> wf_event l0 e.
Proof. intros l0 e r W. apply (W l0 e r). reflexivity. Qed.

Lemma services_from : forall t k l x, In x (services t k l) -> exists s, In (DCreated t k s) l /\ x = svc_item t s.
Proof.
  intros t k l; induction l as [|e l IH] using rev_ind; intros x; [intros []|]. rewrite services_snoc.
  assert (P : In x (services t k l) -> exists s, In (DCreated t k s) (l ++ [e]) /\ x = svc_item t s).
  { intros I. destruct (IH x I) as (s & A & B). exists s. split; [apply in_or_app; auto|assumption]. }
  destruct e as [t' k' s|t' k' s|t' k' h].
  - destruct (ev_is t k t' k') eqn:E; [|assumption]. apply ev_is_ok in E. destruct E; subst.
    rewrite in_app_iff. intros [I|[<-|[]]]; [auto|]. exists s. split; [apply in_or_app; right; left; reflexivity|reflexivity].
  - destruct (ev_is t k t' k'); [|assumption]. rewrite filter_In. tauto.
  - assumption.
Qed.
Lemma handlers_from : forall t k l x, In x (handlers t k l) -> In (DRegister t k x) l.
Proof.
  intros t k l; induction l as [|e l IH] using rev_ind; intros x; [intros []|]. rewrite handlers_snoc.
  destruct e as [t' k' s|t' k' s|t' k' h]; try (intros I; apply in_or_app; auto; fail).
  destruct (ev_is t k t' k') eqn:E; [|intros I; apply in_or_app; auto]. apply ev_is_ok in E. destruct E; subst.
  rewrite !in_app_iff. intros [I|[<-|[]]]; [auto|]. right; left; reflexivity.
Qed.
Lemma known_snoc : forall id l x, known id (l ++ [x]) = known id l || (i_id x =? id).
Proof. intros. unfold known. rewrite existsb_app. cbn. rewrite orb_false_r. reflexivity. Qed.
Lemma known_filter : forall id i l, known id (filter (fun x => negb (i_id x =? i)) l) = known id l && negb (id =? i).
Proof.
  intros id i l. unfold known. induction l as [|x r IH]; cbn; [reflexivity|].
  destruct (N.eqb_spec (i_id x) i) as [E|E]; cbn; rewrite IH.
  - destruct (N.eqb_spec (i_id x) id) as [E2|E2]; cbn; [|reflexivity].
    replace (id =? i) with true by (symmetry; apply N.eqb_eq; congruence). cbn. apply andb_false_r.
  - destruct (N.eqb_spec (i_id x) id) as [E2|E2]; cbn; [|reflexivity].
    replace (id =? i) with false by (symmetry; apply N.eqb_neq; congruence). reflexivity.
Qed.

Lemma pair_log_matching : forall t k h s l l0,
  wf_history (l0 ++ l) -> only_about t k h s (l0 ++ l) -> all_mandatory h -> all_mandatory s ->
  labels_match_first (i_labels h) (i_labels s) ->
  pair_log t k (i_id h) (i_id s) l (drun l0 st_empty) =
  expected_log t k (i_id h) (i_id s) (known (i_id h) (handlers t k l0)) (known (i_id s) (services t k l0)) l.
Proof.
  intros t k h s l; induction l as [|e r IH]; intros l0 W O Mh Ms M; [reflexivity|].
  assert (W1 := wf_history_app _ _ _ W).
  assert (W0 : wf_history l0).
  { intros l1 x l2 E. apply (W l1 x (l2 ++ e :: r)). rewrite E, <- app_assoc. reflexivity. }
  pose proof (drun_Inv l0 W0) as I0.
  assert (IH' := IH (l0 ++ [e])). rewrite <- app_assoc in IH'. cbn [app] in IH'.
  specialize (IH' W O Mh Ms M). rewrite drun_app in IH'.
  apply match_labels_first in M.
  cbn [pair_log]. rewrite IH'. clear IH IH'.
  set (st := drun l0 st_empty) in *.
  assert (Uh : forall y, In y (handlers t k l0) -> i_id y = i_id h -> y = h).
  { intros y Iy Ey. destruct O as [_ O]. apply O; [apply in_or_app; left; apply handlers_from, Iy|assumption]. }
  assert (Us : forall y, In y (services t k l0) -> i_id y = i_id s -> y = s).
  { intros y Iy Ey. destruct O as [O _]. apply services_from in Iy. destruct Iy as (x & Ix & ->).
    apply O; [left; apply in_or_app; auto|]. rewrite svc_id in Ey. assumption. }
  destruct e as [t' k' x|t' k' x|t' k' x]; cbn [ev_of fst snd expected_log]; rewrite ?services_snoc, ?handlers_snoc.
  - destruct (ev_is t k t' k') eqn:E; cbn [andb]; [|reflexivity].
    apply ev_is_ok in E. destruct E; subst t' k'. cbn [dstep].
    destruct (N.eqb_spec (i_id x) (i_id s)) as [Ex|Ex].
    + assert (X : svc_item t x = s).
      { destruct O as [O _]. apply O; [|assumption]. left. apply in_or_app. right; left; reflexivity. }
      rewrite X. pose proof (known_candidates (Sof t k l0) Infos (ctype_eqb t CRpcServerInternal) s (st t k) h (I0 t k) Ms
        (eq_trans (match_labels_sym _ _) M) Uh) as KC.
      pose proof (candidates_once (Sof t k l0) Infos (ctype_eqb t CRpcServerInternal) s (st t k) (I0 t k) Ms) as ND.
      destruct (candidates _ _ _ _) as [hs en]. cbn [fst snd] in *.
      rewrite (pair_notes_hs _ _ _ _ _ ND), N.eqb_refl, KC. cbn [andb Sof]. rewrite known_snoc, N.eqb_refl, orb_true_r.
      destruct (known (i_id h) (handlers t k l0)); reflexivity.
    + destruct (candidates _ _ _ _) as [hs en]. cbn [fst snd] in *.
      rewrite known_snoc, svc_id. replace (i_id x =? i_id s) with false by (symmetry; apply N.eqb_neq; assumption).
      rewrite orb_false_r.
      replace (pair_notes _ _ _) with (@nil bool); [reflexivity|]. symmetry; apply pair_notes_other_s; rewrite ?svc_id; try assumption.
  - destruct (ev_is t k t' k') eqn:E; cbn [andb]; [|reflexivity].
    apply ev_is_ok in E. destruct E; subst t' k'. cbn [dstep].
    destruct (N.eqb_spec (i_id x) (i_id s)) as [Ex|Ex].
    + assert (X : svc_item t x = s).
      { destruct O as [O _]. apply O; [|assumption]. right. apply in_or_app. right; left; reflexivity. }
      rewrite X. pose proof (known_candidates (Sof t k l0) Infos (ctype_eqb t CRpcServerInternal) s (st t k) h (I0 t k) Ms
        (eq_trans (match_labels_sym _ _) M) Uh) as KC.
      pose proof (candidates_once (Sof t k l0) Infos (ctype_eqb t CRpcServerInternal) s (st t k) (I0 t k) Ms) as ND.
      destruct (candidates _ _ _ _) as [hs en]. cbn [fst snd] in *.
      rewrite (pair_notes_hs _ _ _ _ _ ND), N.eqb_refl, KC. cbn [andb Sof]. rewrite known_filter, Ex, N.eqb_refl, andb_false_r.
      destruct (known (i_id h) (handlers t k l0)); reflexivity.
    + destruct (candidates _ _ _ _) as [hs en]. cbn [fst snd] in *.
      rewrite known_filter. replace (i_id s =? i_id x) with false by (symmetry; apply N.eqb_neq; congruence).
      rewrite andb_true_r.
      replace (pair_notes _ _ _) with (@nil bool); [reflexivity|]. symmetry; apply pair_notes_other_s; rewrite ?svc_id; try assumption.
  - destruct (ev_is t k t' k') eqn:E; cbn [andb]; [|reflexivity].
    apply ev_is_ok in E. destruct E; subst t' k'. cbn [dstep].
    destruct (N.eqb_spec (i_id x) (i_id h)) as [Ex|Ex].
    + assert (X : x = h).
      { destruct O as [_ O]. apply O; [|assumption]. apply in_or_app. right; left; reflexivity. }
      rewrite X. pose proof (known_candidates (Sof t k l0) Nodes false h (st t k) s (I0 t k) Mh M Us) as KC.
      pose proof (candidates_once (Sof t k l0) Nodes false h (st t k) (I0 t k) Mh) as ND.
      destruct (candidates _ _ _ _) as [ss en]. cbn [fst snd] in *.
      rewrite (pair_notes_ss _ _ _ _ _ ND), N.eqb_refl, KC. cbn [andb Sof]. rewrite known_snoc, N.eqb_refl, orb_true_r.
      destruct (known (i_id s) (services t k l0)); reflexivity.
    + destruct (candidates _ _ _ _) as [ss en]. cbn [fst snd] in *.
      rewrite known_snoc. replace (i_id x =? i_id h) with false by (symmetry; apply N.eqb_neq; assumption).
      rewrite orb_false_r.
      replace (pair_notes _ _ _) with (@nil bool); [reflexivity|]. symmetry; apply pair_notes_other_h; assumption.
Qed.

(** * The statements over histories *)
Lemma match_first_sym : forall a b, labels_match_first a b -> labels_match_first b a.
Proof. intros a b [A B]. split; assumption. Qed.

Lemma sound_history : forall l e n, wf_history l -> In n (fst (dstep e (drun l st_empty))) ->
  match e with
  | DCreated t k s => exists h, In h (handlers t k l) /\ n = (i_id h, true, i_id s) /\
                       (t = CRpcServerInternal \/ labels_match_first (i_labels h) (i_labels s))
  | DRemoved t k s => exists h, In h (handlers t k l) /\ n = (i_id h, false, i_id s) /\
                       (t = CRpcServerInternal \/ labels_match_first (i_labels h) (i_labels s))
  | DRegister t k h => exists s, In s (services t k l) /\ n = (i_id h, true, i_id s) /\
                       labels_match_first (i_labels h) (i_labels s)
  end.
Proof.
  intros l e n W. pose proof (drun_Inv l W) as I. destruct e as [t k s|t k s|t k h]; cbn [dstep].
  - pose proof (fun x => candidates_sound (Sof t k l) Infos (ctype_eqb t CRpcServerInternal) (svc_item t s) _ x (I t k)) as C.
    destruct (candidates _ _ _ _) as [hs en]. cbn [fst] in *. rewrite in_map_iff. intros (h & <- & Ih).
    destruct (C h Ih) as [A B]. exists h. split; [exact A|]. rewrite svc_id. split; [reflexivity|].
    rewrite ctype_eqb_ok in B. destruct B as [B|B]; [left; assumption|].
    destruct t; [right|right|left; reflexivity]; apply match_first_sym, match_labels_first, B.
  - pose proof (fun x => candidates_sound (Sof t k l) Infos (ctype_eqb t CRpcServerInternal) (svc_item t s) _ x (I t k)) as C.
    destruct (candidates _ _ _ _) as [hs en]. cbn [fst] in *. rewrite in_map_iff. intros (h & <- & Ih).
    destruct (C h Ih) as [A B]. exists h. split; [exact A|]. rewrite svc_id. split; [reflexivity|].
    rewrite ctype_eqb_ok in B. destruct B as [B|B]; [left; assumption|].
    destruct t; [right|right|left; reflexivity]; apply match_first_sym, match_labels_first, B.
  - pose proof (fun x => candidates_sound (Sof t k l) Nodes false h _ x (I t k)) as C.
    destruct (candidates _ _ _ _) as [ss en]. cbn [fst] in *. rewrite in_map_iff. intros (s & <- & Is).
    destruct (C s Is) as [A B]. exists s. split; [exact A|]. split; [reflexivity|].
    destruct B as [B|B]; [discriminate|]. apply match_labels_first, B.
Qed.

Lemma complete_created : forall l t k s h, wf_history l -> In h (handlers t k l) ->
  (t = CRpcServerInternal \/ (labels_match_first (i_labels h) (i_labels s) /\ ~ risky s h)) ->
  In (i_id h, true, i_id s) (fst (dstep (DCreated t k s) (drun l st_empty))) /\
  In (i_id h, false, i_id s) (fst (dstep (DRemoved t k s) (drun l st_empty))).
Proof.
  intros l t k s h W Ih D. pose proof (drun_Inv l W t k) as I. cbn [dstep].
  assert (C : In h (fst (candidates Infos (ctype_eqb t CRpcServerInternal) (svc_item t s) (drun l st_empty t k)))).
  { destruct D as [->|[M R]].
    - rewrite (candidates_skip (Sof CRpcServerInternal k l)); [exact Ih|exact I|reflexivity].
    - apply match_first_sym, match_labels_first in M.
      destruct t; try (eapply candidates_complete; [exact I|exact Ih|exact M|exact R]).
      rewrite (candidates_skip (Sof CRpcServerInternal k l)); [exact Ih|exact I|reflexivity]. }
  destruct (candidates _ _ _ _) as [hs en]. cbn [fst] in *. rewrite <- (svc_id t s).
  split; apply in_map_iff; exists h; auto.
Qed.
Lemma complete_registered : forall l t k s h, wf_history l -> In s (services t k l) ->
  labels_match_first (i_labels h) (i_labels s) -> ~ risky h s ->
  In (i_id h, true, i_id s) (fst (dstep (DRegister t k h) (drun l st_empty))).
Proof.
  intros l t k s h W Is M R. pose proof (drun_Inv l W t k) as I. cbn [dstep].
  apply match_labels_first in M.
  pose proof (candidates_complete (Sof t k l) Nodes false h _ s I Is M R) as C.
  destruct (candidates _ _ _ _) as [ss en]. cbn [fst] in *. apply in_map_iff. exists s; auto.
Qed.

Definition note_eq_dec : forall a b : note, {a = b} + {a <> b}.
Proof. repeat decide equality. Defined.
Lemma count_map_inj : forall {A} (f : A -> note) (g : A -> N) l n,
  (forall x, In x l -> f x = n -> exists y, In y l /\ g y = g x) ->
  forall id, (forall x, f x = n -> g x = id) ->
  (count_occ note_eq_dec (map f l) n <= count_occ N.eq_dec (map g l) id)%nat.
Proof.
  intros A f g l n _ id H. induction l as [|x r IH]; cbn; [lia|].
  destruct (note_eq_dec (f x) n) as [E|E].
  - rewrite (H x E). destruct (N.eq_dec id id); [lia|congruence].
  - destruct (N.eq_dec (g x) id); lia.
Qed.
Lemma at_most_twice : forall l e n, wf_history l ->
  (count_occ note_eq_dec (fst (dstep e (drun l st_empty))) n <= 2)%nat.
Proof.
  intros l e n W. pose proof (drun_Inv l W) as I. destruct n as [[a b] c]. destruct e as [t k s|t k s|t k h]; cbn [dstep].
  - pose proof (candidates_twice (Sof t k l) Infos (ctype_eqb t CRpcServerInternal) (svc_item t s) _ a (I t k)) as C.
    destruct (candidates _ _ _ _) as [hs en]. cbn [fst] in *. eapply Nat.le_trans; [|exact C].
    apply count_map_inj; [intros x Ix _; exists x; auto|]. intros x E. inversion E. reflexivity.
  - pose proof (candidates_twice (Sof t k l) Infos (ctype_eqb t CRpcServerInternal) (svc_item t s) _ a (I t k)) as C.
    destruct (candidates _ _ _ _) as [hs en]. cbn [fst] in *. eapply Nat.le_trans; [|exact C].
    apply count_map_inj; [intros x Ix _; exists x; auto|]. intros x E. inversion E. reflexivity.
  - pose proof (candidates_twice (Sof t k l) Nodes false h _ c (I t k)) as C.
    destruct (candidates _ _ _ _) as [ss en]. cbn [fst] in *. eapply Nat.le_trans; [|exact C].
    apply count_map_inj; [intros x Ix _; exists x; auto|]. intros x E. inversion E. reflexivity.
Qed.
