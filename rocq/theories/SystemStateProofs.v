From Coq Require Import List NArith Arith Bool Lia.
From Verif Require Import Base SystemStateModel SystemStateSpec.
Import ListNotations.
Local Open Scope N_scope.

Lemma lstate_eqb_ok : forall a b, lstate_eqb a b = true <-> a = b.
Proof. intros [] []; cbn; split; congruence. Qed.
Lemma lstate_eqb_refl : forall a, lstate_eqb a a = true.
Proof. intros []; reflexivity. Qed.
Lemma lstate_eqb_neq : forall a b, lstate_eqb a b = false <-> a <> b.
Proof. intros a b. rewrite <- lstate_eqb_ok. destruct (lstate_eqb a b); split; congruence. Qed.

Lemma tr_get_set : forall p q s r y c, tr_get q (mkTr r y (cache_set p s c)) = if p =? q then Some s else tr_get q (mkTr r y c).
Proof.
  intros p q s r y c. unfold tr_get. cbn. induction c as [|[x z] t IH]; cbn.
  - destruct (p =? q); reflexivity.
  - destruct (N.eqb_spec x p) as [->|E]; cbn.
    + destruct (p =? q); reflexivity.
    + destruct (N.eqb_spec x q) as [->|E2].
      * replace (p =? q) with false by (symmetry; apply N.eqb_neq; congruence). reflexivity.
      * exact IH.
Qed.
Lemma tr_get_filter : forall p q r y c, tr_get q (mkTr r y (filter (fun x => negb (fst x =? p)) c)) =
  if p =? q then None else tr_get q (mkTr r y c).
Proof.
  intros p q r y c. unfold tr_get. cbn. induction c as [|[x z] t IH]; cbn.
  - destruct (p =? q); reflexivity.
  - destruct (N.eqb_spec x p) as [->|E]; cbn.
    + rewrite IH. destruct (p =? q); reflexivity.
    + destruct (N.eqb_spec x q) as [->|E2].
      * replace (p =? q) with false by (symmetry; apply N.eqb_neq; congruence). reflexivity.
      * exact IH.
Qed.
Lemma tr_get_any : forall p r y r' y' c, tr_get p (mkTr r y c) = tr_get p (mkTr r' y' c).
Proof. reflexivity. Qed.
Lemma tr_eta : forall t, mkTr (tr_required t) (tr_sys t) (tr_cache t) = t.
Proof. intros []; reflexivity. Qed.
Lemma tr_get_sys : forall p s t, tr_get p (set_sys s t) = tr_get p t.
Proof. reflexivity. Qed.

(** * What the cache holds *)
Lemma update_status_get : forall p st stamp t q, tr_get q (snd (update_status p st stamp t)) =
  view_step q (tr_get q t) (MMsg p st stamp).
Proof.
  intros p st stamp t q. unfold update_status, get_or_create. cbn [view_step].
  assert (G : forall s, tr_get q (mkTr (tr_required t) (tr_sys t) (cache_set p s (tr_cache t))) = if p =? q then Some s else tr_get q t).
  { intros. rewrite tr_get_set, tr_eta. reflexivity. }
  destruct (tr_get p t) as [[o x]|] eqn:E.
  - assert (X : p = q -> tr_get q t = Some (o, x)) by (intros <-; assumption).
    destruct st as [s|]; [|cbn; destruct (N.eqb_spec p q) as [Q|Q]; [rewrite (X Q); destruct o; reflexivity|reflexivity]].
    assert (H : s = Invalid \/ (s <> Invalid /\ forall A (a b : A), match s with Invalid => a | _ => b end = b)).
    { destruct s; [left; reflexivity|..]; right; (split; [discriminate|reflexivity]). }
    destruct H as [->|[NI H]].
    + cbn. destruct (N.eqb_spec p q) as [Q|Q]; [rewrite (X Q); destruct o; reflexivity|reflexivity].
    + rewrite !H. cbn [fst].
      destruct (lstate_eqb o Shutdown) eqn:OS.
      * apply lstate_eqb_ok in OS. subst o. cbn [snd]. destruct (N.eqb_spec p q) as [Q|Q]; [rewrite (X Q); reflexivity|reflexivity].
      * assert (R : tr_get q (mkTr (tr_required t) (tr_sys t) (cache_set p (s, stamp) (tr_cache t))) =
                (if p =? q then match tr_get q t with Some (Shutdown, x0) => Some (Shutdown, x0) | _ => Some (s, stamp) end else tr_get q t)).
        { rewrite G. destruct (N.eqb_spec p q) as [Q|Q]; [|reflexivity]. rewrite (X Q). destruct o; try reflexivity; discriminate. }
        destruct (lstate_eqb o s); [exact R|]. destruct (is_required _ _); cbn [snd]; [rewrite tr_get_sys|]; exact R.
  - assert (X : p = q -> tr_get q t = None) by (intros <-; assumption).
    set (t1 := mkTr (tr_required t) (tr_sys t) (cache_set p (Invalid, 0) (tr_cache t))).
    assert (T1 : tr_get q t1 = if p =? q then Some (Invalid, 0) else tr_get q t) by apply G.
    destruct st as [s|]; [|cbn [snd]; rewrite T1; destruct (N.eqb_spec p q) as [Q|Q]; [rewrite (X Q); reflexivity|reflexivity]].
    assert (H : s = Invalid \/ (s <> Invalid /\ forall A (a b : A), match s with Invalid => a | _ => b end = b)).
    { destruct s; [left; reflexivity|..]; right; (split; [discriminate|reflexivity]). }
    destruct H as [->|[NI H]].
    + cbn [snd]. rewrite T1. destruct (N.eqb_spec p q) as [Q|Q]; [rewrite (X Q); reflexivity|reflexivity].
    + rewrite !H. cbn [fst lstate_eqb].
      assert (R : tr_get q (mkTr (tr_required t1) (tr_sys t1) (cache_set p (s, stamp) (tr_cache t1))) =
               if p =? q then match tr_get q t with Some (Shutdown, x0) => Some (Shutdown, x0) | _ => Some (s, stamp) end else tr_get q t).
      { rewrite tr_get_set, tr_eta, T1. destruct (N.eqb_spec p q) as [Q|Q]; [rewrite (X Q); reflexivity|reflexivity]. }
      destruct s; try congruence; cbn [lstate_eqb]; (destruct (is_required _ _); cbn [snd]; [rewrite tr_get_sys|]; exact R).
Qed.
Lemma update_status_required : forall p st stamp t, tr_required (snd (update_status p st stamp t)) = tr_required t.
Proof.
  intros. unfold update_status, get_or_create. destruct (tr_get p t) as [[o x]|]; destruct st as [s|]; try reflexivity;
    destruct s; try reflexivity; cbn [fst]; repeat (match goal with |- context [if ?b then _ else _] => destruct b end; try reflexivity).
Qed.
Lemma mon_msg_tr : forall p st stamp m, m_tr (snd (mon_msg p st stamp m)) = snd (update_status p st stamp (m_tr m)).
Proof.
  intros. unfold mon_msg. destruct (update_status p st stamp (m_tr m)) as [[[pc sc]|] t]; destruct st; reflexivity.
Qed.
Lemma mon_msg_rest : forall p st stamp m, m_conn (snd (mon_msg p st stamp m)) = m_conn m /\
  m_sysh (snd (mon_msg p st stamp m)) = m_sysh m /\ m_stah (snd (mon_msg p st stamp m)) = m_stah m.
Proof.
  intros. unfold mon_msg. destruct (update_status p st stamp (m_tr m)) as [[[pc sc]|] t]; destruct st; auto.
Qed.
Lemma remove_get : forall p c t q, tr_get q (snd (remove_participant p c t)) = if p =? q then None else tr_get q t.
Proof.
  intros. unfold remove_participant. destruct (tr_get p t) eqn:E; cbn [snd].
  - rewrite tr_get_sys, tr_get_filter, tr_eta. reflexivity.
  - destruct (N.eqb_spec p q) as [<-|Q]; [assumption|reflexivity].
Qed.
Lemma remove_required : forall p c t, tr_required (snd (remove_participant p c t)) = tr_required t.
Proof. intros. unfold remove_participant. destruct (tr_get p t); reflexivity. Qed.

Definition disc_msg (p stamp : N) (m : monitor) : list mout * monitor :=
  match tr_get p (m_tr m) with
  | Some s => match fst s with
              | Shutdown | Invalid => ([], m)
              | _ => mon_msg p (Some Error) stamp m
              end
  | None => ([], m)
  end.
Lemma disc_msg_cases : forall p stamp m, disc_msg p stamp m = ([], m) \/
  (disc_msg p stamp m = mon_msg p (Some Error) stamp m /\
   exists o x, tr_get p (m_tr m) = Some (o, x) /\ o <> Shutdown /\ o <> Invalid).
Proof.
  intros. unfold disc_msg. destruct (tr_get p (m_tr m)) as [[o x]|]; [|left; reflexivity].
  destruct o; cbn; try (left; reflexivity); right; (split; [reflexivity|]); do 2 eexists; (split; [reflexivity|]); split; discriminate.
Qed.

Lemma mstep_get : forall e m p, tr_get p (m_tr (snd (mstep e m))) = view_step p (tr_get p (m_tr m)) e.
Proof.
  intros [ns c|q st stamp|q|q stamp c|h|h] m p; cbn [mstep view_step].
  - unfold update_required. cbn [snd]. reflexivity.
  - rewrite mon_msg_tr, update_status_get. reflexivity.
  - reflexivity.
  - fold (disc_msg q stamp m). destruct (disc_msg_cases q stamp m) as [E|[E _]]; rewrite E.
    + cbn [snd]. pose proof (remove_get q c (m_tr m) p) as R. destruct (remove_participant q c (m_tr m)) as [ch t].
      cbn [snd m_tr] in *. exact R.
    + pose proof (mon_msg_tr q (Some Error) stamp m) as T. destruct (mon_msg q (Some Error) stamp m) as [o1 m1]. cbn [snd] in T.
      pose proof (remove_get q c (m_tr m1) p) as R. destruct (remove_participant q c (m_tr m1)) as [ch t]. cbn [snd m_tr] in *.
      rewrite R. destruct (N.eqb_spec q p) as [Q|Q]; [reflexivity|]. rewrite T, update_status_get. cbn [view_step].
      apply N.eqb_neq in Q. rewrite Q. reflexivity.
  - reflexivity.
  - reflexivity.
Qed.
Lemma mstep_required : forall e m, tr_required (m_tr (snd (mstep e m))) =
  match e with MRequired ns _ => nodup N.eq_dec ns | _ => tr_required (m_tr m) end.
Proof.
  intros [ns c|q st stamp|q|q stamp c|h|h] m; cbn [mstep]; try reflexivity.
  - rewrite mon_msg_tr. apply update_status_required.
  - fold (disc_msg q stamp m). destruct (disc_msg_cases q stamp m) as [E|[E _]]; rewrite E.
    + pose proof (remove_required q c (m_tr m)) as R. destruct (remove_participant q c (m_tr m)). exact R.
    + pose proof (mon_msg_tr q (Some Error) stamp m) as T. destruct (mon_msg q (Some Error) stamp m) as [o1 m1]. cbn [snd] in T.
      pose proof (remove_required q c (m_tr m1)) as R. destruct (remove_participant q c (m_tr m1)). cbn [snd m_tr] in *.
      rewrite R, T. apply update_status_required.
Qed.

Lemma mrun_app : forall a b m, mrun (a ++ b) m =
  (fst (mrun a m) ++ fst (mrun b (snd (mrun a m))), snd (mrun b (snd (mrun a m)))).
Proof.
  induction a as [|e a IH]; intros b m; cbn [mrun app].
  - cbn [fst snd app]. destruct (mrun b m); reflexivity.
  - destruct (mstep e m) as [o m']. rewrite IH. destruct (mrun a m') as [o1 m1]. cbn [fst snd].
    destruct (mrun b m1). cbn. rewrite app_assoc. reflexivity.
Qed.
Lemma final_snoc : forall l e, final (l ++ [e]) = snd (mstep e (final l)).
Proof.
  intros. unfold final. rewrite mrun_app. cbn [snd mrun]. destruct (mstep e _) as [o m']. reflexivity.
Qed.
Lemma view_snoc : forall p l e, view p (l ++ [e]) = view_step p (view p l) e.
Proof. intros. unfold view. rewrite fold_left_app. reflexivity. Qed.
Lemma required_snoc : forall l e, required (l ++ [e]) = match e with MRequired ns _ => ns | _ => required l end.
Proof. intros. unfold required. rewrite fold_left_app. reflexivity. Qed.

Lemma final_get : forall l p, tr_get p (m_tr (final l)) = view p l.
Proof.
  intros l p. induction l as [|e l IH] using rev_ind; [reflexivity|].
  rewrite final_snoc, view_snoc, mstep_get, IH. reflexivity.
Qed.
Lemma final_required : forall l, tr_required (m_tr (final l)) = nodup N.eq_dec (required l).
Proof.
  intros l. induction l as [|e l IH] using rev_ind; [reflexivity|].
  rewrite final_snoc, required_snoc, mstep_required. destruct e; try exact IH. reflexivity.
Qed.
Lemma is_required_in : forall p t, is_required p t = true <-> In p (tr_required t).
Proof.
  intros. unfold is_required. rewrite existsb_exists. split.
  - intros (x & I & E). apply N.eqb_eq in E. congruence.
  - intros I. exists p. rewrite N.eqb_refl. auto.
Qed.

(** * Unanimity *)
Definition unanimous (s : lstate) (t : tracker) : Prop :=
  tr_required t <> [] /\ forall p, In p (tr_required t) -> exists x, tr_get p t = Some (s, x).
Lemma all_in_unan : forall s t l, unanimous s t -> one_of l s = true -> all_in t l = true.
Proof.
  intros s t l [_ U] O. unfold all_in. apply forallb_forall. intros p I. destruct (U p I) as [x ->]. exact O.
Qed.
Lemma compute_unan : forall s t, unanimous s t -> s <> Invalid -> compute_system_state s t = s.
Proof.
  intros s t U NI. unfold compute_system_state.
  destruct s; try congruence; cbn [first_all_in]; try reflexivity;
    erewrite all_in_unan by (first [exact U|reflexivity]); reflexivity.
Qed.
Lemma any_unan : forall s t c, unanimous s t -> any_required c t = s.
Proof.
  intros s t c [N U]. unfold any_required.
  destruct (nth_error (tr_required t) (c mod length (tr_required t))) as [p|] eqn:E.
  - apply nth_error_In in E. destruct (U p E) as [x ->]. reflexivity.
  - exfalso. apply nth_error_None in E. destruct (tr_required t); [congruence|].
    assert (c mod length (n :: l) < length (n :: l))%nat by (apply Nat.mod_upper_bound; discriminate). lia.
Qed.
Definition UInv (t : tracker) : Prop := forall s, unanimous s t -> s <> Invalid -> tr_sys t = s.

Lemma update_status_unan : forall p st stamp t, UInv t -> UInv (snd (update_status p st stamp t)).
Proof.
  intros p st stamp t H s U NI.
  assert (UR := update_status_required p st stamp t).
  pose proof (update_status_get p st stamp t) as UG.
  (* if nothing required changed, the old state was unanimous already *)
  assert (OLD : (forall q, In q (tr_required t) -> match tr_get q (snd (update_status p st stamp t)) with Some (z, _) => z = Invalid \/ exists y, tr_get q t = Some (z, y) | None => True end) ->
                tr_sys t = s).
  { intros Q. apply H; [|assumption]. destruct U as [U1 U2]. rewrite UR in *. split; [assumption|]. intros q I.
    destruct (U2 q I) as [x X]. specialize (Q q I). rewrite X in Q. destruct Q as [Q|Q]; [congruence|exact Q]. }
  unfold update_status, get_or_create in *.
  destruct (tr_get p t) as [[o x]|] eqn:E.
  - destruct st as [n|]; [|apply H; assumption].
    assert (D : n = Invalid \/ (n <> Invalid /\ forall A (a b : A), match n with Invalid => a | _ => b end = b)).
    { destruct n; [left; reflexivity|..]; right; (split; [discriminate|reflexivity]). }
    destruct D as [->|[NN D]]; [apply H; assumption|].
    rewrite !D in *. cbn [fst] in *. destruct (lstate_eqb o Shutdown) eqn:OS; [apply H; assumption|].
    destruct (lstate_eqb o n) eqn:ON.
    + cbn [snd tr_sys]. apply OLD. intros q I. rewrite UG. cbn [view_step].
      apply lstate_eqb_ok in ON. subst n.
      destruct (N.eqb_spec p q) as [<-|Q].
      * rewrite E. destruct o; try congruence; try discriminate OS; right; eexists; reflexivity.
      * destruct (tr_get q t) as [[z y]|]; [right; eauto|exact Logic.I].
    + destruct (is_required p _) eqn:R; cbn [snd] in *.
      * apply is_required_in in R. cbn [tr_required] in R.
        destruct U as [U1 U2]. cbn [set_sys tr_sys] in *.
        assert (s = n).
        { destruct (U2 p R) as [y Y]. rewrite tr_get_sys, tr_get_set, N.eqb_refl in Y. congruence. }
        subst s. apply compute_unan; [|assumption]. split; [exact U1|exact U2].
      * apply OLD. intros q I. rewrite UG. cbn [view_step].
        destruct (N.eqb_spec p q) as [<-|Q].
        -- exfalso. assert (X : is_required p (mkTr (tr_required t) (tr_sys t) (cache_set p (n, stamp) (tr_cache t))) = true) by (apply is_required_in; exact I).
           congruence.
        -- destruct (tr_get q t) as [[z y]|]; [right; eauto|exact Logic.I].
  - destruct st as [n|].
    2:{ cbn [snd tr_sys]. apply OLD. intros q I. rewrite UG. cbn [view_step]. destruct (N.eqb_spec p q) as [<-|Q].
        - rewrite E. left; reflexivity.
        - destruct (tr_get q t) as [[z y]|]; [right; eauto|exact Logic.I]. }
    assert (D : n = Invalid \/ (n <> Invalid /\ forall A (a b : A), match n with Invalid => a | _ => b end = b)).
    { destruct n; [left; reflexivity|..]; right; (split; [discriminate|reflexivity]). }
    destruct D as [->|[NN D]].
    { cbn [snd tr_sys]. apply OLD. intros q I. rewrite UG. cbn [view_step]. destruct (N.eqb_spec p q) as [<-|Q].
        - rewrite E. left; reflexivity.
        - destruct (tr_get q t) as [[z y]|]; [right; eauto|exact Logic.I]. }
    rewrite !D in *. cbn [fst] in *. cbn [lstate_eqb] in *.
    replace (match n with Invalid => true | _ => false end) with false in * by (destruct n; congruence).
    destruct (is_required p _) eqn:R; cbn [snd] in *.
    + apply is_required_in in R. cbn [tr_required] in R.
      destruct U as [U1 U2]. cbn [set_sys tr_sys] in *.
      assert (s = n).
      { destruct (U2 p R) as [y Y]. rewrite tr_get_sys, tr_get_set, N.eqb_refl in Y. congruence. }
      subst s. apply compute_unan; [|assumption]. split; [exact U1|exact U2].
    + apply OLD. intros q I. rewrite UG. cbn [view_step].
      destruct (N.eqb_spec p q) as [<-|Q].
      * exfalso. match type of R with is_required p ?T = false => assert (X : is_required p T = true) by (apply is_required_in; exact I) end.
        congruence.
      * destruct (tr_get q t) as [[z y]|]; [right; eauto|exact Logic.I].
Qed.
Lemma recompute_unan : forall c t, UInv (set_sys (compute_system_state (any_required c t) t) t).
Proof.
  intros c t s U NI. cbn. assert (U' : unanimous s t) by exact U.
  rewrite (any_unan s t c U'). apply compute_unan; assumption.
Qed.
Lemma remove_unan : forall p c t, UInv t -> UInv (snd (remove_participant p c t)).
Proof.
  intros p c t H. unfold remove_participant. destruct (tr_get p t); [|exact H]. cbn [snd]. apply recompute_unan.
Qed.
Lemma mstep_unan : forall e m, UInv (m_tr m) -> UInv (m_tr (snd (mstep e m))).
Proof.
  intros [ns c|q st stamp|q|q stamp c|h|h] m H; cbn [mstep]; try exact H.
  - unfold update_required. cbn [snd m_tr]. apply recompute_unan.
  - rewrite mon_msg_tr. apply update_status_unan, H.
  - fold (disc_msg q stamp m). destruct (disc_msg_cases q stamp m) as [E|[E _]]; rewrite E.
    + pose proof (remove_unan q c (m_tr m) H) as R. destruct (remove_participant q c (m_tr m)). exact R.
    + pose proof (mon_msg_tr q (Some Error) stamp m) as T. destruct (mon_msg q (Some Error) stamp m) as [o1 m1]. cbn [snd] in T.
      assert (U1 : UInv (m_tr m1)) by (rewrite T; apply update_status_unan, H).
      pose proof (remove_unan q c (m_tr m1) U1) as R. destruct (remove_participant q c (m_tr m1)). exact R.
Qed.
Lemma final_unan : forall l, UInv (m_tr (final l)).
Proof.
  intros l. induction l as [|e l IH] using rev_ind.
  - intros s [U _] _. cbn in U. congruence.
  - rewrite final_snoc. apply mstep_unan, IH.
Qed.

Lemma unanimous_state : forall l s, required l <> [] -> s <> Invalid ->
  (forall p, In p (required l) -> reported p s l) -> system_state l = s.
Proof.
  intros l s R NI H. apply (final_unan l); [|assumption]. split.
  - rewrite final_required. intros E. apply R. destruct (required l) as [|x t] eqn:Q; [reflexivity|].
    exfalso. assert (I : In x (nodup N.eq_dec (x :: t))) by (apply nodup_In; left; reflexivity). rewrite E in I. contradiction.
  - rewrite final_required. intros p I. apply nodup_In in I. rewrite final_get. apply H, I.
Qed.

(** * Error and Aborting *)
Lemma dominant_entered : forall l p s stamp, s = Error \/ s = Aborting -> In p (required l) ->
  ~ reported p Shutdown l -> ~ reported p s l ->
  system_state (l ++ [MMsg p (Some s) stamp]) = s.
Proof.
  intros l p s stamp S R NS NE. unfold system_state. rewrite final_snoc. cbn [mstep]. rewrite mon_msg_tr.
  set (t := m_tr (final l)). assert (G := final_get l p). fold t in G.
  assert (RQ : In p (tr_required t)) by (unfold t; rewrite final_required; apply nodup_In, R).
  unfold update_status, get_or_create. destruct (tr_get p t) as [[o x]|] eqn:E.
  - assert (O1 : lstate_eqb o Shutdown = false).
    { apply lstate_eqb_neq. intros ->. apply NS. exists x. symmetry; exact G. }
    assert (O2 : lstate_eqb o s = false).
    { apply lstate_eqb_neq. intros ->. apply NE. exists x. symmetry; exact G. }
    assert (IR : is_required p (mkTr (tr_required t) (tr_sys t) (cache_set p (s, stamp) (tr_cache t))) = true) by (apply is_required_in; exact RQ).
    destruct S; subst s; cbn [fst]; rewrite O1, O2, IR; reflexivity.
  - assert (IR : forall c, is_required p (mkTr (tr_required t) (tr_sys t) c) = true) by (intros; apply is_required_in; exact RQ).
    destruct S; subst s; cbn [fst lstate_eqb tr_required tr_sys tr_cache]; rewrite IR; reflexivity.
Qed.

(** The only lists that contain Error are the one for ShuttingDown. *)
Lemma compute_with_error : forall n t p x, In p (tr_required t) -> tr_get p t = Some (Error, x) -> n <> ShuttingDown -> n <> Aborting ->
  tr_sys t = Error -> compute_system_state n t = Error.
Proof.
  intros n t p x R G N1 N2 S.
  assert (A : forall l, one_of l Error = false -> all_in t l = false).
  { intros l O. apply not_true_is_false. unfold all_in. rewrite forallb_forall. intros F. specialize (F p R). rewrite G in F. cbn in F. congruence. }
  assert (C : tr_cache t <> []) by (intros C; unfold tr_get in G; rewrite C in G; discriminate).
  unfold compute_system_state. destruct (tr_cache t) as [|x0 t0] eqn:TC; [congruence|]. rewrite S.
  destruct n; try congruence; cbn [first_all_in]; rewrite ?A by reflexivity; reflexivity.
Qed.
Definition calm (t : tracker) : Prop := forall q s x, In q (tr_required t) -> tr_get q t = Some (s, x) -> s <> ShuttingDown /\ s <> Aborting.
Lemma any_calm : forall c t, calm t -> any_required c t <> ShuttingDown /\ any_required c t <> Aborting.
Proof.
  intros c t H. unfold any_required. destruct (nth_error _ _) as [p|] eqn:E; [|split; discriminate].
  apply nth_error_In in E. destruct (tr_get p t) as [[s x]|] eqn:G; [apply (H p s x E G)|split; discriminate].
Qed.
Lemma error_step_msg : forall p q st stamp t x y,
  In p (tr_required t) -> tr_get p t = Some (Error, x) -> tr_sys t = Error ->
  tr_get p (snd (update_status q st stamp t)) = Some (Error, y) -> calm (snd (update_status q st stamp t)) ->
  tr_sys (snd (update_status q st stamp t)) = Error.
Proof.
  intros p q st stamp t x y R G S G2 C.
  unfold update_status in *. unfold get_or_create in *.
  set (gc := match tr_get q t with Some s => (s, t) | None => _ end) in *.
  assert (GC : tr_sys (snd gc) = Error /\ tr_required (snd gc) = tr_required t) by (unfold gc; destruct (tr_get q t); auto).
  destruct gc as [old t1]. cbn [snd] in GC. destruct GC as [GS GR].
  destruct st as [n|]; [|exact GS].
  assert (D : n = Invalid \/ (n <> Invalid /\ forall A (a b : A), match n with Invalid => a | _ => b end = b)).
  { destruct n; [left; reflexivity|..]; right; (split; [discriminate|reflexivity]). }
  destruct D as [->|[NN D]]; [exact GS|]. rewrite !D in *.
  destruct (lstate_eqb (fst old) Shutdown); [exact GS|]. destruct (lstate_eqb (fst old) n); [exact GS|].
  destruct (is_required q _) eqn:RQ; [|exact GS]. cbn [snd tr_sys set_sys] in *.
  apply is_required_in in RQ. cbn [tr_required] in RQ.
  assert (NC : n <> ShuttingDown /\ n <> Aborting).
  { eapply (C q n stamp); [exact RQ|]. rewrite tr_get_sys, tr_get_set, N.eqb_refl. reflexivity. }
  eapply compute_with_error; [|exact G2|apply NC|apply NC|exact GS]. cbn. rewrite GR. exact R.
Qed.
Lemma error_step_remove : forall p q c t x, In p (tr_required t) -> tr_get p t = Some (Error, x) -> tr_sys t = Error -> q <> p ->
  calm (snd (remove_participant q c t)) -> tr_sys (snd (remove_participant q c t)) = Error.
Proof.
  intros p q c t x R G S Q C. unfold remove_participant in *. destruct (tr_get q t); [|exact S]. cbn [snd tr_sys set_sys] in *.
  set (t1 := mkTr _ _ _) in *.
  assert (C1 : calm t1) by exact C.
  destruct (any_calm c t1 C1) as [A1 A2].
  eapply compute_with_error; [exact R| |exact A1|exact A2|exact S].
  unfold t1. rewrite tr_get_filter, tr_eta. apply N.eqb_neq in Q. rewrite Q. exact G.
Qed.
Definition calm_hist (l : list mev) : Prop :=
  forall q, In q (required l) -> ~ reported q ShuttingDown l /\ ~ reported q Aborting l.
Lemma calm_final : forall l, calm_hist l -> calm (m_tr (final l)).
Proof.
  intros l H q s x R G. rewrite final_required in R. apply nodup_In in R. rewrite final_get in G.
  destruct (H q R) as [A B]. split; intros ->; [apply A|apply B]; exists x; exact G.
Qed.
Definition not_required_msg (e : mev) : Prop := match e with MRequired _ _ => False | _ => True end.

Lemma error_stays_step : forall l e p, In p (required l) -> reported p Error l -> reported p Error (l ++ [e]) ->
  not_required_msg e -> calm_hist l -> calm_hist (l ++ [e]) -> system_state l = Error -> system_state (l ++ [e]) = Error.
Proof.
  intros l e p R [x X] [y Y] NR CL C S. unfold system_state in *.
  assert (RQ : In p (tr_required (m_tr (final l)))) by (rewrite final_required; apply nodup_In, R).
  rewrite <- final_get in X. rewrite <- final_get in Y. apply calm_final in C. apply calm_final in CL. rewrite final_snoc in *.
  destruct e as [ns c|q st stamp|q|q stamp c|h|h]; cbn [mstep] in *; try exact S; try contradiction.
  - rewrite mon_msg_tr in *. eapply error_step_msg; eauto.
  - fold (disc_msg q stamp (final l)) in *. destruct (disc_msg_cases q stamp (final l)) as [E|[E (o & z & G & _ & _)]]; rewrite E in *.
    + assert (QP : q <> p).
      { intros ->. pose proof (remove_get p c (m_tr (final l)) p) as G. rewrite N.eqb_refl in G.
        destruct (remove_participant p c (m_tr (final l))). cbn in *. congruence. }
      pose proof (error_step_remove p q c (m_tr (final l)) x RQ X S QP) as RM.
      destruct (remove_participant q c (m_tr (final l))). apply RM, C.
    + pose proof (mon_msg_tr q (Some Error) stamp (final l)) as T. destruct (mon_msg q (Some Error) stamp (final l)) as [o1 m1]. cbn [snd] in T.
      assert (QP : q <> p).
      { intros ->. pose proof (remove_get p c (m_tr m1) p) as G1. rewrite N.eqb_refl in G1.
        destruct (remove_participant p c (m_tr m1)). cbn in *. congruence. }
      assert (G1 : tr_get p (m_tr m1) = Some (Error, x)).
      { rewrite T, update_status_get. cbn [view_step]. apply N.eqb_neq in QP. rewrite QP. exact X. }
      assert (R1 : tr_required (m_tr m1) = tr_required (m_tr (final l))) by (rewrite T; apply update_status_required).
      assert (C1 : calm (snd (update_status q (Some Error) stamp (m_tr (final l))))).
      { intros q' s' x' R' G'. rewrite <- T in *. rewrite R1 in R'.
        destruct (N.eqb_spec q q') as [<-|ne].
        - rewrite T, update_status_get in G'. cbn [view_step] in G'. rewrite N.eqb_refl in G'. rewrite G in G'.
          destruct o; inversion G'; subst; split; discriminate.
        - rewrite T, update_status_get in G'. cbn [view_step] in G'. apply N.eqb_neq in ne. rewrite ne in G'.
          apply (CL q' s' x' R' G'). }
      assert (S1 : tr_sys (m_tr m1) = Error).
      { rewrite T. eapply error_step_msg; [exact RQ|exact X|exact S| |exact C1]. rewrite <- T. exact G1. }
      pose proof (error_step_remove p q c (m_tr m1) x) as RM. rewrite R1 in RM. specialize (RM RQ G1 S1 QP).
      destruct (remove_participant q c (m_tr m1)). apply RM, C.
Qed.

(** * Nobody missing *)
Lemma early_state : forall l, (forall e, In e l -> match e with MDisconnected _ _ _ => False | MRequired _ _ => False | _ => True end) ->
  forall ns c p, In p ns -> view p (MRequired ns c :: l) = None ->
  In (system_state (MRequired ns c :: l)) [Invalid; Error; Aborting].
Proof.
  intros l. induction l as [|e l IH] using rev_ind; intros W ns c p I V.
  - left. unfold system_state, final. cbn [mrun mstep update_required m_tr mon_init tr_init tr_sys tr_cache snd].
    set (t1 := mkTr (nodup N.eq_dec ns) Invalid []). cbn.
    replace (any_required c t1) with Invalid; [reflexivity|]. unfold any_required. destruct (nth_error _ _); reflexivity.
  - rewrite app_comm_cons in *. rewrite view_snoc in V.
    assert (W1 : forall e, In e l -> match e with MDisconnected _ _ _ => False | MRequired _ _ => False | _ => True end)
      by (intros; apply W, in_or_app; auto).
    assert (We : match e with MDisconnected _ _ _ => False | MRequired _ _ => False | _ => True end)
      by (apply W, in_or_app; right; left; reflexivity).
    assert (V1 : view p (MRequired ns c :: l) = None).
    { destruct e as [n c0|q st stamp|q|q stamp c0|h|h]; cbn [view_step] in V; try contradiction; try exact V.
      destruct (q =? p); [|exact V]. destruct (view p (MRequired ns c :: l)) as [[o x]|]; [|reflexivity].
      exfalso. destruct o; destruct st as [[]|]; congruence. }
    specialize (IH W1 ns c p I V1). set (l0 := MRequired ns c :: l) in *.
    assert (RQ : In p (tr_required (m_tr (final l0)))).
    { rewrite final_required. apply nodup_In. clear - I W1. unfold l0, required. cbn.
      assert (X : forall l r, (forall e, In e l -> match e with MDisconnected _ _ _ => False | MRequired _ _ => False | _ => True end) ->
        fold_left (fun (r : list N) e => match e with MRequired ns _ => ns | _ => r end) l r = r).
      { clear. induction l as [|e l IH]; intros r W; cbn; [reflexivity|]. rewrite IH by (intros; apply W; right; assumption).
        specialize (W e (or_introl eq_refl)). destruct e; try reflexivity; contradiction. }
      rewrite X by assumption. exact I. }
    unfold system_state in *. rewrite final_snoc.
    destruct e as [n c0|q st stamp|q|q stamp c0|h|h]; cbn [mstep]; try contradiction; try exact IH.
    rewrite mon_msg_tr. assert (G := update_status_get q st stamp (m_tr (final l0)) p). rewrite final_get, V in G.
    assert (UR := update_status_required q st stamp (m_tr (final l0))).
    revert G UR. generalize dependent (m_tr (final l0)). intros t IH RQ G UR.
    unfold update_status, get_or_create in *.
    set (gc := match tr_get q t with Some s => (s, t) | None => _ end) in *.
    assert (GC : tr_sys (snd gc) = tr_sys t /\ tr_required (snd gc) = tr_required t) by (unfold gc; destruct (tr_get q t); auto).
    destruct gc as [old t1]. cbn [snd] in GC. destruct GC as [GS GR].
    destruct st as [n|]; [|cbn [snd]; rewrite GS; exact IH].
    assert (D : n = Invalid \/ (n <> Invalid /\ forall A (a b : A), match n with Invalid => a | _ => b end = b)).
    { destruct n; [left; reflexivity|..]; right; (split; [discriminate|reflexivity]). }
    destruct D as [->|[NN D]]; [cbn [snd]; rewrite GS; exact IH|]. rewrite !D in *.
    destruct (lstate_eqb (fst old) Shutdown); [cbn [snd]; rewrite GS; exact IH|]. destruct (lstate_eqb (fst old) n); [cbn [snd tr_sys]; rewrite GS; exact IH|].
    destruct (is_required q _) eqn:RQ2; [|cbn [snd tr_sys]; rewrite GS; exact IH]. cbn [snd tr_sys set_sys] in *.
    set (t2 := mkTr (tr_required t1) (tr_sys t1) (cache_set q (n, stamp) (tr_cache t1))) in *.
    assert (A : forall ls, all_in t2 ls = false).
    { intros ls. apply not_true_is_false. unfold all_in. rewrite forallb_forall. intros F.
      specialize (F p). unfold t2 at 1 in F. cbn [tr_required] in F. rewrite GR in F. specialize (F RQ).
      rewrite tr_get_sys in G. rewrite G in F. discriminate. }
    assert (BASE : (match tr_cache t2 with [] => match tr_sys t2 with Error => Error | Shutdown => Shutdown | ShuttingDown => Shutdown | _ => Invalid end | _ => tr_sys t2 end) = tr_sys t).
    { unfold t2. cbn. rewrite GS. destruct (tr_cache t1) as [|[a b] r]; cbn; [reflexivity|]. destruct (a =? q); reflexivity. }
    assert (R : compute_system_state n t2 = tr_sys t \/ compute_system_state n t2 = Error \/ compute_system_state n t2 = Aborting).
    { unfold compute_system_state. rewrite BASE. destruct n; cbn [first_all_in]; rewrite ?A; auto. }
    destruct R as [R|[R|R]]; rewrite R; cbn; auto.
Qed.

(** * Announcements of the system state *)
Lemma sys_seen_app : forall h a b, sys_seen h (a ++ b) = sys_seen h a ++ sys_seen h b.
Proof. intros; apply flat_map_app. Qed.
Lemma status_seen_app : forall h p a b, status_seen h p (a ++ b) = status_seen h p a ++ status_seen h p b.
Proof. intros; apply flat_map_app. Qed.
Definition has (h : N) (l : list N) : bool := existsb (fun x => x =? h) l.
Definition atmost1 (h : N) (l : list N) : Prop := (count_occ N.eq_dec l h <= 1)%nat.
Lemma has_count : forall h l, has h l = true <-> (0 < count_occ N.eq_dec l h)%nat.
Proof.
  intros h l. unfold has. rewrite existsb_exists. setoid_rewrite N.eqb_eq. split.
  - intros (x & I & ->). apply count_occ_In, I.
  - intros H. apply count_occ_In in H. exists h; auto.
Qed.
Lemma seen_map_sys : forall h s l, atmost1 h l -> sys_seen h (map (fun x => MSys x s) l) = if has h l then [s] else [].
Proof.
  intros h s l. unfold atmost1. induction l as [|x r IH]; cbn; intros O; [reflexivity|].
  fold (sys_seen h (map (fun x => MSys x s) r)). destruct (N.eq_dec x h) as [->|ne].
  - rewrite N.eqb_refl. cbn. assert (R : has h r = false) by (apply not_true_is_false; rewrite has_count; lia).
    rewrite IH, R by lia. reflexivity.
  - rewrite (proj2 (N.eqb_neq x h) ne). cbn. apply IH, O.
Qed.
Lemma seen_map_status_sys : forall h p s l, status_seen h p (map (fun x => MSys x s) l) = [].
Proof. intros. induction l; cbn; auto. Qed.
Lemma seen_map_sys_status : forall h p s l, sys_seen h (map (fun x => MStatus x p s) l) = [].
Proof. intros. induction l; cbn; auto. Qed.
Lemma seen_map_status : forall h p q s l, atmost1 h l ->
  status_seen h p (map (fun x => MStatus x q s) l) = if has h l && (q =? p) then [s] else [].
Proof.
  intros h p q s l. unfold atmost1. induction l as [|x r IH]; cbn; intros O; [reflexivity|].
  fold (status_seen h p (map (fun x => MStatus x q s) r)). destruct (N.eq_dec x h) as [->|ne].
  - rewrite N.eqb_refl. cbn. assert (R : has h r = false) by (apply not_true_is_false; rewrite has_count; lia).
    rewrite IH, R by lia. cbn. destruct (q =? p); reflexivity.
  - rewrite (proj2 (N.eqb_neq x h) ne). cbn. apply IH, O.
Qed.

(** What a status message does to the system state, and whether that is reported. *)
Lemma update_status_flags : forall p st stamp t,
  match fst (update_status p st stamp t) with
  | Some (pc, sc) => sc = negb (lstate_eqb (tr_sys t) (tr_sys (snd (update_status p st stamp t)))) /\
                     (if pc then change p (tr_get p t) (MMsg p st stamp) = match st with Some s => [(s, stamp)] | None => [] end
                      else change p (tr_get p t) (MMsg p st stamp) = []) /\ st <> None
  | None => tr_sys (snd (update_status p st stamp t)) = tr_sys t /\ (st = None \/ st = Some Invalid)
  end.
Proof.
  intros p st stamp t. unfold update_status, get_or_create.
  destruct (tr_get p t) as [[o x]|] eqn:E.
  - destruct st as [n|]; [|cbn; auto].
    assert (D : n = Invalid \/ (n <> Invalid /\ forall A (a b : A), match n with Invalid => a | _ => b end = b)).
    { destruct n; [left; reflexivity|..]; right; (split; [discriminate|reflexivity]). }
    destruct D as [->|[NN D]]; [cbn; auto|]. rewrite !D. cbn [fst change]. rewrite N.eqb_refl.
    assert (NI : lstate_eqb n Invalid = false) by (apply lstate_eqb_neq; assumption). rewrite NI, orb_false_r.
    destruct (lstate_eqb o Shutdown) eqn:OS; [cbn; rewrite lstate_eqb_refl; split; [reflexivity|split; [reflexivity|discriminate]]|].
    cbn [orb]. destruct (lstate_eqb o n) eqn:ON; [cbn; rewrite lstate_eqb_refl; split; [reflexivity|split; [reflexivity|discriminate]]|].
    destruct (is_required p _); cbn [fst snd tr_sys set_sys].
    + split; [reflexivity|split; [reflexivity|discriminate]].
    + rewrite lstate_eqb_refl. split; [reflexivity|split; [reflexivity|discriminate]].
  - destruct st as [n|]; [|cbn; auto].
    assert (D : n = Invalid \/ (n <> Invalid /\ forall A (a b : A), match n with Invalid => a | _ => b end = b)).
    { destruct n; [left; reflexivity|..]; right; (split; [discriminate|reflexivity]). }
    destruct D as [->|[NN D]]; [cbn; auto|]. rewrite !D. cbn [fst change]. rewrite N.eqb_refl.
    assert (NI : lstate_eqb n Invalid = false) by (apply lstate_eqb_neq; assumption). rewrite NI.
    assert (NI2 : lstate_eqb Invalid n = false) by (apply lstate_eqb_neq; congruence). rewrite NI2.
    cbn [lstate_eqb]. destruct (is_required p _); cbn [fst snd tr_sys set_sys].
    + split; [reflexivity|split; [reflexivity|discriminate]].
    + rewrite lstate_eqb_refl. split; [reflexivity|split; [reflexivity|discriminate]].
Qed.
Lemma change_other : forall p q v st stamp, q <> p -> change p v (MMsg q st stamp) = [].
Proof. intros p q v st stamp E. cbn. destruct st; [|reflexivity]. apply N.eqb_neq in E. rewrite E. reflexivity. Qed.

Lemma mon_msg_sys : forall h p st stamp m, atmost1 h (m_sysh m) ->
  sys_seen h (fst (mon_msg p st stamp m)) =
  if has h (m_sysh m) && negb (lstate_eqb (tr_sys (m_tr m)) (tr_sys (m_tr (snd (mon_msg p st stamp m)))))
  then [tr_sys (m_tr (snd (mon_msg p st stamp m)))] else [].
Proof.
  intros h p st stamp m O. pose proof (update_status_flags p st stamp (m_tr m)) as F. unfold mon_msg.
  destruct (update_status p st stamp (m_tr m)) as [[[pc sc]|] t]; cbn [fst snd] in F.
  - destruct F as (F1 & _ & F3). destruct st as [s|]; [|congruence]. cbn [fst snd m_tr]. rewrite <- F1.
    rewrite sys_seen_app. replace (sys_seen h (if pc then _ else _)) with (@nil lstate)
      by (destruct pc; [symmetry; apply seen_map_sys_status|reflexivity]).
    cbn [app]. destruct sc; [|rewrite andb_false_r; reflexivity]. unfold sys_all. cbn [m_sysh m_tr].
    rewrite seen_map_sys by assumption. rewrite andb_true_r. reflexivity.
  - destruct F as [F _]. assert (X : (match st with Some _ => ([MThrow], mkMon t (m_conn m) (m_sysh m) (m_stah m)) | None => ([MThrow], mkMon t (m_conn m) (m_sysh m) (m_stah m)) end) = ([MThrow], mkMon t (m_conn m) (m_sysh m) (m_stah m))) by (destruct st; reflexivity).
    cbn [fst snd m_tr]. rewrite F, lstate_eqb_refl, andb_false_r. reflexivity.
Qed.
Lemma mon_msg_status : forall h p q st stamp m, atmost1 h (m_stah m) ->
  status_seen h p (fst (mon_msg q st stamp m)) =
  if has h (m_stah m) then change p (tr_get p (m_tr m)) (MMsg q st stamp) else [].
Proof.
  intros h p q st stamp m O. pose proof (update_status_flags q st stamp (m_tr m)) as F. unfold mon_msg.
  destruct (update_status q st stamp (m_tr m)) as [[[pc sc]|] t]; cbn [fst snd] in F.
  - destruct F as (_ & F2 & F3). destruct st as [s|]; [|congruence]. cbn [fst].
    rewrite status_seen_app. replace (status_seen h p (if sc then _ else _)) with (@nil status)
      by (destruct sc; [symmetry; apply seen_map_status_sys|reflexivity]).
    rewrite app_nil_r. destruct (N.eqb_spec q p) as [<-|Q].
    + destruct pc.
      * rewrite seen_map_status by assumption. rewrite N.eqb_refl, andb_true_r, F2. reflexivity.
      * rewrite F2. destruct (has h (m_stah m)); reflexivity.
    + rewrite change_other by assumption. destruct pc; [|destruct (has h (m_stah m)); reflexivity].
      rewrite seen_map_status by assumption. apply N.eqb_neq in Q. rewrite Q, andb_false_r. destruct (has h (m_stah m)); reflexivity.
  - destruct F as [_ F]. assert (C : change p (tr_get p (m_tr m)) (MMsg q st stamp) = []).
    { destruct F; subst st; [reflexivity|]. cbn [change]. destruct (q =? p); [|reflexivity].
      destruct (tr_get p (m_tr m)) as [[o x]|]; [|reflexivity]. cbn. rewrite orb_true_r. reflexivity. }
    rewrite C. destruct (has h (m_stah m)); reflexivity.
Qed.

(** The sequence of announcements to [h]: one element per change. *)
Definition chain (h : N) (reg : bool) (s0 : lstate) (log : list lstate) (s1 : lstate) : Prop :=
  (if reg then no_repeat (s0 :: log) /\ last log s0 = s1 else log = []).
Lemma no_repeat_app : forall a b (x : lstate), no_repeat (x :: a) -> no_repeat (last a x :: b) -> no_repeat (x :: a ++ b).
Proof.
  induction a as [|y a IH]; intros b x A B; [exact B|].
  cbn [app]. destruct A as [A1 A2]. split; [exact A1|]. apply IH; [exact A2|].
  replace (last (y :: a) x) with (last a y) in B; [exact B|].
  clear. revert x y. induction a as [|z a IH]; intros x y; [reflexivity|]. change (last (y :: z :: a) x) with (last (z :: a) x).
  rewrite <- (IH x z), <- (IH y z). reflexivity.
Qed.
Lemma last_cons' : forall {A} (l : list A) a d, last (a :: l) d = last l a.
Proof.
  intros A l; induction l as [|x r IH]; intros a d; [reflexivity|].
  change (last (a :: x :: r) d) with (last (x :: r) d). rewrite !IH. reflexivity.
Qed.
Lemma last_app' : forall {A} (a b : list A) d, last (a ++ b) d = last b (last a d).
Proof.
  intros A a; induction a as [|x a IH]; intros b d; [reflexivity|]. cbn [app]. rewrite !last_cons', IH. reflexivity.
Qed.
Lemma chain_app : forall h reg s0 a s1 b s2, chain h reg s0 a s1 -> chain h reg s1 b s2 -> chain h reg s0 (a ++ b) s2.
Proof.
  intros h reg s0 a s1 b s2. unfold chain. destruct reg; [|intros -> ->; reflexivity].
  intros [A1 A2] [B1 B2]. split.
  - apply no_repeat_app; [exact A1|]. rewrite A2. exact B1.
  - rewrite last_app', A2. exact B2.
Qed.
Lemma chain_change : forall h reg s0 s1 log, log = (if reg && negb (lstate_eqb s0 s1) then [s1] else []) -> chain h reg s0 log s1.
Proof.
  intros h reg s0 s1 log ->. unfold chain. destruct reg; cbn [andb]; [|reflexivity].
  destruct (lstate_eqb s0 s1) eqn:E; cbn [negb].
  - apply lstate_eqb_ok in E. subst. split; [exact I|reflexivity].
  - apply lstate_eqb_neq in E. split; [split; [assumption|exact I]|reflexivity].
Qed.
Lemma remove_flag : forall p c t, fst (remove_participant p c t) = negb (lstate_eqb (tr_sys t) (tr_sys (snd (remove_participant p c t)))).
Proof. intros. unfold remove_participant. destruct (tr_get p t); cbn; [reflexivity|]. rewrite lstate_eqb_refl. reflexivity. Qed.

Lemma mstep_chain : forall h e m, atmost1 h (m_sysh m) -> (forall h', e = MAddSys h' -> h' <> h) ->
  chain h (has h (m_sysh m)) (tr_sys (m_tr m)) (sys_seen h (fst (mstep e m))) (tr_sys (m_tr (snd (mstep e m)))) /\
  has h (m_sysh (snd (mstep e m))) = has h (m_sysh m) /\ atmost1 h (m_sysh (snd (mstep e m))).
Proof.
  intros h e m O NA. destruct e as [ns c|q st stamp|q|q stamp c|h'|h']; cbn [mstep].
  - unfold update_required. cbn [fst snd m_tr m_sysh]. split; [|auto]. apply chain_change.
    set (s := compute_system_state _ _). destruct (lstate_eqb (tr_sys (m_tr m)) s) eqn:E; cbn [negb].
    + cbn [tr_sys set_sys]. fold s. rewrite E, andb_false_r. reflexivity.
    + unfold sys_all. cbn [m_sysh m_tr]. rewrite seen_map_sys by assumption. cbn [tr_sys set_sys]. fold s. rewrite E, andb_true_r. reflexivity.
  - destruct (mon_msg_rest q st stamp m) as (_ & R & _). rewrite R. split; [|auto].
    apply chain_change. apply mon_msg_sys, O.
  - cbn. split; [|auto]. apply chain_change. rewrite lstate_eqb_refl, andb_false_r. reflexivity.
  - fold (disc_msg q stamp m).
    assert (X : chain h (has h (m_sysh m)) (tr_sys (m_tr m)) (sys_seen h (fst (disc_msg q stamp m))) (tr_sys (m_tr (snd (disc_msg q stamp m)))) /\
                m_sysh (snd (disc_msg q stamp m)) = m_sysh m).
    { destruct (disc_msg_cases q stamp m) as [E|[E _]]; rewrite E.
      - cbn. split; [|reflexivity]. apply chain_change. rewrite lstate_eqb_refl, andb_false_r. reflexivity.
      - destruct (mon_msg_rest q (Some Error) stamp m) as (_ & R & _). split; [|exact R]. apply chain_change. apply mon_msg_sys, O. }
    destruct (disc_msg q stamp m) as [o1 m1]. cbn [fst snd] in X. destruct X as [X R].
    pose proof (remove_flag q c (m_tr m1)) as F. destruct (remove_participant q c (m_tr m1)) as [ch t]. cbn [fst snd m_tr m_sysh] in *.
    rewrite R. split; [|auto]. rewrite sys_seen_app. eapply chain_app; [exact X|]. apply chain_change. rewrite <- F.
    destruct ch; [|rewrite andb_false_r; reflexivity]. unfold sys_all. cbn [m_sysh m_tr]. rewrite seen_map_sys by assumption.
    rewrite andb_true_r. reflexivity.
  - cbn. assert (NE : h' <> h) by (apply NA; reflexivity). apply N.eqb_neq in NE. rewrite NE. cbn.
    unfold has, atmost1 in *. rewrite existsb_app, count_occ_app. cbn. rewrite NE. cbn. rewrite orb_false_r.
    split; [|split; [reflexivity|]].
    + apply chain_change. rewrite lstate_eqb_refl, andb_false_r. reflexivity.
    + apply N.eqb_neq in NE. destruct (N.eq_dec h' h); [congruence|lia].
  - cbn [fst snd m_tr m_sysh]. split; [|auto]. apply chain_change. rewrite lstate_eqb_refl, andb_false_r.
    induction (m_conn m) as [|y r IH]; cbn [flat_map]; [reflexivity|]. rewrite sys_seen_app.
    rewrite IH, app_nil_r. destruct (tr_get y (m_tr m)) as [[s x]|]; [|reflexivity]. destruct (lstate_eqb _ _); reflexivity.
Qed.

Lemma mrun_chain : forall h l m, atmost1 h (m_sysh m) -> (sys_registrations h l = 0)%nat ->
  chain h (has h (m_sysh m)) (tr_sys (m_tr m)) (sys_seen h (fst (mrun l m))) (tr_sys (m_tr (snd (mrun l m)))).
Proof.
  intros h l; induction l as [|e r IH]; intros m O R; cbn [mrun].
  - cbn. apply chain_change. rewrite lstate_eqb_refl, andb_false_r. reflexivity.
  - unfold sys_registrations in R. cbn [filter] in R.
    assert (NA : forall h', e = MAddSys h' -> h' <> h).
    { intros h' -> ->. rewrite N.eqb_refl in R. cbn in R. lia. }
    destruct (mstep_chain h e m O NA) as (A & B & C). destruct (mstep e m) as [o m']. cbn [fst snd] in *.
    assert (R' : (sys_registrations h r = 0)%nat) by (unfold sys_registrations; destruct e; try exact R; destruct (h0 =? h); [cbn in R; lia|exact R]).
    specialize (IH m' C R'). destruct (mrun r m') as [o' m'']. cbn [fst snd] in *. rewrite sys_seen_app. rewrite B in IH.
    eapply chain_app; eassumption.
Qed.
Lemma sys_handler : forall h l1 l2, sys_registrations h l1 = 0%nat -> sys_registrations h l2 = 0%nat ->
  let log := sys_seen h (outputs (l1 ++ MAddSys h :: l2)) in
  no_repeat log /\ hd_error log = Some (system_state l1) /\ last log Invalid = system_state (l1 ++ MAddSys h :: l2).
Proof.
  intros h l1 l2 R1 R2. cbn zeta. unfold outputs, system_state, final. rewrite mrun_app. cbn [fst snd mrun mstep].
  assert (O : atmost1 h (m_sysh mon_init)) by (unfold atmost1; cbn; lia).
  pose proof (mrun_chain h l1 mon_init O R1) as A. cbn [has] in A. unfold chain in A. cbn in A.
  set (m := snd (mrun l1 mon_init)) in *.
  set (m1 := mkMon (m_tr m) (m_conn m) (m_sysh m ++ [h]) (m_stah m)).
  assert (NH : count_occ N.eq_dec (m_sysh m) h = 0%nat).
  { unfold m. clear - R1. assert (X : forall l m0, (count_occ N.eq_dec (m_sysh m0) h = 0)%nat -> sys_registrations h l = 0%nat -> count_occ N.eq_dec (m_sysh (snd (mrun l m0))) h = 0%nat).
    { induction l as [|e r IH]; intros m0 Z R; [exact Z|]. cbn [mrun].
      assert (NA : forall h', e = MAddSys h' -> h' <> h).
      { intros h' -> ->. unfold sys_registrations in R. cbn in R. rewrite N.eqb_refl in R. cbn in R. lia. }
      assert (O : atmost1 h (m_sysh m0)) by (unfold atmost1; lia).
      destruct (mstep_chain h e m0 O NA) as (_ & B & _). destruct (mstep e m0) as [o m']. cbn [snd] in *.
      assert (Z' : count_occ N.eq_dec (m_sysh m') h = 0%nat).
      { destruct (count_occ N.eq_dec (m_sysh m') h) eqn:C; [reflexivity|]. exfalso.
        assert (H1 : has h (m_sysh m') = true) by (apply has_count; lia). rewrite B in H1. apply has_count in H1. lia. }
      assert (R' : (sys_registrations h r = 0)%nat) by (unfold sys_registrations in *; cbn [filter] in R; destruct e; try exact R; destruct (h0 =? h); [cbn in R; lia|exact R]).
      specialize (IH m' Z' R'). destruct (mrun r m'). exact IH. }
    apply X; [reflexivity|exact R1]. }
  assert (O1 : atmost1 h (m_sysh m1)).
  { unfold atmost1, m1. cbn. rewrite count_occ_app. cbn. destruct (N.eq_dec h h); lia. }
  assert (H1 : has h (m_sysh m1) = true) by (apply has_count; unfold m1; cbn; rewrite count_occ_app; cbn; destruct (N.eq_dec h h); [lia|congruence]).
  pose proof (mrun_chain h l2 m1 O1 R2) as B. rewrite H1 in B. unfold chain in B. destruct B as [B1 B2].
  destruct (mrun l2 m1) as [o2 m2]. cbn [fst snd] in *.
  rewrite sys_seen_app, A. cbn [app].
  change (sys_seen h (MSys h (tr_sys (m_tr m)) :: o2)) with ((if h =? h then [tr_sys (m_tr m)] else []) ++ sys_seen h o2).
  rewrite N.eqb_refl. cbn [app]. split; [exact B1|]. split; [reflexivity|]. rewrite last_cons'. exact B2.
Qed.

(** * Status handlers *)
Lemma mstep_status : forall h p e m, atmost1 h (m_stah m) -> (forall h', e <> MAddStatus h') ->
  status_seen h p (fst (mstep e m)) = (if has h (m_stah m) then change p (tr_get p (m_tr m)) e else []) /\
  m_stah (snd (mstep e m)) = m_stah m.
Proof.
  intros h p e m O NA. destruct e as [ns c|q st stamp|q|q stamp c|h'|h']; cbn [mstep].
  - unfold update_required. cbn [fst snd m_stah]. split; [|reflexivity]. cbn [change].
    replace (status_seen h p _) with (@nil status).
    + destruct (has h (m_stah m)); reflexivity.
    + destruct (negb _); [symmetry; apply seen_map_status_sys|reflexivity].
  - destruct (mon_msg_rest q st stamp m) as (_ & _ & R). split; [|exact R]. apply mon_msg_status, O.
  - cbn. split; [|reflexivity]. destruct (has h (m_stah m)); reflexivity.
  - fold (disc_msg q stamp m).
    assert (X : status_seen h p (fst (disc_msg q stamp m)) = (if has h (m_stah m) then change p (tr_get p (m_tr m)) (MDisconnected q stamp c) else []) /\
                m_stah (snd (disc_msg q stamp m)) = m_stah m).
    { unfold disc_msg. destruct (tr_get q (m_tr m)) as [[o x]|] eqn:E; cbn [fst].
      - assert (C : o = Shutdown \/ o = Invalid \/ (o <> Shutdown /\ o <> Invalid /\ forall A (a b c : A), match o with Shutdown | Invalid => a | _ => b end = b)).
        { destruct o; auto; right; right; (split; [discriminate|]); (split; [discriminate|]); reflexivity. }
        assert (CH : q <> p -> change p (tr_get p (m_tr m)) (MDisconnected q stamp c) = []).
        { intros Q. cbn. apply N.eqb_neq in Q. rewrite Q. reflexivity. }
        destruct C as [->|[->|(N1 & N2 & D)]].
        + cbn [fst snd]. split; [|reflexivity]. destruct (N.eqb_spec q p) as [<-|Q]; [|rewrite CH by assumption; destruct (has _ _); reflexivity].
          cbn. rewrite E, N.eqb_refl. destruct (has _ _); reflexivity.
        + cbn [fst snd]. split; [|reflexivity]. destruct (N.eqb_spec q p) as [<-|Q]; [|rewrite CH by assumption; destruct (has _ _); reflexivity].
          cbn. rewrite E, N.eqb_refl. destruct (has _ _); reflexivity.
        + assert (DD : match o with Shutdown | Invalid => ([], m) | _ => mon_msg q (Some Error) stamp m end = mon_msg q (Some Error) stamp m)
            by (apply D; exact ([], m)).
          assert (DD' : match o with Invalid => ([], m) | Shutdown => ([], m) | _ => mon_msg q (Some Error) stamp m end = mon_msg q (Some Error) stamp m)
            by (destruct o; try congruence; reflexivity).
          rewrite DD'. destruct (mon_msg_rest q (Some Error) stamp m) as (_ & _ & R). split; [|exact R].
          rewrite mon_msg_status by assumption. destruct (has h (m_stah m)); [|reflexivity].
          destruct (N.eqb_spec q p) as [<-|Q].
          * cbn [change]. rewrite E, N.eqb_refl. cbn. rewrite orb_false_r. destruct o; try congruence; reflexivity.
          * rewrite CH by assumption. apply change_other, Q.
      - split; [|reflexivity]. cbn [change]. destruct (N.eqb_spec q p) as [<-|Q]; [rewrite E|]; destruct (has _ _); reflexivity. }
    destruct (disc_msg q stamp m) as [o1 m1]. cbn [fst snd] in X. destruct X as [X R].
    destruct (remove_participant q c (m_tr m1)) as [ch t]. cbn [fst snd m_stah]. rewrite status_seen_app, X. split; [|exact R].
    replace (status_seen h p (if ch then _ else _)) with (@nil status); [apply app_nil_r|].
    destruct ch; [symmetry; apply seen_map_status_sys|reflexivity].
  - cbn. split; [|reflexivity]. destruct (has h (m_stah m)); reflexivity.
  - exfalso; apply (NA h'); reflexivity.
Qed.

Definition conn_step (p : N) (b : bool) (e : mev) : bool :=
  match e with MConnected q => if q =? p then true else b | MDisconnected q _ _ => if q =? p then false else b | _ => b end.
Lemma conn_filter : forall p q l, has p (filter (fun x => negb (x =? q)) l) = if q =? p then false else has p l.
Proof.
  intros p q l. unfold has. induction l as [|x r IH]; cbn; [destruct (q =? p); reflexivity|].
  destruct (N.eqb_spec x q) as [->|E]; cbn; rewrite IH.
  - destruct (q =? p); reflexivity.
  - destruct (N.eqb_spec q p) as [->|Q]; [|reflexivity]. apply N.eqb_neq in E. rewrite E. reflexivity.
Qed.
Lemma NoDup_filter' : forall (f : N -> bool) l, NoDup l -> NoDup (filter f l).
Proof. intros. apply NoDup_filter, H. Qed.
Lemma mstep_conn : forall p e m, NoDup (m_conn m) ->
  has p (m_conn (snd (mstep e m))) = conn_step p (has p (m_conn m)) e /\ NoDup (m_conn (snd (mstep e m))).
Proof.
  intros p e m ND. destruct e as [ns c|q st stamp|q|q stamp c|h'|h']; cbn [mstep conn_step].
  - auto.
  - destruct (mon_msg_rest q st stamp m) as (R & _ & _). rewrite R. auto.
  - cbn [snd m_conn]. fold (has q (m_conn m)). destruct (has q (m_conn m)) eqn:E.
    + split; [|assumption]. destruct (N.eqb_spec q p) as [<-|Q]; [assumption|reflexivity].
    + unfold has at 1. rewrite existsb_app. cbn. rewrite orb_false_r. fold (has p (m_conn m)). split.
      * destruct (q =? p); [apply orb_true_r|apply orb_false_r].
      * rewrite <- (rev_involutive (m_conn m ++ [q])), rev_app_distr. apply NoDup_rev. cbn. constructor; [|apply NoDup_rev, ND].
        rewrite <- in_rev. intros I. assert (has q (m_conn m) = true) by (unfold has; apply existsb_exists; exists q; rewrite N.eqb_refl; auto). congruence.
  - fold (disc_msg q stamp m). assert (R : m_conn (snd (disc_msg q stamp m)) = m_conn m).
    { destruct (disc_msg_cases q stamp m) as [E|[E _]]; rewrite E; [reflexivity|]. apply mon_msg_rest. }
    destruct (disc_msg q stamp m) as [o1 m1]. cbn [snd] in R. destruct (remove_participant q c (m_tr m1)) as [ch t]. cbn [snd m_conn].
    rewrite R. split; [apply conn_filter|apply NoDup_filter', ND].
  - auto.
  - auto.
Qed.
Lemma replay_seen : forall h h' p m, NoDup (m_conn m) ->
  status_seen h p (flat_map (fun q => match tr_get q (m_tr m) with
                          | Some s => if lstate_eqb (fst s) Invalid then [] else [MStatus h' q s]
                          | None => [] end) (m_conn m)) =
  if (h' =? h) && has p (m_conn m) then match tr_get p (m_tr m) with Some (s, x) => if lstate_eqb s Invalid then [] else [(s, x)] | None => [] end else [].
Proof.
  intros h h' p m. induction (m_conn m) as [|q r IH]; intros ND; cbn [flat_map].
  - cbn. rewrite andb_false_r. reflexivity.
  - inversion ND; subst. rewrite status_seen_app, (IH H2).
    assert (ONE : status_seen h p (match tr_get q (m_tr m) with
                          | Some s => if lstate_eqb (fst s) Invalid then [] else [MStatus h' q s]
                          | None => [] end) = if (h' =? h) && (q =? p) then match tr_get p (m_tr m) with Some (s, x) => if lstate_eqb s Invalid then [] else [(s, x)] | None => [] end else []).
    { destruct (N.eqb_spec q p) as [<-|Q].
      - rewrite andb_true_r. destruct (tr_get q (m_tr m)) as [[s x]|]; cbn; [|destruct (h' =? h); reflexivity].
        destruct (lstate_eqb s Invalid); cbn; [destruct (h' =? h); reflexivity|]. rewrite N.eqb_refl, andb_true_r. destruct (h' =? h); reflexivity.
      - rewrite andb_false_r. destruct (tr_get q (m_tr m)) as [[s x]|]; cbn; [|reflexivity].
        destruct (lstate_eqb s Invalid); cbn; [reflexivity|]. apply N.eqb_neq in Q. rewrite Q, andb_false_r. reflexivity. }
    rewrite ONE. unfold has. cbn [existsb]. destruct (h' =? h); cbn [andb]; [|reflexivity].
    destruct (N.eqb_spec q p) as [<-|Q]; cbn [orb].
    + assert (NH : existsb (fun x => x =? q) r = false).
      { apply not_true_is_false. rewrite existsb_exists. intros (z & I & E). apply N.eqb_eq in E. subst z. contradiction. }
      rewrite NH, app_nil_r. reflexivity.
    + reflexivity.
Qed.
Lemma mrun_status : forall h p l m, atmost1 h (m_stah m) -> NoDup (m_conn m) ->
  (status_registrations h l + (if has h (m_stah m) then 1 else 0) <= 1)%nat ->
  status_seen h p (fst (mrun l m)) = status_expected h p (has h (m_stah m)) (has p (m_conn m)) (tr_get p (m_tr m)) l.
Proof.
  intros h p l; induction l as [|e r IH]; intros m O ND R; [reflexivity|]. cbn [mrun].
  pose proof (mstep_conn p e m ND) as [CN ND'].
  pose proof (mstep_get e m p) as GT.
  destruct (match e with MAddStatus _ => true | _ => false end) eqn:IA.
  - destruct e as [| | | | |h']; try discriminate. cbn [mstep fst snd m_tr m_conn] in *.
    set (m1 := mkMon (m_tr m) (m_conn m) (m_sysh m) (m_stah m ++ [h'])) in *.
    unfold status_registrations in R. cbn [filter] in R.
    assert (H1 : has h (m_stah m1) = has h (m_stah m) || (h' =? h)).
    { unfold m1, has. cbn. rewrite existsb_app. cbn. rewrite orb_false_r. reflexivity. }
    assert (O1 : atmost1 h (m_stah m1)).
    { unfold atmost1, m1 in *. cbn. rewrite count_occ_app. cbn. destruct (N.eq_dec h' h) as [E|E]; [|lia]. subst h'.
      rewrite N.eqb_refl in R. cbn in R. destruct (has h (m_stah m)) eqn:Q; [lia|].
      destruct (count_occ N.eq_dec (m_stah m) h) eqn:C; [lia|]. exfalso.
      assert (has h (m_stah m) = true) by (apply has_count; lia). congruence. }
    assert (R1 : (status_registrations h r + (if has h (m_stah m1) then 1 else 0) <= 1)%nat).
    { rewrite H1. unfold status_registrations. destruct (h' =? h); cbn in R |- *; destruct (has h (m_stah m)); cbn; lia. }
    specialize (IH m1 O1 ND R1). destruct (mrun r m1) as [o' m'']. cbn [fst] in *.
    rewrite status_seen_app, replay_seen, IH by assumption. cbn [status_expected]. rewrite H1.
    change (m_conn m1) with (m_conn m). change (m_tr m1) with (m_tr m).
    destruct (h' =? h); cbn [andb]; [rewrite orb_true_r|rewrite orb_false_r]; reflexivity.
  - assert (NA : forall h', e <> MAddStatus h') by (intros h' ->; discriminate).
    pose proof (mstep_status h p e m O NA) as [A B]. destruct (mstep e m) as [o m']. cbn [fst snd] in *.
    assert (O1 : atmost1 h (m_stah m')) by (rewrite B; exact O).
    assert (R1 : (status_registrations h r + (if has h (m_stah m') then 1 else 0) <= 1)%nat).
    { rewrite B. unfold status_registrations in *. cbn [filter] in R. destruct e; try discriminate; exact R. }
    specialize (IH m' O1 ND' R1). destruct (mrun r m') as [o' m'']. cbn [fst] in *.
    rewrite status_seen_app, A, IH, B, CN, GT.
    destruct e; try discriminate; reflexivity.
Qed.

(** * Shutdown is final *)
Lemma update_shutdown : forall p st stamp t x, tr_get p t = Some (Shutdown, x) ->
  snd (update_status p st stamp t) = t /\ (fst (update_status p st stamp t) = None \/ fst (update_status p st stamp t) = Some (false, false)).
Proof.
  intros p st stamp t x E. unfold update_status, get_or_create. rewrite E. cbn [fst lstate_eqb].
  destruct st as [[]|]; cbn; auto.
Qed.
Lemma shutdown_final_step : forall p st stamp m x, tr_get p (m_tr m) = Some (Shutdown, x) ->
  snd (mon_msg p st stamp m) = m /\ (forall o, In o (fst (mon_msg p st stamp m)) -> o = MThrow).
Proof.
  intros p st stamp m x E. destruct (update_shutdown p st stamp (m_tr m) x E) as [A B]. unfold mon_msg.
  destruct (update_status p st stamp (m_tr m)) as [r t]. cbn [fst snd] in *. subst t.
  assert (M : mkMon (m_tr m) (m_conn m) (m_sysh m) (m_stah m) = m) by (destruct m; reflexivity).
  destruct B as [-> | ->].
  - destruct st; cbn; (split; [exact M|intros o [<-|[]]; reflexivity]).
  - destruct st; cbn; (split; [exact M|]); [intros o []|intros o [<-|[]]; reflexivity].
Qed.
Lemma shutdown_view : forall p l2 l1 x, view p l1 = Some (Shutdown, x) ->
  (forall e, In e l2 -> match e with MDisconnected q _ _ => q <> p | _ => True end) ->
  view p (l1 ++ l2) = Some (Shutdown, x).
Proof.
  intros p l2 l1 x V. induction l2 as [|e l IH] using rev_ind; intros W; [rewrite app_nil_r; exact V|].
  rewrite app_assoc, view_snoc, IH by (intros; apply W, in_or_app; auto).
  assert (We : match e with MDisconnected q _ _ => q <> p | _ => True end) by (apply W, in_or_app; right; left; reflexivity). clear W.
  destruct e; cbn; try reflexivity; destruct (p0 =? p) eqn:E; try reflexivity.
  apply N.eqb_eq in E. contradiction.
Qed.
