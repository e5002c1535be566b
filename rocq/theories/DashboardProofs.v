(** Specification and proofs for the dashboard. *)
From Coq Require Import NArith List Arith Bool Lia.
From Verif Require Import Base SystemStateModel DashboardModel.
Import ListNotations.
Open Scope N_scope.

(** ** The queue *)
Section Q.
  Variable T : Type.
  Implicit Types (l : list (nop T)) (s : net T).
  (** the objects enqueued before the first Stop *)
  Fixpoint before_stop l : list T :=
    match l with [] => [] | NStop :: _ => [] | NEnqueue x :: r => x :: before_stop r | _ :: r => before_stop r end.
  Definition stopped l : bool := existsb (fun o => match o with NStop => true | _ => false end) l.
  Lemma nrun_snoc l o s : nrun (l ++ [o]) s = nstep o (nrun l s).
  Proof. unfold nrun. rewrite fold_left_app. reflexivity. Qed.
  Lemma before_stop_snoc l o :
    before_stop (l ++ [o]) = before_stop l ++ (if stopped l then [] else match o with NEnqueue x => [x] | _ => [] end).
  Proof.
    induction l as [|a l IH]; [destruct o; reflexivity|]. destruct a; cbn; auto. rewrite IH. reflexivity.
  Qed.
  Lemma stopped_snoc l o : stopped (l ++ [o]) = stopped l || match o with NStop => true | _ => false end.
  Proof. unfold stopped. rewrite existsb_app. cbn. rewrite orb_false_r. reflexivity. Qed.
  Lemma queue_inv l :
    let s := nrun l net0 in
    n_got s ++ q_items (n_q s) = before_stop l /\ q_stop (n_q s) = stopped l
    /\ (n_waiting s = true -> n_pending s = O -> q_items (n_q s) = [] /\ q_stop (n_q s) = false).
  Proof.
    induction l as [|o l IH] using rev_ind; [cbn; auto|].
    cbv zeta in *. rewrite nrun_snoc, before_stop_snoc, stopped_snoc. destruct IH as (A & B & C).
    destruct (nrun l net0) as [[it st] pe wa go]. cbn in A, B, C. subst st.
    destruct o; cbn.
    - unfold enqueue; cbn. destruct (stopped l); cbn; rewrite ?app_nil_r, ?app_assoc, ?A; (split; [|split]); auto; discriminate.
    - rewrite orb_true_r, A. destruct (stopped l); rewrite app_nil_r; (split; [|split]); auto; discriminate.
    - rewrite orb_false_r. destruct pe; cbn.
      + destruct (stopped l) eqn:E; rewrite app_nil_r; auto.
      + destruct (stopped l) eqn:E; rewrite app_nil_r; (split; [|split]); auto; discriminate.
    - rewrite orb_false_r. replace (if stopped l then [] else []) with (@nil T) by (destruct (stopped l); reflexivity). rewrite app_nil_r.
      destruct wa; cbn; [auto|]. unfold dequeue_all; cbn.
      destruct it as [|x it]; destruct (stopped l) eqn:E; cbn; rewrite ?app_nil_r in *; (split; [|split]); auto; try discriminate.
    - rewrite orb_false_r. destruct (stopped l) eqn:E; rewrite app_nil_r; (split; [|split]); auto; discriminate.
  Qed.
End Q.

(** ** To which simulation id each event belongs *)
Definition upd (f : N -> option N) (n : N) (v : option N) : N -> option N := fun m => if m =? n then v else f m.
(** the events with the name and the id under which they have to be reported *)
Fixpoint attrib (f : N -> option N) (ids : list N) (es : list event) : list (N * N * payload) :=
  match es with
  | [] => []
  | (n, p) :: r =>
      match p, f n with
      | PStart, Some _ => attrib f ids r
      | PStart, None => if hd 0 ids =? 0 then attrib f (tl ids) r else attrib (upd f n (Some (hd 0 ids))) (tl ids) r
      | _, None => attrib f ids r
      | PEnd, Some id => (n, id, p) :: attrib (upd f n None) ids r
      | _, Some id => (n, id, p) :: attrib f ids r
      end
  end.
Definition no_names : N -> option N := fun _ => None.
Definition of_id (id : N) (l : list (N * N * payload)) : list payload := map snd (filter (fun x => snd (fst x) =? id) l).

(** what the requests report about an id *)
Inductive kind := KConn | KSys | KStat | KServ.
Definition of_kind (k : kind) (p : payload) : bool :=
  match k, p with KConn, PConnected _ | KSys, PSystem _ | KStat, PStatus _ _ _ | KServ, PService _ => true | _, _ => false end.
Definition b_of (k : kind) (b : bulk) : list payload := match k with KConn => b_conn b | KSys => b_sys b | KStat => b_stat b | KServ => b_serv b end.
Definition reported (k : kind) (id : N) (rs : list req) : list payload :=
  flat_map (fun r => match r with RBulk i b => if i =? id then b_of k b else [] | _ => [] end) rs.
Definition reported_metrics (id : N) (rs : list req) : list N :=
  flat_map (fun r => match r with RMetric i m => if i =? id then [m] else [] | _ => [] end) rs.
Definition reported_stop (id : N) (rs : list req) : bool :=
  existsb (fun r => match r with RBulk i b => (i =? id) && b_stop b | _ => false end) rs.
Definition metrics_of (l : list payload) : list N := flat_map (fun p => match p with PMetric m => [m] | _ => [] end) l.
Definition ends (l : list payload) : bool := existsb (fun p => match p with PEnd => true | _ => false end) l.

(** ** The worker *)
Lemma bulk_empty_spec b : bulk_empty b = true <-> b = bulk0.
Proof.
  split; [|intros ->; reflexivity]. destruct b as [[|] [|] [|] [|] []]; cbn; try discriminate. reflexivity.
Qed.
Lemma bulk_get_set id b i l : bulk_get i (bulk_set id b l) = if i =? id then b else bulk_get i l.
Proof.
  unfold bulk_get. induction l as [|[j x] l IH]; cbn.
  - rewrite N.eqb_sym. destruct (i =? id); reflexivity.
  - destruct (j =? id) eqn:E; cbn.
    + apply N.eqb_eq in E; subst. rewrite N.eqb_sym. destruct (i =? id) eqn:F; [reflexivity|]. reflexivity.
    + destruct (j =? i) eqn:F; cbn; [|exact IH]. apply N.eqb_eq in F; subst. rewrite E. reflexivity.
Qed.
Lemma bulk_set_keys id b l : map fst (bulk_set id b l) = if existsb (fun x => fst x =? id) l then map fst l else map fst l ++ [id].
Proof.
  induction l as [|[j x] l IH]; cbn; [reflexivity|]. destruct (j =? id) eqn:E; cbn.
  - apply N.eqb_eq in E; subst; reflexivity.
  - rewrite IH. destruct (existsb _ l); reflexivity.
Qed.
Lemma bulk_set_nodup id b l : NoDup (map fst l) -> NoDup (map fst (bulk_set id b l)).
Proof.
  intros H. rewrite bulk_set_keys. destruct (existsb _ l) eqn:E; [exact H|].
  apply NoDup_rev in H. rewrite <- (rev_involutive (map fst l ++ [id])), rev_app_distr. apply NoDup_rev. cbn. constructor; [|exact H].
  rewrite <- in_rev, in_map_iff. intros (x & A & B). assert (existsb (fun x => fst x =? id) l = true); [|congruence].
  apply existsb_exists. exists x. split; [exact B|]. apply N.eqb_eq; exact A.
Qed.
Lemma flush_keys l : map fst (flush_bulks l) = map fst l.
Proof. unfold flush_bulks. rewrite map_map. apply map_ext. intros [i b]. destruct (bulk_empty _); reflexivity. Qed.
Lemma flush_get i l : bulk_get i (flush_bulks l) = bulk0.
Proof.
  unfold bulk_get. induction l as [|[j x] l IH]; cbn; [reflexivity|].
  destruct (bulk_empty x) eqn:E; cbn; destruct (j =? i) eqn:F; cbn; auto. apply bulk_empty_spec; exact E.
Qed.
(** a projection of the bulk updates into a monoid is preserved by the flush *)
Lemma flush_reported k i l : NoDup (map fst l) -> reported k i (flush_reqs l) = b_of k (bulk_get i l).
Proof.
  unfold bulk_get, reported, flush_reqs. induction l as [|[j x] l IH]; cbn; intros ND; [destruct k; reflexivity|].
  inversion ND as [|? ? A B]; subst. destruct (j =? i) eqn:E.
  - apply N.eqb_eq in E; subst. cbn.
    assert (Z : forall m, ~ In i (map fst m) ->
      flat_map (fun r => match r with RBulk i0 b => if i0 =? i then b_of k b else [] | _ => [] end)
       (flat_map (fun x => if bulk_empty (snd x) then [] else [RBulk (fst x) (snd x)]) m) = []).
    { induction m as [|[j y] m IHm]; cbn; [reflexivity|]. intros Hn. destruct (bulk_empty y); cbn.
      - apply IHm. tauto.
      - destruct (j =? i) eqn:F; [apply N.eqb_eq in F; subst; tauto|]. apply IHm. tauto. }
    destruct (bulk_empty x) eqn:F; cbn.
    + apply bulk_empty_spec in F; subst. rewrite Z by exact A. destruct k; reflexivity.
    + rewrite N.eqb_refl, Z, app_nil_r by exact A. reflexivity.
  - rewrite <- IH by exact B. destruct (bulk_empty x); cbn; [reflexivity|]. rewrite E. reflexivity.
Qed.
Lemma flush_stop i l : NoDup (map fst l) -> reported_stop i (flush_reqs l) = b_stop (bulk_get i l).
Proof.
  unfold bulk_get, reported_stop, flush_reqs. induction l as [|[j x] l IH]; cbn; intros ND; [reflexivity|].
  inversion ND as [|? ? A B]; subst. destruct (j =? i) eqn:E.
  - apply N.eqb_eq in E; subst. cbn.
    assert (Z : forall m, ~ In i (map fst m) ->
      existsb (fun r => match r with RBulk i0 b => (i0 =? i) && b_stop b | _ => false end)
       (flat_map (fun x => if bulk_empty (snd x) then [] else [RBulk (fst x) (snd x)]) m) = false).
    { induction m as [|[j y] m IHm]; cbn; [reflexivity|]. intros Hn. destruct (bulk_empty y); cbn.
      - apply IHm. tauto.
      - destruct (j =? i) eqn:F; [apply N.eqb_eq in F; subst; tauto|]. apply IHm. tauto. }
    destruct (bulk_empty x) eqn:F; cbn.
    + apply bulk_empty_spec in F; subst. rewrite Z by exact A. reflexivity.
    + rewrite N.eqb_refl, Z, orb_false_r by exact A. reflexivity.
  - rewrite <- IH by exact B. destruct (bulk_empty x); cbn; [reflexivity|]. rewrite E. reflexivity.
Qed.
Lemma flush_metrics i l : reported_metrics i (flush_reqs l) = [].
Proof. unfold reported_metrics, flush_reqs. induction l as [|[j x] l IH]; cbn; [reflexivity|]. destruct (bulk_empty x); exact IH. Qed.

Lemma reported_app k i a b : reported k i (a ++ b) = reported k i a ++ reported k i b.
Proof. apply flat_map_app. Qed.
Lemma reported_metrics_app i a b : reported_metrics i (a ++ b) = reported_metrics i a ++ reported_metrics i b.
Proof. apply flat_map_app. Qed.
Lemma reported_stop_app i a b : reported_stop i (a ++ b) = reported_stop i a || reported_stop i b.
Proof. apply existsb_app. Qed.

Definition names_fun (w : worker) : N -> option N := fun n => name_id n (w_names w).
Lemma name_id_app n m id l : name_id m l = None -> name_id n (l ++ [(m, id)]) = if n =? m then Some id else name_id n l.
Proof.
  unfold name_id. intros H. induction l as [|[k x] l IH]; cbn in *.
  - rewrite N.eqb_sym. destruct (n =? m); reflexivity.
  - destruct (k =? m) eqn:E; [discriminate|]. destruct (k =? n) eqn:F.
    + apply N.eqb_eq in F; subst. rewrite E. reflexivity.
    + apply IH, H.
Qed.
Lemma name_id_remove n m l : name_id n (filter (fun x => negb (fst x =? m)) l) = if n =? m then None else name_id n l.
Proof.
  unfold name_id. induction l as [|[k x] l IH]; cbn; [destruct (n =? m); reflexivity|].
  destruct (k =? m) eqn:E; cbn.
  - rewrite IH. apply N.eqb_eq in E; subst. destruct (n =? m) eqn:F; [reflexivity|]. rewrite N.eqb_sym, F. reflexivity.
  - destruct (k =? n) eqn:F; cbn; [|exact IH]. apply N.eqb_eq in F; subst. rewrite E. reflexivity.
Qed.
Lemma attrib_ext f g ids es : (forall n, f n = g n) -> attrib f ids es = attrib g ids es.
Proof.
  revert f g ids. induction es as [|[n p] es IH]; intros f g ids H; [reflexivity|]. cbn [attrib]. rewrite <- (H n).
  assert (U : forall v m, upd f n v m = upd g n v m) by (intros v m; unfold upd; destruct (m =? n); auto).
  destruct p, (f n); try (destruct (hd 0 ids =? 0)); rewrite ?(IH _ _ _ H), ?(IH _ _ _ (U _)); reflexivity.
Qed.
(** how the attribution goes on after some events *)
Definition sel k (l : list payload) := filter (of_kind k) l.
Lemma of_id_cons id n i p l : of_id id ((n, i, p) :: l) = (if i =? id then [p] else []) ++ of_id id l.
Proof. unfold of_id. cbn. destruct (i =? id); reflexivity. Qed.
Lemma sel_app k a b : sel k (a ++ b) = sel k a ++ sel k b.
Proof. apply filter_app. Qed.
Lemma b_of_add k p b : b_of k (add_item p b) = b_of k b ++ sel k [p].
Proof. destruct k, p; cbn; rewrite ?app_nil_r; reflexivity. Qed.
Lemma b_stop_add p b : b_stop (add_item p b) = b_stop b || ends [p].
Proof. destruct p; cbn; rewrite ?orb_false_r, ?orb_true_r; reflexivity. Qed.

Definition acct (w : worker) (rs : list req) (w' : worker) (att : list payload) (id : N) : Prop :=
  (forall k, reported k id rs ++ b_of k (bulk_get id (w_bulks w')) = b_of k (bulk_get id (w_bulks w)) ++ sel k att)
  /\ reported_metrics id rs = metrics_of att
  /\ reported_stop id rs || b_stop (bulk_get id (w_bulks w')) = b_stop (bulk_get id (w_bulks w)) || ends att.
(** the attribution of the first event, and the names and ids afterwards *)
Lemma wstep_spec e w : NoDup (map fst (w_bulks w)) ->
  exists hd_att, let (w', rs) := wstep e w in
    NoDup (map fst (w_bulks w'))
    /\ (forall es, attrib (names_fun w) (w_ids w) (e :: es) = hd_att ++ attrib (names_fun w') (w_ids w') es)
    /\ forall id, acct w rs w' (of_id id hd_att) id.
Proof.
  intros ND. destruct e as [n p]. unfold wstep.
  assert (FL : forall nm ids rs', (forall id k, reported k id rs' = []) -> (forall id, reported_metrics id rs' = []) -> (forall id, reported_stop id rs' = false) ->
     forall id, acct w (flush_reqs (w_bulks w) ++ rs') (mkW nm (flush_bulks (w_bulks w)) ids) [] id).
  { intros nm ids rs' A B C id. split; [|split]; cbn [w_bulks].
    - intros k. rewrite reported_app, flush_reported, A, flush_get, app_nil_r by exact ND. destruct k; reflexivity.
    - rewrite reported_metrics_app, flush_metrics, B. reflexivity.
    - rewrite reported_stop_app, flush_stop, C, flush_get by exact ND. cbn. rewrite !orb_false_r. reflexivity. }
  destruct (name_id n (w_names w)) as [i|] eqn:E.
  2:{ (* unknown *)
    destruct p; try (exists []; split; [exact ND|split; [intros es; cbn [attrib]; unfold names_fun at 1; rewrite E; reflexivity|
      intros id; split; [|split]; cbn; intros; rewrite ?app_nil_r, ?orb_false_r; reflexivity]]).
    exists []. destruct (hd 0 (w_ids w) =? 0) eqn:F.
    - split; [cbn; rewrite flush_keys; exact ND|]. split.
      + intros es. cbn [attrib]. unfold names_fun at 1. rewrite E, F. reflexivity.
      + intros id. rewrite <- (app_nil_r (flush_reqs _)). apply FL; reflexivity.
    - split; [cbn; rewrite flush_keys; exact ND|]. split.
      + intros es. cbn [attrib]. unfold names_fun at 1. rewrite E, F. cbn [app]. apply attrib_ext.
        intros m. unfold upd, names_fun. cbn [w_names]. rewrite name_id_app by exact E. reflexivity.
      + apply FL; reflexivity. }
  destruct p; try (
    match goal with |- exists _, (NoDup (map fst (w_bulks (mkW _ (bulk_set _ (add_item ?q _) _) _))) /\ _) => exists [(n, i, q)] end;
    split; [cbn [w_bulks]; apply bulk_set_nodup; exact ND|];
    split; [intros es; cbn [attrib]; unfold names_fun at 1; rewrite E; cbn [app]; try reflexivity|
      intros id; rewrite of_id_cons; change (of_id id []) with (@nil payload); rewrite app_nil_r;
      unfold acct; cbn [w_bulks]; rewrite bulk_get_set, (N.eqb_sym i id);
      destruct (id =? i) eqn:F; [apply N.eqb_eq in F; subst id; split; [|split]|split; [|split]];
      cbn [reported reported_metrics reported_stop flat_map existsb app metrics_of orb]; rewrite ?F, ?N.eqb_refl;
      intros; rewrite ?b_of_add, ?b_stop_add, ?orb_false_r; cbn; rewrite ?app_nil_r, ?orb_false_r; reflexivity]).
  - exists []. split; [cbn; rewrite flush_keys; exact ND|]. split.
    + intros es. cbn [attrib]. unfold names_fun at 1. rewrite E. reflexivity.
    + intros id. rewrite <- (app_nil_r (flush_reqs _)). apply FL; reflexivity.
  - f_equal. apply attrib_ext. intros m. unfold upd, names_fun. cbn [w_names]. rewrite name_id_remove. reflexivity.
  - exists [(n, i, PMetric m)]. split; [cbn [w_bulks]; apply bulk_set_nodup; exact ND|].
    split; [intros es; cbn [attrib]; unfold names_fun at 1; rewrite E; reflexivity|].
    intros id. rewrite of_id_cons. change (of_id id []) with (@nil payload). rewrite app_nil_r. unfold acct. cbn [w_bulks]. rewrite bulk_get_set.
    rewrite (N.eqb_sym id i). unfold reported, reported_metrics, reported_stop. cbn.
    destruct (i =? id) eqn:F; [apply N.eqb_eq in F; subst id|]; (split; [|split]); intros; cbn; rewrite ?app_nil_r, ?orb_false_r; try reflexivity.
    destruct k; cbn; rewrite app_nil_r; reflexivity.
Qed.
Lemma of_id_app id a b : of_id id (a ++ b) = of_id id a ++ of_id id b.
Proof. unfold of_id. rewrite filter_app, map_app. reflexivity. Qed.
Lemma acct_trans w r1 w1 a1 r2 w2 a2 id : acct w r1 w1 a1 id -> acct w1 r2 w2 a2 id -> acct w (r1 ++ r2) w2 (a1 ++ a2) id.
Proof.
  intros (A & B & C) (D & E & F). split; [|split].
  - intros k. rewrite reported_app, <- app_assoc, D, app_assoc, A, <- app_assoc, sel_app. reflexivity.
  - rewrite reported_metrics_app, B, E. unfold metrics_of. rewrite flat_map_app. reflexivity.
  - rewrite reported_stop_app, <- orb_assoc, F, orb_assoc, C. unfold ends. rewrite existsb_app, orb_assoc. reflexivity.
Qed.
Lemma acct_nil w id : acct w [] w [] id.
Proof. split; [|split]; cbn; intros; rewrite ?app_nil_r, ?orb_false_r; reflexivity. Qed.
Lemma acct_flush w id : NoDup (map fst (w_bulks w)) -> acct w (flush_reqs (w_bulks w)) (mkW (w_names w) (flush_bulks (w_bulks w)) (w_ids w)) [] id.
Proof.
  intros ND. split; [|split]; cbn [w_bulks].
  - intros k. rewrite flush_reported, flush_get by exact ND. destruct k; reflexivity.
  - apply flush_metrics.
  - rewrite flush_stop, flush_get by exact ND. reflexivity.
Qed.
Lemma wevents_spec es w : NoDup (map fst (w_bulks w)) ->
  exists att, let (w', rs) := wevents es w in
    NoDup (map fst (w_bulks w'))
    /\ (forall more, attrib (names_fun w) (w_ids w) (es ++ more) = att ++ attrib (names_fun w') (w_ids w') more)
    /\ forall id, acct w rs w' (of_id id att) id.
Proof.
  revert w. induction es as [|e es IH]; intros w ND.
  - exists []. cbn. split; [exact ND|]. split; [reflexivity|]. intros id. apply acct_nil.
  - destruct (wstep_spec e w ND) as (h & H). cbn [wevents]. destruct (wstep e w) as [w1 r1]. destruct H as (A & B & C).
    destruct (IH w1 A) as (t & H). destruct (wevents es w1) as [w2 r2]. destruct H as (D & E & F).
    exists (h ++ t). split; [exact D|]. split.
    + intros more. cbn [app]. rewrite B, E, app_assoc. reflexivity.
    + intros id. rewrite of_id_app. eapply acct_trans; eauto.
Qed.
Definition done (w : worker) : Prop := forall id, bulk_get id (w_bulks w) = bulk0.
Lemma wbatches_spec bs : forall w, NoDup (map fst (w_bulks w)) -> done w ->
  exists att, let (w', rs) := wbatches None bs w in
    NoDup (map fst (w_bulks w')) /\ done w'
    /\ (forall more, attrib (names_fun w) (w_ids w) (concat bs ++ more) = att ++ attrib (names_fun w') (w_ids w') more)
    /\ forall id, acct w rs w' (of_id id att) id.
Proof.
  induction bs as [|es bs IH]; intros w ND DN.
  - exists []. cbn. split; [exact ND|]. split; [exact DN|]. split; [reflexivity|]. intros id. apply acct_nil.
  - cbn [wbatches]. destruct (wevents_spec es w ND) as (h & H). destruct (wevents es w) as [w1 r1]. destruct H as (A & B & C).
    destruct (IH (mkW (w_names w1) (flush_bulks (w_bulks w1)) (w_ids w1))) as (t & H).
    { cbn [w_bulks]. rewrite flush_keys. exact A. }
    { intros id. apply flush_get. }
    destruct (wbatches None bs _) as [w2 r2]. destruct H as (D & E & F & G).
    exists (h ++ t). split; [exact D|]. split; [exact E|]. split.
    + intros more. cbn [concat]. rewrite <- !app_assoc, B. f_equal. apply F.
    + intros id. rewrite of_id_app. eapply acct_trans; [apply C|].
      change (of_id id t) with ([] ++ of_id id t). eapply acct_trans; [apply acct_flush; exact A|apply G].
Qed.
(** aborted: what was reported is a prefix *)
Lemma wbatches_abort bs : forall k w, NoDup (map fst (w_bulks w)) ->
  exists att rest, let (w', rs) := wbatches (Some k) bs w in
    NoDup (map fst (w_bulks w'))
    /\ attrib (names_fun w) (w_ids w) (concat bs) = att ++ rest
    /\ forall id, acct w rs w' (of_id id att) id.
Proof.
  induction bs as [|es bs IH]; intros k w ND.
  - exists [], []. cbn. split; [exact ND|]. split; [reflexivity|]. intros id. apply acct_nil.
  - cbn [wbatches]. destruct (k <? length es)%nat eqn:E.
    + destruct (wevents_spec (firstn k es) w ND) as (h & H). destruct (wevents (firstn k es) w) as [w1 r1]. destruct H as (A & B & C).
      exists h, (attrib (names_fun w1) (w_ids w1) (skipn k es ++ concat bs)). split; [exact A|]. split; [|exact C].
      rewrite <- B, app_assoc, firstn_skipn. reflexivity.
    + destruct (wevents_spec es w ND) as (h & H). destruct (wevents es w) as [w1 r1]. destruct H as (A & B & C).
      destruct (IH (k - length es)%nat (mkW (w_names w1) (flush_bulks (w_bulks w1)) (w_ids w1))) as (t & rest & H).
      { cbn [w_bulks]. rewrite flush_keys. exact A. }
      destruct (wbatches (Some _) bs _) as [w2 r2]. destruct H as (D & F & G).
      exists (h ++ t), rest. split; [exact D|]. split.
      * cbn [concat]. rewrite B, <- app_assoc. f_equal. exact F.
      * intros id. rewrite of_id_app. eapply acct_trans; [apply C|].
        change (of_id id t) with ([] ++ of_id id t). eapply acct_trans; [apply acct_flush; exact A|apply G].
Qed.

(** ** Creation precedes every report *)
Definition req_id (r : req) : N := match r with RCreate _ i | RBulk i _ | RMetric i _ => i end.
Definition creates (rs : list req) : list (N * N) := flat_map (fun r => match r with RCreate n i => [(n, i)] | _ => [] end) rs.
(** every update names an id created before; [known]: the ids created so far *)
Fixpoint ordered (known : list N) (rs : list req) : Prop :=
  match rs with [] => True | RCreate _ i :: r => ordered (i :: known) r | x :: r => In (req_id x) known /\ ordered known r end.
Lemma ordered_app k a b : ordered k (a ++ b) <-> ordered k a /\ ordered (rev (map snd (creates a)) ++ k) b.
Proof.
  revert k. induction a as [|r a IH]; intros k; [cbn; tauto|]. destruct r; cbn [app ordered creates flat_map map snd rev].
  - rewrite IH. cbn. rewrite <- app_assoc. reflexivity.
  - rewrite IH. fold (creates a). tauto.
  - rewrite IH. fold (creates a). tauto.
Qed.
Lemma ordered_incl k k' a : incl k k' -> ordered k a -> ordered k' a.
Proof.
  revert k k'. induction a as [|r a IH]; intros k k' HI; [auto|]. destruct r; cbn.
  - apply IH. intros x [->|H]; [left; reflexivity|right; auto].
  - intros (A & B). split; [auto|]. eapply IH; eauto.
  - intros (A & B). split; [auto|]. eapply IH; eauto.
Qed.
Definition winv (k : list N) (w : worker) : Prop := (forall x, In x (w_names w) -> In (snd x) k) /\ (forall x, In x (w_bulks w) -> In (fst x) k).
Lemma bulk_set_in id b l x : In x (bulk_set id b l) -> fst x = id \/ In x l.
Proof.
  induction l as [|[j y] l IH]; cbn.
  - intros [<-|[]]. left; reflexivity.
  - destruct (j =? id) eqn:E; cbn; intros [<-|H]; auto. destruct (IH H); auto.
Qed.
Lemma flush_in l x : In x (flush_bulks l) -> exists y, In y l /\ fst y = fst x.
Proof. intros H. assert (K : In (fst x) (map fst l)) by (rewrite <- flush_keys; apply in_map, H). apply in_map_iff in K. destruct K as (y & A & B). eauto. Qed.
Lemma flush_ordered k l : (forall x, In x l -> In (fst x) k) -> ordered k (flush_reqs l) /\ creates (flush_reqs l) = [].
Proof.
  unfold flush_reqs. induction l as [|[j y] l IH]; cbn; intros H; [auto|]. destruct IH as (A & B); [auto|].
  destruct (bulk_empty y); cbn; [auto|]. split; [split; [apply (H (j, y)); auto|exact A]|exact B].
Qed.
Lemma name_id_in n l i : name_id n l = Some i -> exists x, In x l /\ snd x = i.
Proof. unfold name_id. destruct (find _ l) as [x|] eqn:E; [|discriminate]. injection 1 as <-. apply find_some in E. exists x. tauto. Qed.
Lemma wstep_ordered k e w : winv k w -> let (w', rs) := wstep e w in ordered k rs /\ winv (rev (map snd (creates rs)) ++ k) w'.
Proof.
  intros (A & B). destruct e as [n p]. unfold wstep.
  destruct (flush_ordered k _ B) as (C & D).
  assert (FB : forall x, In x (flush_bulks (w_bulks w)) -> In (fst x) k).
  { intros x H. apply flush_in in H. destruct H as (y & H1 & <-). auto. }
  destruct (name_id n (w_names w)) as [i|] eqn:E.
  - assert (IK : In i k). { apply name_id_in in E. destruct E as (x & H & <-). auto. }
    assert (G : forall b x, In x (bulk_set i b (w_bulks w)) -> In (fst x) k).
    { intros b x H. apply bulk_set_in in H. destruct H as [->|H]; auto. }
    destruct p; cbn; try rewrite D; (split; [auto|]); cbn; try (split; cbn; eauto; fail).
    split; cbn; eauto. intros x H. apply filter_In in H. apply A. tauto.
  - destruct p; try (cbn; split; [exact I|split; assumption]).
    destruct (hd 0 (w_ids w) =? 0).
    + split; [exact C|]. rewrite D. split; cbn; auto.
    + rewrite ordered_app. unfold creates at 2. rewrite flat_map_app. fold (creates (flush_reqs (w_bulks w))). rewrite D. cbn.
      split; [auto|]. split; cbn.
      * intros x H. apply in_app_or in H. destruct H as [H|[<-|[]]]; cbn; auto.
      * intros x H. right. auto.
Qed.
Lemma creates_app a b : creates (a ++ b) = creates a ++ creates b.
Proof. apply flat_map_app. Qed.
Lemma known_app k a b : rev (map snd (creates (a ++ b))) ++ k = rev (map snd (creates b)) ++ rev (map snd (creates a)) ++ k.
Proof. rewrite creates_app, map_app, rev_app_distr, <- app_assoc. reflexivity. Qed.
Lemma wevents_ordered es : forall k w, winv k w -> let (w', rs) := wevents es w in ordered k rs /\ winv (rev (map snd (creates rs)) ++ k) w'.
Proof.
  induction es as [|e es IH]; intros k w H; [cbn; auto|]. cbn [wevents]. pose proof (wstep_ordered k e w H) as S1.
  destruct (wstep e w) as [w1 r1]. destruct S1 as (A & B). specialize (IH _ _ B). destruct (wevents es w1) as [w2 r2]. destruct IH as (C & D).
  rewrite ordered_app, known_app. auto.
Qed.
Lemma wbatches_ordered bs : forall a k w, winv k w -> let (w', rs) := wbatches a bs w in ordered k rs /\ winv (rev (map snd (creates rs)) ++ k) w'.
Proof.
  induction bs as [|es bs IH]; intros a k w H; [cbn; auto|].
  assert (G : forall a', let (w', rs) := (let (w0, r) := wevents es w in
               let (w', rs) := wbatches a' bs (mkW (w_names w0) (flush_bulks (w_bulks w0)) (w_ids w0)) in
               (w', r ++ flush_reqs (w_bulks w0) ++ rs)) in ordered k rs /\ winv (rev (map snd (creates rs)) ++ k) w').
  { intros a'. pose proof (wevents_ordered es k w H) as S1. destruct (wevents es w) as [w1 r1]. destruct S1 as (A & B1 & B2).
    destruct (flush_ordered _ _ B2) as (C & D).
    assert (W : winv (rev (map snd (creates r1)) ++ k) (mkW (w_names w1) (flush_bulks (w_bulks w1)) (w_ids w1))).
    { split; cbn; [exact B1|]. intros x Hx. apply flush_in in Hx. destruct Hx as (y & H1 & <-). auto. }
    specialize (IH a' _ _ W). destruct (wbatches a' bs _) as [w2 r2]. destruct IH as (E & F).
    rewrite !ordered_app, !known_app, D. cbn [map rev app]. auto. }
  cbn [wbatches]. destruct a as [n|]; [|apply G]. destruct (n <? length es)%nat; [|apply G].
  apply wevents_ordered. exact H.
Qed.

(** ** Which simulations are created *)
Fixpoint created (f : N -> option N) (ids : list N) (es : list event) : list (N * N) :=
  match es with
  | [] => []
  | (n, p) :: r =>
      match p, f n with
      | PStart, None => if hd 0 ids =? 0 then created f (tl ids) r else (n, hd 0 ids) :: created (upd f n (Some (hd 0 ids))) (tl ids) r
      | PEnd, Some _ => created (upd f n None) ids r
      | _, _ => created f ids r
      end
  end.
Lemma created_ext f g ids es : (forall n, f n = g n) -> created f ids es = created g ids es.
Proof.
  revert f g ids. induction es as [|[n p] es IH]; intros f g ids H; [reflexivity|]. cbn [created]. rewrite <- (H n).
  assert (U : forall v m, upd f n v m = upd g n v m) by (intros v m; unfold upd; destruct (m =? n); auto).
  destruct p, (f n); try (destruct (hd 0 ids =? 0)); rewrite ?(IH _ _ _ H), ?(IH _ _ _ (U _)); reflexivity.
Qed.
Lemma flush_creates l : creates (flush_reqs l) = [].
Proof. unfold flush_reqs. induction l as [|[j y] l IH]; cbn; [reflexivity|]. destruct (bulk_empty y); exact IH. Qed.
Lemma wstep_created e w es :
  let (w', rs) := wstep e w in created (names_fun w) (w_ids w) (e :: es) = creates rs ++ created (names_fun w') (w_ids w') es.
Proof.
  destruct e as [n p]. unfold wstep. destruct (name_id n (w_names w)) as [i|] eqn:E.
  - destruct p; cbn [created]; change (names_fun w n) with (name_id n (w_names w)); rewrite ?E; cbn [creates flat_map app w_ids]; rewrite ?flush_creates; try reflexivity.
    apply created_ext. intros m. unfold upd, names_fun. cbn [w_names]. rewrite name_id_remove. reflexivity.
  - destruct p; try (cbn [created]; change (names_fun w n) with (name_id n (w_names w)); rewrite ?E; reflexivity).
    destruct (hd 0 (w_ids w) =? 0) eqn:F; cbn [created]; change (names_fun w n) with (name_id n (w_names w)); rewrite E, F; rewrite ?creates_app, flush_creates; [reflexivity|].
    cbn. f_equal. apply created_ext. intros m. unfold upd, names_fun. cbn [w_names]. rewrite name_id_app by exact E. reflexivity.
Qed.
Lemma wevents_created es : forall w more,
  let (w', rs) := wevents es w in created (names_fun w) (w_ids w) (es ++ more) = creates rs ++ created (names_fun w') (w_ids w') more.
Proof.
  induction es as [|e es IH]; intros w more; [reflexivity|]. cbn [wevents app]. pose proof (wstep_created e w (es ++ more)) as S1.
  destruct (wstep e w) as [w1 r1]. specialize (IH w1 more). destruct (wevents es w1) as [w2 r2].
  rewrite S1, IH, creates_app, app_assoc. reflexivity.
Qed.
Lemma wbatches_created bs : forall w, created (names_fun w) (w_ids w) (concat bs) = creates (snd (wbatches None bs w)).
Proof.
  induction bs as [|es bs IH]; intros w; [reflexivity|]. cbn [concat wbatches]. pose proof (wevents_created es w (concat bs)) as S1.
  destruct (wevents es w) as [w1 r1]. rewrite S1.
  specialize (IH (mkW (w_names w1) (flush_bulks (w_bulks w1)) (w_ids w1))).
  destruct (wbatches None bs _) as [w2 r2]. cbn [snd] in *. rewrite !creates_app, flush_creates, <- IH. reflexivity.
Qed.
Lemma attrib_created es : forall f ids n i p, In (n, i, p) (attrib f ids es) -> f n = Some i \/ In (n, i) (created f ids es).
Proof.
  induction es as [|[m q] es IH]; intros f ids n i p; [intros []|]. cbn [attrib created].
  assert (K : forall v g, (forall x, g x = upd f m v x) -> forall y, (v = Some y \/ v = None) -> forall jds, In (n, i, p) (attrib g jds es) ->
     f n = Some i \/ (n = m /\ v = Some i) \/ In (n, i) (created g jds es)).
  { intros v g G y _ jds H. apply IH in H. destruct H as [H|H]; auto. rewrite G in H. unfold upd in H.
    destruct (n =? m) eqn:E; [apply N.eqb_eq in E; auto|auto]. }
  destruct q, (f m) as [j|] eqn:E; try apply IH; try (intros [H|H]; [injection H as <- <- <-; auto|apply IH in H; exact H]).
  - destruct (hd 0 ids =? 0); [apply IH|]. intros H. apply (K (Some (hd 0 ids)) _ ltac:(reflexivity) (hd 0 ids)) in H; [|auto].
    destruct H as [H|[(-> & H)|H]]; auto; right; [injection H as <-; left; reflexivity|right; exact H].
  - intros [H|H]; [injection H as <- <- <-; auto|].
    apply (K None _ ltac:(reflexivity) 0) in H; [|auto]. destruct H as [H|[(_ & H)|H]]; auto. discriminate.
Qed.
Lemma attrib_src es : forall f ids n i p, In (n, i, p) (attrib f ids es) -> f n = Some i \/ In i ids.
Proof.
  assert (HT : forall (ids : list N) x, In x (tl ids) -> In x ids) by (intros [|? ?]; cbn; auto).
  induction es as [|[m q] es IH]; intros f ids n i p; [intros []|]. cbn [attrib].
  destruct q, (f m) as [j|] eqn:E; try apply IH; try (intros [H|H]; [injection H as <- <- <-; auto|apply IH in H; exact H]).
  - destruct (hd 0 ids =? 0) eqn:F; intros H; apply IH in H.
    + destruct H; auto.
    + destruct H as [H|H]; auto. unfold upd in H. destruct (n =? m); auto. injection H as <-. right.
      destruct ids; [discriminate|left; reflexivity].
  - intros [H|H]; [injection H as <- <- <-; auto|]. apply IH in H. destruct H as [H|H]; auto. unfold upd in H.
    destruct (n =? m); auto. discriminate.
Qed.
(** an id belongs to one simulation *)
Lemma attrib_unique es : forall f ids, NoDup ids -> (forall n i, f n = Some i -> ~ In i ids) -> (forall n m i, f n = Some i -> f m = Some i -> n = m) ->
  forall n m i p q, In (n, i, p) (attrib f ids es) -> In (m, i, q) (attrib f ids es) -> n = m.
Proof.
  assert (HT : forall (ids : list N) x, In x (tl ids) -> In x ids) by (intros [|? ?]; cbn; auto).
  assert (HN : forall ids : list N, NoDup ids -> NoDup (tl ids)) by (intros [|? ?] H; [exact H|inversion H; assumption]).
  induction es as [|[k r] es IH]; intros f ids ND F1 F2 n m i p q; [intros []|]. cbn [attrib].
  assert (EQ : forall f', (forall x j, f' x = Some j -> f x = Some j) -> forall j (E : f k = Some j),
     In (n, i, p) ((k, j, r) :: attrib f' ids es) -> In (m, i, q) ((k, j, r) :: attrib f' ids es) -> n = m).
  { intros f' G j E A B.
    assert (X : forall x y, In (x, j, y) (attrib f' ids es) -> x = k).
    { intros x y H. apply attrib_src in H. destruct H as [H|H]; [eapply F2; eauto|]. exfalso. eapply F1; eauto. }
    destruct A as [A|A]; destruct B as [B|B].
    - injection A as <- <- <-. injection B as <- <-. reflexivity.
    - injection A as <- <- <-. symmetry. eauto.
    - injection B as <- <- <-. eauto.
    - revert A B. apply IH; eauto. }
  assert (U : forall x j, upd f k None x = Some j -> f x = Some j).
  { intros x j. unfold upd. destruct (x =? k); [discriminate|auto]. }
  destruct r, (f k) as [j|] eqn:E; try (apply IH; assumption); try (apply EQ; auto; fail).
  destruct (hd 0 ids =? 0) eqn:Z.
  - apply IH; auto. intros x y H K. apply (F1 _ _ H). auto.
  - destruct ids as [|y ids]; [discriminate|]. cbn [hd tl] in *. inversion ND as [|? ? A B]; subst. apply IH; auto.
    + intros x j H. unfold upd in H. destruct (x =? k); [injection H as <-; exact A|]. intros K. apply (F1 _ _ H). right; exact K.
    + intros a b j. unfold upd. destruct (a =? k) eqn:Ea, (b =? k) eqn:Eb; intros X Y.
      * lia.
      * injection X as <-. exfalso. apply (F1 _ _ Y). left; reflexivity.
      * injection Y as <-. exfalso. apply (F1 _ _ X). left; reflexivity.
      * eauto.
Qed.

(** ** The registry callbacks *)
Definition fset (f : N -> list N) (n : N) (v : list N) : N -> list N := fun m => if m =? n then v else f m.
Definition rm (p : N) (l : list N) : list N := filter (fun x => negb (x =? p)) l.
(** Callbacks as a registry delivers them when, whenever a participant leaves and others stay, one of these has published a
    status. [conn], [stat]: the connected participants of a simulation and those that have published a status. *)
Fixpoint regular (conn stat : N -> list N) (l : list dinput) : Prop :=
  match l with
  | [] => True
  | DConnected n p :: r => regular (fset conn n (p :: conn n)) stat r
  | DDisconnected n p c :: r =>
      In p (conn n) /\ (rm p (conn n) <> [] -> rm p (stat n) <> [])
      /\ regular (fset conn n (rm p (conn n))) (fset stat n (rm p (stat n))) r
  | DStatus n p _ _ :: r => In p (conn n) /\ regular conn (fset stat n (p :: stat n)) r
  | DRequired n _ _ :: r | DService n _ _ :: r | DMetric n _ :: r => conn n <> [] /\ regular conn stat r
  end.
Lemma sim_get_set n t m s : sim_get m (sim_set n t s) = if m =? n then t else sim_get m s.
Proof.
  unfold sim_get. induction s as [|[j x] l IH]; cbn.
  - rewrite N.eqb_sym. destruct (m =? n); reflexivity.
  - destruct (j =? n) eqn:E; cbn.
    + apply N.eqb_eq in E; subst. rewrite N.eqb_sym. destruct (m =? n) eqn:F; reflexivity.
    + destruct (j =? m) eqn:F; cbn; [|exact IH]. apply N.eqb_eq in F; subst. rewrite E. reflexivity.
Qed.
Lemma sim_get_remove n m s : sim_get m (sim_remove n s) = if m =? n then tr_init else sim_get m s.
Proof.
  unfold sim_get, sim_remove. induction s as [|[j x] l IH]; cbn; [destruct (m =? n); reflexivity|].
  destruct (j =? n) eqn:E; cbn.
  - rewrite IH. apply N.eqb_eq in E; subst. destruct (m =? n) eqn:F; [reflexivity|]. rewrite N.eqb_sym, F. reflexivity.
  - destruct (j =? m) eqn:F; cbn; [|exact IH]. apply N.eqb_eq in F; subst. rewrite E. reflexivity.
Qed.
Definition keys (t : tracker) : list N := map fst (tr_cache t).
Lemma cache_set_keys p v c q : In q (map fst (cache_set p v c)) <-> q = p \/ In q (map fst c).
Proof.
  induction c as [|[k x] c IH]; cbn; [intuition|]. destruct (k =? p) eqn:E; cbn.
  - apply N.eqb_eq in E; subst. intuition.
  - rewrite IH. intuition.
Qed.
Lemma required_keys ns c t : keys (snd (update_required ns c t)) = keys t.
Proof. reflexivity. Qed.
Lemma tr_get_in p t s : tr_get p t = Some s -> In p (keys t).
Proof.
  unfold tr_get, keys. destruct (find _ _) as [x|] eqn:E; [|discriminate]. intros _. apply find_some in E. destruct E as (A & B).
  apply N.eqb_eq in B. subst. apply in_map, A.
Qed.
Lemma tr_get_notin p t : tr_get p t = None -> ~ In p (keys t).
Proof.
  unfold tr_get, keys. destruct (find _ _) as [x|] eqn:E; [discriminate|]. intros _ H. apply in_map_iff in H. destruct H as (x & A & B).
  apply (find_none _ _ E) in B. cbn in B. lia.
Qed.
Lemma status_keys p st sp t q : In q (keys (snd (update_status p st sp t))) <-> q = p \/ In q (keys t).
Proof.
  unfold update_status, get_or_create. destruct (tr_get p t) as [old|] eqn:G.
  - pose proof (tr_get_in _ _ _ G) as IP.
    assert (X : q = p \/ In q (keys t) <-> In q (keys t)) by (split; [intros [->|]; auto|auto]).
    destruct st as [[]|]; try (cbn [snd]; rewrite X; reflexivity);
      (destruct (lstate_eqb (fst old) Shutdown); [cbn [snd]; rewrite X; reflexivity|]);
      match goal with |- context [if ?b then _ else _] => destruct b end;
      try (match goal with |- context [if ?b then _ else _] => destruct b end); cbn [snd];
      unfold keys; cbn [tr_cache set_sys]; rewrite cache_set_keys; reflexivity.
  - destruct st as [[]|]; try (cbn; unfold keys; cbn [tr_cache]; rewrite cache_set_keys; reflexivity); cbn [fst lstate_eqb];
      try (match goal with |- context [if ?b then _ else _] => destruct b end); cbn [snd];
      unfold keys; cbn [tr_cache set_sys]; rewrite !cache_set_keys; intuition.
Qed.
Lemma remove_keys p c t q : In q (keys (snd (remove_participant p c t))) <-> In q (rm p (keys t)).
Proof.
  unfold remove_participant, rm, keys. destruct (tr_get p t) eqn:G; cbn [snd set_sys tr_cache].
  - rewrite in_map_iff, filter_In, in_map_iff. split.
    + intros (x & <- & H). apply filter_In in H. destruct H. split; [eexists; eauto|auto].
    + intros ((x & <- & H) & K). exists x. split; [reflexivity|]. apply filter_In. auto.
  - apply tr_get_notin in G. rewrite filter_In. split; [|tauto]. intros H. split; [exact H|].
    destruct (q =? p) eqn:E; [|reflexivity]. apply N.eqb_eq in E. subst. tauto.
Qed.
Lemma tr_empty_keys t : tr_empty t = true <-> keys t = [].
Proof. unfold tr_empty, keys. destruct (tr_cache t); cbn; split; (reflexivity || discriminate). Qed.

Definition plain (p : payload) : bool := match p with PStart | PEnd => false | _ => true end.
Definition not_start (e : event) : bool := match snd e with PStart => false | _ => true end.
Definition strip (l : list (N * N * payload)) : list event := map (fun x => (fst (fst x), snd x)) l.
Lemma attrib_plain f ids n i l es : f n = Some i -> forallb plain l = true ->
  strip (attrib f ids (map (pair n) l ++ es)) = map (pair n) l ++ strip (attrib f ids es).
Proof.
  intros H. induction l as [|p l IH]; [reflexivity|]. cbn [forallb map app]. intros K. apply andb_prop in K. destruct K as (A & B).
  cbn [attrib]. rewrite H. destruct p; try discriminate; cbn [strip map fst snd]; f_equal; apply IH, B.
Qed.
Lemma not_start_plain n l : forallb plain l = true -> filter not_start (map (pair n) l) = map (pair n) l.
Proof.
  induction l as [|p l IH]; [reflexivity|]. cbn [forallb map filter]. intros K. apply andb_prop in K. destruct K as (A & B).
  rewrite (IH B). destruct p; try discriminate; reflexivity.
Qed.
Lemma rm_In p q l : In q (rm p l) <-> In q l /\ q <> p.
Proof. unfold rm. rewrite filter_In. split; intros (A & B); split; auto; lia. Qed.
Lemma none_in {A} (l : list A) : (forall x, ~ In x l) -> l = [].
Proof. destruct l as [|a l]; [reflexivity|]. intros H. exfalso. apply (H a). left; reflexivity. Qed.
Theorem regular_attributed l : forall conn stat s f ids,
  regular conn stat l ->
  (forall n p, In p (keys (sim_get n s)) <-> In p (stat n)) ->
  (forall n p, In p (stat n) -> In p (conn n)) ->
  (forall n, f n = None <-> conn n = []) ->
  Forall (fun i => i <> 0) ids -> (length (filter (fun e => negb (not_start e)) (snd (drun l s))) <= length ids)%nat ->
  strip (attrib f ids (snd (drun l s))) = filter not_start (snd (drun l s)).
Proof.
  induction l as [|i l IH]; intros conn stat s f ids R K SC FC NZ LN; [reflexivity|].
  assert (SOME : forall n, conn n <> [] -> exists i, f n = Some i).
  { intros n H. destruct (f n) as [j|] eqn:E; [eauto|]. apply FC in E. contradiction. }
  (* a callback with plain events of a live simulation *)
  assert (PL : forall n evs s' stat', conn n <> [] -> forallb plain evs = true -> dstep i s = (s', map (pair n) evs) ->
     regular conn stat' l -> (forall m p, In p (keys (sim_get m s')) <-> In p (stat' m)) -> (forall m p, In p (stat' m) -> In p (conn m)) ->
     strip (attrib f ids (snd (drun (i :: l) s))) = filter not_start (snd (drun (i :: l) s))).
  { intros n evs s' stat' CN PE DS RR K' SC'. cbn [drun] in *. rewrite DS in *. destruct (SOME n CN) as (j & FJ).
    specialize (IH conn stat' s' f ids RR K' SC' FC NZ). destruct (drun l s') as [s2 es]. cbn [snd] in *.
    rewrite (attrib_plain f ids n j), filter_app, not_start_plain, IH by (auto; rewrite filter_app, app_length in LN; lia). reflexivity. }
  destruct i as [n p|n p c|n ns c|n p st sp|n d sk|n m]; cbn [regular] in R.
  - (* connected *)
    cbn [drun dstep] in *. set (s' := sim_set n (sim_get n s) s) in *.
    assert (GS : forall m, sim_get m s' = sim_get m s).
    { intros m. unfold s'. rewrite sim_get_set. destruct (m =? n) eqn:E; [|reflexivity]. apply N.eqb_eq in E. subst. reflexivity. }
    assert (K' : forall m p0, In p0 (keys (sim_get m s')) <-> In p0 (stat m)) by (intros m p0; rewrite GS; apply K).
    assert (SC' : forall m p0, In p0 (stat m) -> In p0 (fset conn n (p :: conn n) m)).
    { intros m p0 H. unfold fset. destruct (m =? n) eqn:E; [apply N.eqb_eq in E; subst; right; auto|auto]. }
    assert (FC' : forall f' : N -> option N, (forall m, f' m = None <-> (f m = None /\ m <> n)) -> forall m, f' m = None <-> fset conn n (p :: conn n) m = []).
    { intros f' H m. rewrite H, FC. unfold fset. destruct (m =? n) eqn:E; [|split; [tauto|split; [auto|lia]]].
      apply N.eqb_eq in E; subst. split; [intros (_ & X); congruence|discriminate]. }
    destruct (drun l s') as [s2 es] eqn:DR. cbn [snd] in *.
    destruct (f n) as [j|] eqn:FN.
    + assert (FC2 : forall m, f m = None <-> fset conn n (p :: conn n) m = []).
      { apply FC'. intros m. split; [|tauto]. intros H. split; [exact H|]. intros ->. congruence. }
      specialize (IH _ stat s' f ids R K' SC' FC2 NZ). rewrite DR in IH. cbn [snd] in IH.
      destruct (tr_empty (sim_get n s)); cbn [app attrib filter not_start snd] in *; rewrite FN; cbn [strip map fst snd];
        fold (strip (attrib f ids es)); rewrite IH by (cbn in LN; lia); reflexivity.
    + assert (TE : tr_empty (sim_get n s) = true).
      { apply tr_empty_keys. apply none_in. intros x H. apply K, SC in H. apply FC in FN. rewrite FN in H. exact H. }
      rewrite TE in *. cbn [app attrib]. rewrite FN. cbn in LN. destruct ids as [|j ids]; [cbn in LN; lia|].
      inversion NZ as [|? ? NZ1 NZ2]; subst. cbn [hd tl]. apply N.eqb_neq in NZ1 as NZ1'. rewrite NZ1'.
      assert (UN : upd f n (Some j) n = Some j) by (unfold upd; rewrite N.eqb_refl; reflexivity). rewrite UN. cbn [strip map fst snd filter not_start].
      assert (FC2 : forall m, upd f n (Some j) m = None <-> fset conn n (p :: conn n) m = []).
      { apply FC'. intros m. unfold upd. destruct (m =? n) eqn:E; [split; [discriminate|lia]|split; [split; [assumption|lia]|tauto]]. }
      specialize (IH _ stat s' (upd f n (Some j)) ids R K' SC' FC2 NZ2). rewrite DR in IH. cbn [snd] in IH.
      fold (strip (attrib (upd f n (Some j)) ids es)). rewrite IH by (cbn in LN; lia). reflexivity.
  - (* disconnected *)
    destruct R as (IP & ST & R). cbn [drun dstep] in *.
    pose proof (fun q => remove_keys p c (sim_get n s) q) as RK. destruct (remove_participant p c (sim_get n s)) as [ch t]. cbn [snd] in RK.
    assert (CN : conn n <> []) by (intros E; rewrite E in IP; exact IP). destruct (SOME n CN) as (j & FJ).
    set (ev := if ch then [(n, PSystem (tr_sys t))] else []) in *.
    assert (EV : exists evs, ev = map (pair n) evs /\ forallb plain evs = true).
    { unfold ev. destruct ch; [exists [PSystem (tr_sys t)]|exists []]; auto. }
    destruct EV as (evs & EV & PE). rewrite EV in *. clear ev EV.
    assert (TK : forall q, In q (keys t) <-> In q (rm p (stat n))).
    { intros q. rewrite RK, !rm_In, K. reflexivity. }
    assert (SC' : forall m q, In q (fset stat n (rm p (stat n)) m) -> In q (fset conn n (rm p (conn n)) m)).
    { intros m q. unfold fset. destruct (m =? n); [|apply SC]. rewrite !rm_In. intros (A & B). auto. }
    destruct (tr_empty t) eqn:TE.
    + apply tr_empty_keys in TE.
      assert (RC : rm p (conn n) = []).
      { destruct (rm p (conn n)) eqn:E; [reflexivity|]. exfalso. apply ST; [discriminate|]. apply none_in. intros x H. apply TK in H. rewrite TE in H. exact H. }
      assert (RS : rm p (stat n) = []) by (apply none_in; intros x H; apply TK in H; rewrite TE in H; exact H).
      set (s' := sim_remove n (sim_set n t s)) in *.
      assert (K' : forall m q, In q (keys (sim_get m s')) <-> In q (fset stat n (rm p (stat n)) m)).
      { intros m q. unfold s', fset. rewrite sim_get_remove. destruct (m =? n) eqn:E; [rewrite RS; reflexivity|]. rewrite sim_get_set, E. apply K. }
      assert (FC2 : forall m, upd f n None m = None <-> fset conn n (rm p (conn n)) m = []).
      { intros m. unfold upd, fset. destruct (m =? n); [rewrite RC; tauto|apply FC]. }
      specialize (IH _ _ s' (upd f n None) ids R K' SC' FC2 NZ). destruct (drun l s') as [s2 es]. cbn [snd] in *.
      rewrite <- app_assoc. rewrite (attrib_plain f ids n j) by auto. rewrite !filter_app, not_start_plain by auto. f_equal.
      cbn [app attrib filter not_start snd]. rewrite FJ. cbn [strip map fst snd]. f_equal. apply IH.
      rewrite !filter_app, !app_length in LN. lia.
    + assert (K' : forall m q, In q (keys (sim_get m (sim_set n t s))) <-> In q (fset stat n (rm p (stat n)) m)).
      { intros m q. unfold fset. rewrite sim_get_set. destruct (m =? n) eqn:E; [apply TK|apply K]. }
      assert (FC2 : forall m, f m = None <-> fset conn n (rm p (conn n)) m = []).
      { intros m. unfold fset. destruct (m =? n) eqn:E; [|apply FC]. apply N.eqb_eq in E; subst. rewrite FJ. split; [discriminate|].
        intros H. exfalso. assert (keys t = []); [|apply tr_empty_keys in H0; congruence].
        apply none_in. intros x Hx. apply TK, rm_In in Hx. destruct Hx as (A & B). assert (In x (rm p (conn n))) by (apply rm_In; auto). rewrite H in H0. exact H0. }
      specialize (IH _ _ (sim_set n t s) f ids R K' SC' FC2 NZ). destruct (drun l (sim_set n t s)) as [s2 es]. cbn [snd] in *.
      rewrite (attrib_plain f ids n j), filter_app, not_start_plain, IH by (auto; rewrite filter_app, app_length in LN; lia). reflexivity.
  - (* required *)
    destruct R as (CN & R). pose proof (required_keys ns c (sim_get n s)) as RK. cbn [dstep] in PL.
    destruct (update_required ns c (sim_get n s)) as [ch t]. cbn [snd] in RK.
    apply (PL n (if ch then [PSystem (tr_sys t)] else []) (sim_set n t s) stat); auto.
    + destruct ch; reflexivity.
    + destruct ch; reflexivity.
    + intros m q. rewrite sim_get_set. destruct (m =? n) eqn:E; [apply N.eqb_eq in E; subst; rewrite RK|]; apply K.
  - (* status *)
    destruct R as (IP & R). pose proof (fun q => status_keys p st sp (sim_get n s) q) as RK. cbn [dstep] in PL.
    destruct (update_status p st sp (sim_get n s)) as [r t]. cbn [snd] in RK.
    assert (CN : conn n <> []) by (intros E; rewrite E in IP; exact IP).
    assert (K' : forall m q, In q (keys (sim_get m (sim_set n t s))) <-> In q (fset stat n (p :: stat n) m)).
    { intros m q. rewrite sim_get_set. unfold fset. destruct (m =? n) eqn:E; [|apply K]. rewrite RK, K. cbn. intuition. }
    assert (SC' : forall m q, In q (fset stat n (p :: stat n) m) -> In q (conn m)).
    { intros m q. unfold fset. destruct (m =? n) eqn:E; [|apply SC]. apply N.eqb_eq in E; subst. intros [<-|H]; auto. }
    apply (PL n (match r, st with
       | Some (pc, sc), Some x => (if pc then [PStatus p x sp] else []) ++ (if sc then [PSystem (tr_sys t)] else [])
       | _, _ => [] end) (sim_set n t s) (fset stat n (p :: stat n))); auto.
    + destruct r as [[[] []]|], st; reflexivity.
    + destruct r as [[[] []]|], st; reflexivity.
  - destruct R as (CN & R). apply (PL n (if sk then [] else [PService d]) s stat); auto; cbn; destruct sk; reflexivity.
  - destruct R as (CN & R). apply (PL n [PMetric m] s stat); auto.
Qed.
