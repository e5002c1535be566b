From Coq Require Import String List Arith Bool Lia.
Import ListNotations.
From Verif Require Import Base NetModel NetSpec NetProofs.
Open Scope nat_scope.
Open Scope list_scope.

(** What a sends to b on link k arrives in order: an invariant that relates the events to the channel *)

Definition data_for (rc : list key) (k : key) (w : wire) : list message :=
  match w with
  | WData i _ m => match nth_error rc i with Some x => if key_dec x k then [m] else [] | None => [] end
  | _ => []
  end.
Definition pend (n : net) (a b : nat) (k : key) : list message := flat_map (data_for (rcvs n b) k) (n_chan n a b).

(** what must have been transmitted, from the events *)
Record tst := mkT { ts_sub : option (list message); ts_last : option message; ts_hist : bool }.
Definition tst0 := mkT None None true.
Definition hist_of (k : key) (st : tst) : list message :=
  if has_history (fst k) then match ts_last st with Some m => if ts_hist st then [m] else [] | None => [] end else [].
Definition save_t (k : key) (m : message) (st : tst) : option message := if has_history (fst k) && ts_hist st then Some m else ts_last st.
Definition track (a b : nat) (k : key) (st : tst) (e : event) : tst :=
  match e with
  | EPub a' k' m => if is a a' k k' then mkT (option_map (fun l => l ++ [m]) (ts_sub st)) (save_t k m st) (ts_hist st) else st
  | EPubTo a' k' c m =>
      if is a a' k k' && negb (c =? a) then
        mkT (if c =? b then option_map (fun l => l ++ [m]) (ts_sub st) else ts_sub st) (save_t k m st) (ts_hist st)
      else st
  | ESub a' b' k' =>
      if is a a' k k' && (b' =? b) then mkT (match ts_sub st with None => Some (hist_of k st) | s => s end) (ts_last st) (ts_hist st) else st
  | EHist a' k' h => if is a a' k k' && has_history (fst k) then mkT (ts_sub st) (ts_last st) (negb (h =? 0)) else st
  | _ => st
  end.
Definition tracked (a b : nat) (k : key) (tr : list event) : tst := fold_left (track a b k) tr tst0.
Lemma tracked_app : forall a b k tr es, tracked a b k (tr ++ es) = fold_left (track a b k) es (tracked a b k tr).
Proof. intros. unfold tracked. apply fold_left_app. Qed.
Lemma ins_app : forall b k a t u, ins b k a (t ++ u) = ins b k a t ++ ins b k a u.
Proof. intros. unfold ins. apply flat_map_app. Qed.

Section WithHash.
Variable hash : nat -> nat.
Variable throws : handlers.
Variable isname : nat -> Prop.
Hypothesis Hinj : inj_on isname hash.
Variables (a b : nat) (k : key).
Hypothesis Hab : a <> b.
Hypothesis Hk : unique_type (fst k).

Definition has_b (n : net) : Prop := exists i, In (b, i) (remote n a k).
Definition ord (n : net) : Prop :=
  let st := tracked a b k (n_trace n) in
  ts_last st = l_last (links n a k) /\ ts_hist st = l_hist (links n a k) /\
  match ts_sub st with
  | None => pend n a b k = [] /\ ins b k a (n_trace n) = [] /\ ~ has_b n
  | Some l => prefix (ins b k a (n_trace n) ++ pend n a b k) l /\
              (~ In (ELeft a b) (n_trace n) -> ins b k a (n_trace n) ++ pend n a b k = l /\ has_b n)
  end.

Definition neutral (e : event) : Prop := (forall st, track a b k st e = st) /\ ins b k a [e] = [] /\ e <> ELeft a b.
Lemma neutral_track : forall es st, Forall neutral es -> fold_left (track a b k) es st = st.
Proof. intros es. induction es as [|e es IH]; intros st F; [reflexivity|]. inversion F as [|? ? (H & _) F']; subst. cbn [fold_left]. rewrite H. now apply IH. Qed.
Lemma neutral_ins : forall es, Forall neutral es -> ins b k a es = [].
Proof. intros es. induction es as [|e es IH]; intros F; [reflexivity|]. inversion F as [|? ? (_ & H & _) F']; subst. change (e :: es) with ([e] ++ es). rewrite ins_app, H. now apply IH. Qed.
Lemma neutral_left : forall es, Forall neutral es -> ~ In (ELeft a b) es.
Proof. intros es F I. rewrite Forall_forall in F. destruct (F _ I) as (_ & _ & H). congruence. Qed.

(** a change that does not concern the pair *)
Lemma ord_ext : forall n n' es,
  n_trace n' = n_trace n ++ es -> Forall neutral es ->
  l_last (links n' a k) = l_last (links n a k) -> l_hist (links n' a k) = l_hist (links n a k) ->
  (forall i, In (b, i) (remote n' a k) <-> In (b, i) (remote n a k)) -> pend n' a b k = pend n a b k ->
  ord n -> ord n'.
Proof.
  intros n n' es ET F EL EH ER EP O. unfold ord in *. rewrite ET, tracked_app, neutral_track, ins_app, (neutral_ins es), app_nil_r, EL, EH, EP by exact F.
  destruct O as (O1 & O2 & O3). split; [exact O1|]. split; [exact O2|].
  assert (B : has_b n' <-> has_b n) by (unfold has_b; split; intros [i I]; exists i; now apply ER).
  destruct (ts_sub _); rewrite B; [|exact O3]. destruct O3 as [O3 O4]. split; [exact O3|]. intros N. apply O4. intros I. apply N. apply in_or_app. now left.
Qed.

(** ** The channel *)
Lemma data_for_ext : forall rc r w, (forall i t m, w = WData i t m -> exists x, nth_error rc i = Some x) -> data_for (rc ++ r) k w = data_for rc k w.
Proof. intros rc r w H. destruct w; cbn [data_for]; try reflexivity. destruct (H _ _ _ eq_refl) as [x E]. rewrite E. now rewrite (nth_error_ext _ r _ _ E). Qed.
Lemma pend_ext : forall n n' ws, wf n -> (exists r, rcvs n' b = rcvs n b ++ r) -> n_chan n' a b = n_chan n a b ++ ws ->
  flat_map (data_for (rcvs n' b) k) ws = [] -> pend n' a b k = pend n a b k.
Proof.
  intros n n' ws W [r Er] EC H. unfold pend. rewrite EC, flat_map_app, H, app_nil_r, Er. 
  assert (G : forall w, In w (n_chan n a b) -> data_for (rcvs n b ++ r) k w = data_for (rcvs n b) k w).
  { intros w I. apply data_for_ext. intros i t m ->. destruct (wf_chan n W a b _ I) as [(x & E & _) _]. now exists x. }
  revert G. generalize (n_chan n a b). induction l as [|w l IH]; intros G; [reflexivity|]. cbn [flat_map]. rewrite IH, G; [reflexivity|now left|]. intros v I. apply G. now right.
Qed.
Lemma pend_same : forall n n', rcvs n' b = rcvs n b -> n_chan n' a b = n_chan n a b -> pend n' a b k = pend n a b k.
Proof. intros n n' E1 E2. unfold pend. now rewrite E1, E2. Qed.
Lemma no_data : forall rc ws, (forall w, In w ws -> match w with WData _ _ _ => False | _ => True end) -> flat_map (data_for rc k) ws = [].
Proof.
  intros rc ws. induction ws as [|w ws IH]; intros H; [reflexivity|]. cbn [flat_map]. rewrite IH by (intros v I; apply H; now right). specialize (H w (or_introl eq_refl)). now destruct w.
Qed.

(** ** Parts of a registration *)
Lemma neutral_reg : forall c k0 s, neutral (EReg c k0 s).
Proof. repeat split. discriminate. Qed.
Lemma ord_svc : forall n c d, ord n -> ord (set_part c (mkP (p_links (n_part n c)) (p_rcvs (n_part n c)) (p_peers (n_part n c)) (p_senders (n_part n c)) (p_svcs (n_part n c) ++ [d])) n).
Proof.
  intros n c d O. set (n' := set_part _ _ _). apply (ord_ext n n' []); [now rewrite app_nil_r|constructor| | | |apply pend_same|exact O]; try reflexivity;
  unfold n', remote, links, rcvs; rewrite set_part_part; destruct (Nat.eqb_spec a c) as [->|]; try reflexivity; destruct (Nat.eqb_spec b c) as [->|]; reflexivity.
Qed.
Lemma ord_sender : forall n c k0, ord n -> ord (register_sender c k0 n).
Proof.
  intros n c k0 O. unfold register_sender. set (n' := set_part _ _ _). apply (ord_ext n n' []); [now rewrite app_nil_r|constructor| | | |apply pend_same|exact O]; try reflexivity;
  unfold n', remote, links, rcvs; rewrite set_part_part; destruct (Nat.eqb_spec a c) as [->|]; try reflexivity; destruct (Nat.eqb_spec b c) as [->|]; reflexivity.
Qed.
Lemma rr_link_fields : forall c s k0 n, l_last (links (register_receiver c s k0 n) a k) = l_last (links n a k) /\
  l_hist (links (register_receiver c s k0 n) a k) = l_hist (links n a k) /\ remote (register_receiver c s k0 n) a k = remote n a k.
Proof.
  intros. unfold remote. rewrite rr_links. destruct (Nat.eqb_spec a c) as [->|]; cbn [andb]; [|auto]. destruct (key_eqb k k0) eqn:E; [|auto].
  apply key_eqb_iff in E as ->. now rewrite add_local_last, add_local_hist, add_local_remote.
Qed.
Lemma ord_receiver : forall n c s k0, wf n -> ord n -> ord (register_receiver c s k0 n).
Proof.
  intros n c s k0 W O. destruct (rr_link_fields c s k0 n) as (E1 & E2 & E3).
  eapply ord_ext; [apply rr_trace| |exact E1|exact E2|intros; now rewrite E3| |exact O].
  - destruct (new_local n c s k0); repeat constructor; discriminate.
  - eapply pend_ext; [exact W| |apply rr_chan|].
    + rewrite rr_rcvs. destruct (Nat.eqb_spec b c) as [->|]; cbn [andb]; [|exists []; now rewrite app_nil_r]. destruct (new_rcv n c k0); [now exists [k0]|exists []; now rewrite app_nil_r].
    + apply no_data. intros w. destruct (_ && _); [|intros []]. rewrite in_sel, in_map_iff. intros (q & E & _). injection E as _ <-. exact I.
Qed.

(** ** Subscriptions *)
Lemma key_of_idx : forall n i x k0, nth_error (rcvs n b) i = Some x -> same_id x k0 = true -> k0 <> k -> x <> k.
Proof. intros n i x k0 _ S N ->. apply N. apply (unique_same k0 k Hk). now apply same_id_sym. Qed.
Lemma data_other : forall n i x t m k0, nth_error (rcvs n b) i = Some x -> same_id x k0 = true -> k0 <> k -> data_for (rcvs n b) k (WData i t m) = [].
Proof. intros n i x t m k0 E S N. cbn [data_for]. rewrite E. destruct (key_dec x k) as [->|]; [|reflexivity]. destruct (key_of_idx n i k k0 E S N eq_refl). Qed.
Lemma data_this : forall n i x t m, nth_error (rcvs n b) i = Some x -> same_id x k = true -> data_for (rcvs n b) k (WData i t m) = [m].
Proof. intros n i x t m E S. cbn [data_for]. rewrite E, (unique_same x k Hk S). destruct (key_dec k k); congruence. Qed.
Lemma one_idx : forall n i j, wf n -> In (b, i) (remote n a k) -> (exists x, nth_error (rcvs n b) j = Some x /\ same_id x k = true) -> i = j.
Proof.
  intros n i j W I (y & Ey & Sy). destruct (wf_remote n W a b i k I) as (_ & x & Ex & Sx). apply (wf_rcv n W b i j x y Ex Ey). eapply same_id_trans; [exact Sx|now apply same_id_sym].
Qed.

Lemma ord_keep_link : forall n c k0, ord n -> ord (set_part c (set_link k0 (links n c k0) (n_part n c)) n).
Proof.
  intros n c k0 O. set (n' := set_part _ _ _). assert (E : links n' a k = links n a k).
  { unfold n'. rewrite links_set. destruct (Nat.eqb_spec a c) as [->|]; cbn [andb]; [|reflexivity]. destruct (key_eqb k k0) eqn:E; [|reflexivity]. now apply key_eqb_iff in E as ->. }
  apply (ord_ext n n' []); [now rewrite app_nil_r|constructor|now rewrite E|now rewrite E|unfold remote; now rewrite E| |exact O]. apply pend_same; [apply same_rcvs|reflexivity].
Qed.

Lemma ao_chan : forall c d idx k0 n, ~ In (d, idx) (remote n c k0) -> forall x y, n_chan (add_one c d idx k0 n) x y =
  n_chan n x y ++ (if (x =? c) && (y =? d) then notify (fst k0) idx (links n c k0) else []).
Proof.
  intros c d idx k0 n N x y. rewrite ao_new by exact N. rewrite post_all_chan. cbn [n_chan emit set_part]. f_equal. destruct (x =? c); cbn [andb]; [|reflexivity].
  unfold sel. induction (notify (fst k0) idx (links n c k0)) as [|w ws IH]; cbn [map filter]; [destruct (y =? d); reflexivity|]. cbn [fst]. rewrite (Nat.eqb_sym d y).
  destruct (y =? d) eqn:E; cbn [map snd]; [now rewrite IH|exact IH].
Qed.
Lemma ao_links : forall c d idx k0 n, ~ In (d, idx) (remote n c k0) -> forall x k', links (add_one c d idx k0 n) x k' =
  if (x =? c) && key_eqb k' k0 then mkL (local n c k0) (remote n c k0 ++ [(d, idx)]) (l_last (links n c k0)) (l_hist (links n c k0)) else links n x k'.
Proof. intros c d idx k0 n N x k'. rewrite ao_new by exact N. unfold links at 1. rewrite post_all_part. apply links_set. Qed.
Lemma ao_trace : forall c d idx k0 n, ~ In (d, idx) (remote n c k0) -> n_trace (add_one c d idx k0 n) = n_trace n ++ [ESub c d k0].
Proof. intros. rewrite ao_new by assumption. now rewrite post_all_trace. Qed.

Lemma ord_add_one : forall n c d idx k0, wf n -> In d (peers n c) -> (exists x, nth_error (rcvs n d) idx = Some x /\ same_id x k0 = true) -> ord n -> ord (add_one c d idx k0 n).
Proof.
  intros n c d idx k0 W P X O. destruct (existsb (rr_eqb (d, idx)) (remote n c k0)) eqn:E.
  { apply existsb_rr in E. rewrite ao_old by exact E. now apply ord_keep_link. }
  apply not_true in E. rewrite existsb_rr in E. pose proof (ao_chan c d idx k0 n E) as AC. pose proof (ao_links c d idx k0 n E) as AL. pose proof (ao_trace c d idx k0 n E) as AT.
  pose proof (ao_rcvs c d idx k0 n) as AR.
  destruct (Nat.eq_dec c a) as [->|Nc].
  2:{ eapply ord_ext; [exact AT| | | | | |exact O]; rewrite ?AL, ?(proj2 (Nat.eqb_neq a c)) by auto; try reflexivity.
      - constructor; [|constructor]. split; [|split; [reflexivity|discriminate]]. intros st. cbn [track]. now rewrite is_false by auto.
      - unfold remote. rewrite AL. now rewrite (proj2 (Nat.eqb_neq a c)) by auto.
      - eapply pend_ext; [exact W|exists []; now rewrite AR, app_nil_r|apply AC|]. rewrite (proj2 (Nat.eqb_neq a c)) by auto. reflexivity. }
  destruct (key_dec k0 k) as [->|Nk].
  - destruct (Nat.eq_dec d b) as [->|Nd].
    + (* the subscription itself *)
      destruct (wf_peers n W a b P) as (_ & _ & NL). unfold ord in *. rewrite AT, tracked_app, AL, Nat.eqb_refl, key_eqb_refl, ins_app. cbn [fold_left track andb l_last l_hist]. rewrite is_refl, Nat.eqb_refl. cbn [andb ts_last ts_hist ts_sub].
      destruct O as (O1 & O2 & O3). split; [exact O1|]. split; [exact O2|]. change (ins b k a [ESub a b k]) with (@nil message). rewrite app_nil_r.
      assert (HB : has_b (add_one a b idx k n)) by (exists idx; unfold remote; rewrite AL, Nat.eqb_refl, key_eqb_refl; cbn [andb l_remote]; apply in_or_app; right; now left).
      destruct (ts_sub (tracked a b k (n_trace n))) as [l|].
      * destruct O3 as [_ O4]. destruct (O4 NL) as [_ [i Hi]]. destruct E. now rewrite <- (one_idx n i idx W Hi X).
      * destruct O3 as (O4 & O5 & _). rewrite O5. cbn [app].
        assert (Pd : pend (add_one a b idx k n) a b k = hist_of k (tracked a b k (n_trace n))).
        { unfold pend in *. rewrite AC, !Nat.eqb_refl, AR, flat_map_app, O4. cbn [andb app]. unfold notify, hist_of. rewrite O1, O2. destruct (has_history (fst k)); [|reflexivity].
          destruct (l_last (links n a k)) as [m|]; [|reflexivity]. destruct (l_hist (links n a k)); [|reflexivity]. cbn [flat_map]. destruct X as (x & Ex & Sx). now rewrite (data_this n idx x (fst k) m Ex Sx). }
        rewrite Pd. split; [exists []; now rewrite app_nil_r|]. intros _. split; [reflexivity|exact HB].
    + eapply ord_ext; [exact AT| | | | | |exact O]; rewrite ?AL, ?Nat.eqb_refl, ?key_eqb_refl; try reflexivity.
      * constructor; [|constructor]. split; [|split; [reflexivity|discriminate]]. intros st. cbn [track]. rewrite (proj2 (Nat.eqb_neq d b)) by auto. now rewrite andb_false_r.
      * intros i. unfold remote at 1. rewrite AL, Nat.eqb_refl, key_eqb_refl. cbn [andb l_remote]. rewrite in_app_iff. cbn. split; [intros [H|[H|[]]]; [exact H|injection H as -> ->; congruence]|auto].
      * eapply pend_ext; [exact W|exists []; now rewrite AR, app_nil_r|apply AC|]. rewrite Nat.eqb_refl, (proj2 (Nat.eqb_neq b d)) by auto. reflexivity.
  - eapply ord_ext; [exact AT| | | | | |exact O]; rewrite ?AL, ?Nat.eqb_refl, ?(key_eqb_neq k k0) by auto; try reflexivity.
    + constructor; [|constructor]. split; [|split; [reflexivity|discriminate]]. intros st. cbn [track]. now rewrite is_false by auto.
    + unfold remote. rewrite AL, Nat.eqb_refl, key_eqb_neq by auto. reflexivity.
    + eapply pend_ext; [exact W|exists []; now rewrite AR, app_nil_r|apply AC|]. rewrite Nat.eqb_refl, AR. destruct (Nat.eqb_spec b d) as [<-|]; cbn [andb]; [|reflexivity].
      destruct X as (x & Ex & Sx). unfold notify. destruct (has_history (fst k0)); [|reflexivity]. destruct (l_last (links n a k0)); [|reflexivity]. destruct (l_hist (links n a k0)); [|reflexivity].
      cbn [flat_map]. now rewrite (data_other n idx x (fst k0) m k0 Ex Sx Nk).
Qed.

(** ** Sending *)
Lemma neutral_recv : forall c k0 s d m x, neutral (ERecv c k0 s d m x).
Proof. repeat split. discriminate. Qed.
Lemma neutral_dispatch : forall c k0 s d m, Forall neutral (dispatch throws c k0 s d m).
Proof. intros. unfold dispatch. destruct (throws c s k0 m); repeat constructor; discriminate. Qed.
Lemma Forall_flat_map : forall {A} (f : A -> list event) l, (forall x, Forall neutral (f x)) -> Forall neutral (flat_map f l).
Proof. intros A f l H. apply Forall_forall. intros e I. apply in_flat_map in I as (x & _ & I). specialize (H x). rewrite Forall_forall in H. auto. Qed.
Lemma neutral_remote : forall c k0 d m l, Forall neutral (distribute_remote throws c k0 d m l).
Proof. intros. apply Forall_flat_map. intros. apply neutral_dispatch. Qed.
Lemma neutral_self : forall descs from c k0 m l, Forall neutral (distribute_to_self throws descs from c k0 m l).
Proof. intros. unfold distribute_to_self. destruct (self_forbidden (fst k0)); [constructor|]. apply Forall_flat_map. intros s. destruct (_ && _); [constructor|apply neutral_dispatch]. Qed.

Lemma ord_emit : forall n es, Forall neutral es -> ord n -> ord (emit es n).
Proof. intros n es F O. apply (ord_ext n (emit es n) es); try reflexivity; assumption. Qed.
Lemma ord_post : forall n c d w, (match w with WData _ _ _ => False | _ => True end) -> wf n -> ord n -> ord (post c d w n).
Proof.
  intros n c d w N W O. apply (ord_ext n (post c d w n) []); try reflexivity; [now rewrite app_nil_r|constructor| |exact O].
  eapply pend_ext; [exact W|exists []; now rewrite app_nil_r|apply post_chan|]. apply no_data. intros v. destruct (_ && _); [|intros []]. intros [<-|[]]. exact N.
Qed.

(** the messages for b among those for all receivers of link k *)
Lemma sel_remote_in : forall n t m, wf n -> has_b n ->
  flat_map (data_for (rcvs n b) k) (sel b (map (fun r => (fst r, WData (snd r) t m)) (remote n a k))) = [m].
Proof.
  intros n t m W [i Hi]. pose proof (wf_ndr n W a k) as ND.
  assert (U : forall j, In (b, j) (remote n a k) -> j = i).
  { intros j Hj. symmetry. apply (one_idx n i j W Hi). destruct (wf_remote n W a b j k Hj) as (_ & X). exact X. }
  assert (E : sel b (map (fun r => (fst r, WData (snd r) t m)) (remote n a k)) = [WData i t m]).
  { clear W. revert Hi ND U. generalize (remote n a k). induction l as [|[c j] l IH]; intros Hi ND U; [destruct Hi|]. inversion ND as [|? ? A B]; subst. unfold sel. cbn [map filter fst snd].
    destruct (Nat.eqb_spec c b) as [->|N].
    - assert (j = i) by (apply U; now left). subst j. cbn [map snd]. f_equal. destruct (map snd (filter _ _)) as [|w ws] eqn:E; [reflexivity|]. exfalso.
      assert (I : In w (sel b (map (fun r => (fst r, WData (snd r) t m)) l))) by (unfold sel; rewrite E; now left). apply in_sel, in_map_iff in I as ([c j] & E' & I). injection E' as -> _. cbn [snd] in *.
      assert (j = i) by (apply U; now right). subst. contradiction.
    - destruct Hi as [H|H]; [injection H as -> ->; contradiction|]. apply (IH H B). intros j' I. apply U. now right. }
  rewrite E. cbn [flat_map]. destruct (wf_remote n W a b i k Hi) as (_ & x & Ex & Sx). now rewrite (data_this n i x t m Ex Sx).
Qed.
Lemma sel_remote_out : forall n t m, ~ has_b n -> sel b (map (fun r => (fst r, WData (snd r) t m)) (remote n a k)) = [].
Proof.
  intros n t m N. destruct (sel _ _) as [|w ws] eqn:E; [reflexivity|]. exfalso. assert (I : In w (sel b (map (fun r => (fst r, WData (snd r) t m)) (remote n a k)))) by (rewrite E; now left).
  apply in_sel, in_map_iff in I as ([c j] & E' & I). injection E' as -> _. apply N. now exists j.
Qed.
Lemma sel_remote_other : forall n t m k0, wf n -> k0 <> k -> flat_map (data_for (rcvs n b) k) (sel b (map (fun r => (fst r, WData (snd r) t m)) (remote n a k0))) = [].
Proof.
  intros n t m k0 W N. assert (G : forall w, In w (sel b (map (fun r => (fst r, WData (snd r) t m)) (remote n a k0))) -> data_for (rcvs n b) k w = []).
  { intros w I. apply in_sel, in_map_iff in I as ([c j] & E & I). injection E as -> <-. destruct (wf_remote n W a b j k0 I) as (_ & x & Ex & Sx). cbn [snd]. eapply data_other; [exact Ex|exact Sx|exact N]. }
  revert G. generalize (sel b (map (fun r => (fst r, WData (snd r) t m)) (remote n a k0))). induction l as [|w l IH]; intros G; [reflexivity|]. cbn [flat_map]. rewrite IH, G; [reflexivity|now left|]. intros v I. apply G. now right.
Qed.
Lemma has_b_dec : forall n, has_b n \/ ~ has_b n.
Proof.
  intros n. unfold has_b. induction (remote n a k) as [|[c j] l IH]; [right; intros [i []]|]. destruct (Nat.eq_dec c b) as [->|N]; [left; exists j; now left|].
  destruct IH as [[i I]|I]; [left; exists i; now right|]. right. intros [i [H|H]]; [injection H as -> _; contradiction|]. apply I. now exists i.
Qed.
Lemma left_no_b : forall n, wf n -> In (ELeft a b) (n_trace n) -> ~ has_b n.
Proof. intros n W L [i I]. destruct (wf_remote n W a b i k I) as [P _]. destruct (wf_peers n W a b P) as (_ & _ & N). contradiction. Qed.
Lemma prefix_app : forall {A} (p l : list A) x, prefix p l -> prefix p (l ++ x).
Proof. intros A p l x [r ->]. exists (r ++ x). now rewrite app_assoc. Qed.
Lemma left_dec : forall tr, In (ELeft a b) tr \/ ~ In (ELeft a b) tr.
Proof.
  intros tr. induction tr as [|e tr IH]; [right; intros []|]. destruct IH as [I|I]; [left; now right|].
  destruct e; try (right; intros [H|H]; [discriminate|contradiction]). destruct (Nat.eq_dec a0 a) as [->|N]; [destruct (Nat.eq_dec b0 b) as [->|N]|]; [left; now left| |]; right; intros [H|H]; try contradiction; injection H; congruence.
Qed.

(** a message for link k of a, sent to b if [tob] and b is a receiver *)
Lemma ord_sent : forall n n' e m (tob : bool),
  wf n -> ord n -> n_trace n' = n_trace n ++ [e] ->
  (forall st, track a b k st e = mkT (if tob then option_map (fun l => l ++ [m]) (ts_sub st) else ts_sub st) (save_t k m st) (ts_hist st)) ->
  ins b k a [e] = [] -> e <> ELeft a b ->
  links n' a k = save (fst k) m (links n a k) ->
  (tob = true -> has_b n -> pend n' a b k = pend n a b k ++ [m]) -> ((tob = false \/ ~ has_b n) -> pend n' a b k = pend n a b k) ->
  ord n'.
Proof.
  intros n n' e m tob W O ET Tr Ins Ne EL P1 P2. unfold ord in *. rewrite ET, tracked_app, ins_app, Ins, app_nil_r, EL. cbn [fold_left]. rewrite Tr. cbn [ts_sub ts_last ts_hist].
  destruct (save_fields (fst k) m (links n a k)) as (S1 & S2 & S3 & S4). rewrite S3, S4. destruct O as (O1 & O2 & O3). unfold save_t. rewrite O1, O2. split; [reflexivity|]. split; [reflexivity|].
  assert (HB : has_b n' <-> has_b n) by (unfold has_b, remote; now rewrite EL, S2).
  destruct (ts_sub (tracked a b k (n_trace n))) as [l|]; cbn [option_map].
  - destruct O3 as [O3 O4].
    assert (X : exists l', (if tob then Some (l ++ [m]) else Some l) = Some l' /\ prefix (ins b k a (n_trace n) ++ pend n' a b k) l' /\
      (~ In (ELeft a b) (n_trace n ++ [e]) -> ins b k a (n_trace n) ++ pend n' a b k = l' /\ has_b n')).
    { destruct (left_dec (n_trace n)) as [L|L].
      - pose proof (left_no_b n W L) as NB. rewrite (P2 (or_intror NB)). destruct tob; eexists; (split; [reflexivity|]); (split; [try apply prefix_app; exact O3|]); intros N; destruct N; apply in_or_app; now left.
      - destruct (O4 L) as [E B]. destruct tob.
        + rewrite (P1 eq_refl B), app_assoc, E. exists (l ++ [m]). split; [reflexivity|]. split; [exists []; now rewrite app_nil_r|]. intros _. split; [reflexivity|now apply HB].
        + rewrite (P2 (or_introl eq_refl)), E. exists l. split; [reflexivity|]. split; [exists []; now rewrite app_nil_r|]. intros _. split; [reflexivity|now apply HB]. }
    destruct X as (l' & -> & X). exact X.
  - destruct O3 as (O4 & O5 & O6). replace (if tob then None else None) with (@None (list message)) by (destruct tob; reflexivity). rewrite (P2 (or_intror O6)), HB. auto.
Qed.

Lemma ord_send : forall n c k0 m, wf n -> ord n ->
  ord (post_all c (map (fun r => (fst r, WData (snd r) (fst k0) m)) (remote n c k0)) (set_part c (set_link k0 (save (fst k0) m (links n c k0)) (n_part n c)) (emit [EPub c k0 m] n))).
Proof.
  intros n c k0 m W O. set (n1 := set_part _ _ _). set (n' := post_all _ _ n1).
  assert (ET : n_trace n' = n_trace n ++ [EPub c k0 m]) by (unfold n'; now rewrite post_all_trace).
  assert (EL : forall x k', links n' x k' = if (x =? c) && key_eqb k' k0 then save (fst k0) m (links n c k0) else links n x k').
  { intros. unfold n', links at 1. rewrite post_all_part. unfold n1. rewrite set_emit. cbn [emit n_part]. apply links_set. }
  assert (ER : rcvs n' b = rcvs n b) by (unfold n', rcvs; rewrite post_all_part; unfold n1; rewrite set_emit; cbn [emit n_part]; apply same_rcvs).
  assert (EC : n_chan n' a b = n_chan n a b ++ (if a =? c then sel b (map (fun r => (fst r, WData (snd r) (fst k0) m)) (remote n c k0)) else [])) by (unfold n'; rewrite post_all_chan; reflexivity).
  destruct (Nat.eq_dec c a) as [->|Nc]; [destruct (key_dec k0 k) as [->|Nk]|].
  - rewrite Nat.eqb_refl in EC. apply (ord_sent n n' (EPub a k m) m true W O ET); [intros st; cbn [track]; now rewrite is_refl|reflexivity|discriminate|now rewrite EL, Nat.eqb_refl, key_eqb_refl| |].
    + intros _ HB. unfold pend. rewrite EC, ER, flat_map_app. now rewrite (sel_remote_in n (fst k) m W HB).
    + intros [H|NB]; [discriminate|]. unfold pend. rewrite EC, ER, flat_map_app. now rewrite (sel_remote_out n (fst k) m NB), app_nil_r.
  - rewrite Nat.eqb_refl in EC. assert (EL' : links n' a k = links n a k) by (rewrite EL, key_eqb_neq by auto; now rewrite andb_false_r).
    apply (ord_ext n n' [EPub a k0 m]); [exact ET| |now rewrite EL'|now rewrite EL'|unfold remote; now rewrite EL'| |exact O].
    + constructor; [|constructor]. split; [|split; [reflexivity|discriminate]]. intros st. cbn [track]. now rewrite is_false by auto.
    + unfold pend. rewrite EC, ER, flat_map_app. now rewrite (sel_remote_other n (fst k0) m k0 W Nk), app_nil_r.
  - rewrite (proj2 (Nat.eqb_neq a c)), app_nil_r in EC by auto. assert (EL' : links n' a k = links n a k) by (rewrite EL, (proj2 (Nat.eqb_neq a c)) by auto; reflexivity).
    apply (ord_ext n n' [EPub c k0 m]); [exact ET| |now rewrite EL'|now rewrite EL'|unfold remote; now rewrite EL'|now apply pend_same|exact O].
    constructor; [|constructor]. split; [|split; [reflexivity|discriminate]]. intros st. cbn [track]. now rewrite is_false by auto.
Qed.

Lemma ord_send_to : forall n c d k0 m, wf n -> ord n -> c <> d ->
  let n1 := set_part c (set_link k0 (save (fst k0) m (links n c k0)) (n_part n c)) (emit [EPubTo c k0 d m] n) in
  ord (match option_map (fun r => (fst r, WData (snd r) (fst k0) m)) (find (fun r => fst r =? d) (remote n c k0)) with
       | Some x => post_all c [x] n1 | None => emit [EThrow c] n1 end).
Proof.
  intros n c d k0 m W O Ncd n1.
  assert (X : forall n', n_trace n' = n_trace n ++ [EPubTo c k0 d m] -> n_part n' = n_part n1 ->
    (n_chan n' a b = n_chan n a b ++ (if (a =? c) && (b =? d) then match find (fun r => fst r =? d) (remote n c k0) with Some r => [WData (snd r) (fst k0) m] | None => [] end else [])) -> ord n').
  { intros n' ET EP EC.
    assert (EL : forall x k', links n' x k' = if (x =? c) && key_eqb k' k0 then save (fst k0) m (links n c k0) else links n x k').
    { intros. unfold links at 1. rewrite EP. unfold n1. rewrite set_emit. cbn [emit n_part]. apply links_set. }
    assert (ER : rcvs n' b = rcvs n b) by (unfold rcvs; rewrite EP; unfold n1; rewrite set_emit; cbn [emit n_part]; apply same_rcvs).
    destruct (Nat.eq_dec c a) as [->|Nc]; [destruct (key_dec k0 k) as [->|Nk]|].
    - rewrite Nat.eqb_refl in EC. cbn [andb] in EC. apply (ord_sent n n' (EPubTo a k d m) m (d =? b) W O ET).
      + intros st. cbn [track]. rewrite is_refl, (proj2 (Nat.eqb_neq d a)) by auto. reflexivity.
      + reflexivity.
      + discriminate.
      + now rewrite EL, Nat.eqb_refl, key_eqb_refl.
      + intros E HB. apply Nat.eqb_eq in E as ->. rewrite Nat.eqb_refl in EC. unfold pend. rewrite EC, ER, flat_map_app. f_equal. destruct HB as [i Hi].
        destruct (find (fun r => fst r =? b) (remote n a k)) as [[c j]|] eqn:F.
        * apply find_some in F as [I E]. apply Nat.eqb_eq in E. cbn [fst] in E. subst c. cbn [flat_map snd]. destruct (wf_remote n W a b j k I) as (_ & x & Ex & Sx). now rewrite (data_this n j x (fst k) m Ex Sx).
        * exfalso. pose proof (find_none _ _ F _ Hi) as H. cbn [fst] in H. now rewrite Nat.eqb_refl in H.
      + intros H. unfold pend. rewrite EC, ER, flat_map_app. destruct (Nat.eqb_spec b d) as [<-|N]; [|cbn; now rewrite app_nil_r]. rewrite Nat.eqb_refl in H. destruct H as [H|H]; [discriminate|].
        destruct (find _ _) as [[c j]|] eqn:F; [|cbn; now rewrite app_nil_r]. exfalso. apply find_some in F as [I E]. apply Nat.eqb_eq in E. cbn [fst] in E. subst c. apply H. now exists j.
    - rewrite Nat.eqb_refl in EC. cbn [andb] in EC. assert (EL' : links n' a k = links n a k) by (rewrite EL, key_eqb_neq by auto; now rewrite andb_false_r).
      apply (ord_ext n n' [EPubTo a k0 d m]); [exact ET| |now rewrite EL'|now rewrite EL'|unfold remote; now rewrite EL'| |exact O].
      + constructor; [|constructor]. split; [|split; [reflexivity|discriminate]]. intros st. cbn [track]. now rewrite is_false by auto.
      + unfold pend. rewrite EC, ER, flat_map_app. destruct (Nat.eqb_spec b d) as [<-|N]; [|cbn; now rewrite app_nil_r]. destruct (find _ _) as [[c j]|] eqn:F; [|cbn; now rewrite app_nil_r].
        apply find_some in F as [I E]. apply Nat.eqb_eq in E. cbn [fst] in E. subst c. destruct (wf_remote n W a b j k0 I) as (_ & x & Ex & Sx). cbn [flat_map snd]. rewrite (data_other n j x (fst k0) m k0 Ex Sx Nk). now rewrite app_nil_r.
    - rewrite (proj2 (Nat.eqb_neq a c)) in EC by auto. cbn [andb] in EC. rewrite app_nil_r in EC. assert (EL' : links n' a k = links n a k) by (rewrite EL, (proj2 (Nat.eqb_neq a c)) by auto; reflexivity).
      apply (ord_ext n n' [EPubTo c k0 d m]); [exact ET| |now rewrite EL'|now rewrite EL'|unfold remote; now rewrite EL'|now apply pend_same|exact O].
      constructor; [|constructor]. split; [|split; [reflexivity|discriminate]]. intros st. cbn [track]. now rewrite is_false by auto. }
  destruct (find (fun r => fst r =? d) (remote n c k0)) as [[e i]|] eqn:F; cbn [option_map].
  - apply X; [now rewrite post_all_trace|now rewrite post_all_part|]. rewrite post_all_chan. unfold n1 at 1. cbn [n_chan set_part emit]. f_equal.
    apply find_some in F as [_ E]. apply Nat.eqb_eq in E. cbn [fst] in E. subst e. unfold sel. cbn [filter fst snd]. rewrite (Nat.eqb_sym d b). destruct (a =? c), (b =? d); reflexivity.
  - apply ord_emit; [repeat constructor; discriminate|]. apply X; [reflexivity|reflexivity|]. unfold n1. cbn [n_chan set_part emit]. destruct (_ && _); now rewrite app_nil_r.
Qed.

(** ** Receiving *)
Lemma ord_pop : forall n c d w ws, n_chan n c d = w :: ws -> (match w with WData _ _ _ => c <> a \/ d <> b | _ => True end) -> ord n -> ord (set_chan c d ws n).
Proof.
  intros n c d w ws E H O. apply (ord_ext n _ []); try reflexivity; [now rewrite app_nil_r|constructor| |exact O]. unfold pend. cbn [set_chan n_chan].
  change (rcvs (set_chan c d ws n) b) with (rcvs n b).
  destruct (Nat.eqb_spec a c) as [<-|]; cbn [andb]; [|reflexivity]. destruct (Nat.eqb_spec b d) as [<-|]; [|reflexivity]. rewrite E. cbn [flat_map]. destruct w; cbn [data_for app]; try reflexivity. intuition congruence.
Qed.

Lemma ord_step : forall o n, wf n -> named isname n -> ord n -> ord (step hash throws o n).
Proof.
  intros o n W NM O. destruct o as [c d|c w ty rs ss|c k0 h|c s t v|c s t d v|c d|c d]; cbn [step].
  - (* connect *)
    destruct (_ || _) eqn:E; [exact O|]. rewrite !orb_false_iff in E. destruct E as [[[E1 _] _] _]. apply Nat.eqb_neq in E1. set (n' := post _ _ _ _).
    assert (EL : forall x, links n' x = links n x).
    { intros x. unfold n', links, post, set_chan. cbn [n_part]. rewrite !set_part_part. destruct (Nat.eqb_spec x d) as [->|]; cbn [p_links]; destruct (Nat.eqb_spec d c) as [->|]; cbn [p_links]; try reflexivity; destruct (Nat.eqb_spec x c) as [->|]; reflexivity. }
    assert (ER : forall x, rcvs n' x = rcvs n x).
    { intros x. unfold n', rcvs, post, set_chan. cbn [n_part]. rewrite !set_part_part. destruct (Nat.eqb_spec x d) as [->|]; cbn [p_rcvs]; destruct (Nat.eqb_spec d c) as [->|]; cbn [p_rcvs]; try reflexivity; destruct (Nat.eqb_spec x c) as [->|]; reflexivity. }
    apply (ord_ext n n' []); [now rewrite app_nil_r|constructor|now rewrite EL|now rewrite EL|unfold remote; now rewrite EL| |exact O].
    apply (pend_ext n n' (if (a =? c) && (b =? d) then [WAnnounce] else []) W); [exists []; now rewrite ER, app_nil_r|unfold n'; rewrite post_chan; reflexivity|]. destruct (_ && _); reflexivity.
  - assert (X : wf (register hash c w ty rs ss n) /\ ord (register hash c w ty rs ss n)); [|exact (proj2 X)].
    apply (register_ind hash (fun n => wf n /\ ord n)); [auto| | |].
    + intros n0 d0 [W0 O0] D. split; [now apply wf_add_svc|now apply ord_svc].
    + intros n0 s t [W0 O0] L. split; [now apply wf_register_receiver|now apply ord_receiver].
    + intros n0 t [W0 O0]. split; [now apply wf_senders|now apply ord_sender].
  - (* history *)
    set (n' := emit _ _). assert (EL : forall x k', links n' x k' = if (x =? c) && key_eqb k' k0 then set_history (fst k0) h (links n c k0) else links n x k').
    { intros. unfold n', links at 1. cbn [emit n_part]. apply links_set. }
    destruct (Nat.eq_dec c a) as [->|Nc]; [destruct (key_dec k0 k) as [->|Nk]|].
    + assert (EL' : links n' a k = set_history (fst k) h (links n a k)) by (now rewrite EL, Nat.eqb_refl, key_eqb_refl).
      unfold ord in *. destruct O as (O1 & O2 & O3). assert (ET : n_trace n' = n_trace n ++ [EHist a k h]) by reflexivity. rewrite ET, tracked_app, ins_app. cbn [fold_left]. change (ins b k a [EHist a k h]) with (@nil message). rewrite app_nil_r, EL'.
      assert (HB : has_b n' <-> has_b n) by (unfold has_b, remote; rewrite EL'; unfold set_history; destruct (has_history (fst k)); reflexivity).
      assert (PE : pend n' a b k = pend n a b k) by (apply pend_same; [apply same_rcvs|reflexivity]).
      cbn [track]. rewrite is_refl. cbn [andb]. unfold set_history. destruct (has_history (fst k)); cbn [ts_last ts_hist ts_sub l_last l_hist]; (split; [exact O1|]); (split; [auto|]);
        rewrite PE; (destruct (ts_sub _); rewrite HB; [|exact O3]); destruct O3 as [O3 O4]; (split; [exact O3|]); intros N; apply O4; intros I; apply N; apply in_or_app; now left.
    + assert (EL' : links n' a k = links n a k) by (rewrite EL, key_eqb_neq by auto; now rewrite andb_false_r).
      apply (ord_ext n n' [EHist a k0 h]); [reflexivity| |now rewrite EL'|now rewrite EL'|unfold remote; now rewrite EL'|apply pend_same; [apply same_rcvs|reflexivity]|exact O].
      constructor; [|constructor]. split; [|split; [reflexivity|discriminate]]. intros st. cbn [track]. now rewrite is_false by auto.
    + assert (EL' : links n' a k = links n a k) by (rewrite EL, (proj2 (Nat.eqb_neq a c)) by auto; reflexivity).
      apply (ord_ext n n' [EHist c k0 h]); [reflexivity| |now rewrite EL'|now rewrite EL'|unfold remote; now rewrite EL'|apply pend_same; [apply same_rcvs|reflexivity]|exact O].
      constructor; [|constructor]. split; [|split; [reflexivity|discriminate]]. intros st. cbn [track]. now rewrite is_false by auto.
  - destruct (nth_error _ _) as [e|]; [|exact O]. destruct (existsb _ _); [|apply ord_emit; [repeat constructor; discriminate|exact O]].
    unfold distribute_local, transmit. apply ord_emit; [apply neutral_self|]. apply (ord_send n c (t, d_net e) (s, v) W O).
  - destruct (nth_error _ _) as [e|]; [|exact O]. destruct (existsb _ _); [|apply ord_emit; [repeat constructor; discriminate|exact O]].
    destruct (Nat.eqb_spec c d) as [<-|N].
    + apply ord_emit; [|exact O]. constructor; [|apply neutral_self]. split; [|split; [reflexivity|discriminate]]. intros st. cbn [track].
      destruct (is a c k (t, d_net e)) eqn:I; [|reflexivity]. apply is_iff in I as [-> _]. now rewrite Nat.eqb_refl.
    + unfold transmit_to. apply (ord_send_to n c d (t, d_net e) (s, v) W O N).
  - unfold has_peer. destruct (existsb _ _) eqn:E; [|exact O]. apply existsb_eqb in E. destruct (n_chan n c d) as [|w ws] eqn:C; [exact O|].
    pose proof (wf_pop c d w ws n W C) as W'. destruct (wf_chan n W c d w) as [K M]; [rewrite C; now left|].
    destruct w; cbn [receive].
    + apply ord_post; [exact I|exact W'|]. eapply ord_pop; [exact C|exact I|exact O].
    + apply ord_emit; [repeat constructor; discriminate|]. assert (O' : ord (set_chan c d ws n)) by (eapply ord_pop; [exact C|exact I|exact O]).
      apply (reply_inv (fun n => wf n /\ ord n) d c subs (set_chan c d ws n)); [auto|exact E|exact K|]. intros n0 i t k' [W0 O0] [S1 S2] Et.
      assert (X : exists x, nth_error (rcvs n0 c) i = Some x /\ same_id x (t, snd k') = true) by (exists k'; split; [exact S2|apply same_id_iff; auto]).
      split; [now apply wf_add_one|now apply ord_add_one].
    + assert (O' : ord (set_chan c d ws n)) by (eapply ord_pop; [exact C|exact I|exact O]).
      destruct (try_add_inv (fun n => wf n /\ ord n) d c idx k0 (set_chan c d ws n)) as [[W1 O1] _]; [auto|split; [exact E|exact K]| |].
      * intros n0 t [W0 O0] [S1 S2] Et. assert (X : exists x, nth_error (rcvs n0 c) idx = Some x /\ same_id x (t, snd k0) = true) by (exists k0; split; [exact S2|apply same_id_iff; auto]).
        split; [now apply wf_add_one|now apply ord_add_one].
      * apply ord_post; [exact I|exact W1|exact O1].
    + apply ord_emit; [repeat constructor; discriminate|]. eapply ord_pop; [exact C|exact I|exact O].
    + (* data *)
      destruct K as (x & Ex & Sx). change (p_rcvs (n_part (set_chan c d ws n) d)) with (rcvs n d). rewrite Ex.
      destruct (Nat.eq_dec c a) as [->|Nc]; [destruct (Nat.eq_dec d b) as [->|Nd]|].
      2:{ assert (O' : ord (set_chan a d ws n)) by (eapply ord_pop; [exact C|cbn; auto|exact O]).
          destruct (mtype_beq _ _); (apply ord_emit; [|exact O']); (constructor; [split; [reflexivity|split; [|discriminate]]|try apply neutral_remote; constructor]); [|reflexivity]. cbn [ins flat_map]. now rewrite is_false by auto. }
      2:{ assert (O' : ord (set_chan c d ws n)) by (eapply ord_pop; [exact C|cbn; auto|exact O]).
          destruct (mtype_beq _ _); (apply ord_emit; [|exact O']); (constructor; [split; [reflexivity|split; [|discriminate]]|try apply neutral_remote; constructor]); [|reflexivity]. cbn [ins flat_map]. rewrite (proj2 (Nat.eqb_neq c a)) by auto. now rewrite andb_false_r. }
      destruct (key_dec x k) as [->|Nx].
      * assert (fst k = t) by (symmetry; apply Hk; auto). subst t. rewrite (internal_mtype_dec_lb (fst k) (fst k) eq_refl).
        set (es := distribute_remote _ _ _ _ _ _). change (EIn b k a m :: es) with ([EIn b k a m] ++ es). set (n0 := set_chan a b ws n) in *.
        assert (N1 : forall e1 e2 n, emit (e1 ++ e2) n = emit e2 (emit e1 n)) by (intros; unfold emit; cbn; now rewrite app_assoc). rewrite N1. apply ord_emit; [apply neutral_remote|].
        assert (PE : pend n a b k = m :: pend (emit [EIn b k a m] n0) a b k).
        { unfold pend. rewrite C. cbn [flat_map data_for]. rewrite Ex. destruct (key_dec k k); [|congruence]. cbn [app emit n0 set_chan n_chan]. now rewrite !Nat.eqb_refl. }
        unfold ord in *. rewrite PE in O. cbn [emit n_trace n0 set_chan]. rewrite tracked_app, ins_app. cbn [fold_left track]. unfold ins at 2 4 6. cbn [flat_map]. rewrite is_refl, Nat.eqb_refl. cbn [andb app].
        destruct O as (O1 & O2 & O3). split; [exact O1|]. split; [exact O2|]. destruct (ts_sub _) as [l|].
        -- rewrite <- !app_assoc. cbn [app]. destruct O3 as [O3 O4]. split; [exact O3|]. intros N. apply O4. intros I. apply N, in_or_app. now left.
        -- destruct O3 as (O3 & _). discriminate.
      * assert (O' : ord (set_chan a b ws n)).
        { apply (ord_ext n _ []); try reflexivity; [now rewrite app_nil_r|constructor| |exact O]. unfold pend. cbn [set_chan n_chan]. rewrite !Nat.eqb_refl, C. cbn [andb flat_map data_for]. change (rcvs (set_chan a b ws n) b) with (rcvs n b). rewrite Ex. destruct (key_dec x k); [contradiction|reflexivity]. }
        destruct (mtype_beq _ _); (apply ord_emit; [|exact O']); (constructor; [split; [reflexivity|split; [|discriminate]]|try apply neutral_remote; constructor]); [|reflexivity]. cbn [ins flat_map]. now rewrite is_false by auto.
  - unfold has_peer. destruct (existsb _ _) eqn:E; [|exact O]. apply existsb_eqb in E. set (n' := emit _ _).
    assert (EL : forall x k', links n' x k' = if x =? d then remove_remote hash c (links n d k') else links n x k').
    { intros. unfold n', links, emit. cbn [n_part]. rewrite set_part_part. destruct (Nat.eqb_spec x d) as [->|]; reflexivity. }
    assert (ER : rcvs n' b = rcvs n b) by (unfold n', rcvs, emit; cbn [n_part]; rewrite set_part_part; destruct (Nat.eqb_spec b d) as [->|]; reflexivity).
    assert (PE : pend n' a b k = pend n a b k) by (apply pend_same; [exact ER|reflexivity]).
    destruct (Nat.eq_dec d a) as [->|Nd]; [destruct (Nat.eq_dec c b) as [->|Nc]|].
    + unfold ord in *. assert (ET : n_trace n' = n_trace n ++ [ELeft a b]) by reflexivity. rewrite ET, PE, EL, Nat.eqb_refl, tracked_app, ins_app. cbn [fold_left track]. change (ins b k a [ELeft a b]) with (@nil message). rewrite app_nil_r. cbn [remove_remote l_last l_hist].
      destruct O as (O1 & O2 & O3). split; [exact O1|]. split; [exact O2|]. destruct (ts_sub _).
      * split; [exact (proj1 O3)|]. intros N. destruct N. apply in_or_app. right. now left.
      * destruct O3 as (O3 & O4 & O5). split; [exact O3|]. split; [exact O4|]. intros [i I]. apply O5. exists i. unfold remote in I. rewrite EL, Nat.eqb_refl in I. cbn [remove_remote l_remote] in I. eapply erase_first_in, I.
    + apply (ord_ext n n' [ELeft a c]); [reflexivity| |now rewrite EL, Nat.eqb_refl|now rewrite EL, Nat.eqb_refl| |exact PE|exact O].
      * constructor; [|constructor]. split; [reflexivity|]. split; [reflexivity|]. congruence.
      * intros i. unfold remote at 1. rewrite EL, Nat.eqb_refl. cbn [remove_remote l_remote]. split; [apply erase_first_in|]. intros I. assert (isname c /\ isname b) as [Nc' Nb].
        { split; [apply (NM a c), (wf_peers n W a c E)|apply (NM a b), (wf_peers n W a b), (wf_remote n W a b i k I)]. } apply (erase_first_keep hash isname Hinj); auto.
    + apply (ord_ext n n' [ELeft d c]); [reflexivity| | | | |exact PE|exact O]; rewrite ?EL, ?(proj2 (Nat.eqb_neq a d)) by auto; try reflexivity.
      * constructor; [|constructor]. split; [reflexivity|]. split; [reflexivity|]. congruence.
      * intros i. unfold remote. rewrite EL, (proj2 (Nat.eqb_neq a d)) by auto. reflexivity.
Qed.

Theorem ord_run : forall ops, named_ops isname ops -> ord (run hash throws ops).
Proof.
  intros ops. induction ops as [|o ops IH] using rev_ind; intros NO.
  - unfold ord, has_b, remote, pend, links. cbn. repeat split. intros [i []].
  - apply named_ops_app in NO as [N1 N2]. destruct (wf_run hash throws isname Hinj ops N1) as [W NM]. rewrite run_snoc. apply ord_step; [exact W|exact NM|now apply IH].
Qed.
End WithHash.
