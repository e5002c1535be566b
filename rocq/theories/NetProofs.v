From Coq Require Import String List Arith Bool Lia.
Import ListNotations.
From Verif Require Import Base NetModel NetSpec.
Open Scope nat_scope.
Open Scope list_scope.

(** * Decidable equalities *)
Lemma key_eqb_iff : forall x y, key_eqb x y = true <-> x = y.
Proof.
  intros [t w] [u v]. unfold key_eqb. cbn [fst snd]. rewrite andb_true_iff, Nat.eqb_eq. split.
  - intros [H ->]. apply internal_mtype_dec_bl in H. now subst.
  - injection 1 as -> ->. split; [now apply internal_mtype_dec_lb|reflexivity].
Qed.
Lemma key_eqb_refl : forall x, key_eqb x x = true.
Proof. intros. now apply key_eqb_iff. Qed.
Lemma key_eqb_neq : forall x y, x <> y -> key_eqb x y = false.
Proof. intros x y N. destruct (key_eqb x y) eqn:E; [apply key_eqb_iff in E; contradiction|reflexivity]. Qed.
Lemma rr_eqb_iff : forall x y, rr_eqb x y = true <-> x = y.
Proof. intros [a b] [c d]. unfold rr_eqb. cbn [fst snd]. rewrite andb_true_iff, !Nat.eqb_eq. split; [intros [-> ->]; reflexivity|intros E; injection E as -> ->; auto]. Qed.
Lemma same_id_iff : forall x y, same_id x y = true <-> serdes_name (fst x) = serdes_name (fst y) /\ snd x = snd y.
Proof. intros. unfold same_id, same_serdes. now rewrite andb_true_iff, String.eqb_eq, Nat.eqb_eq. Qed.
Lemma same_id_refl : forall x, same_id x x = true.
Proof. intros. now apply same_id_iff. Qed.
Lemma same_id_sym : forall x y, same_id x y = true -> same_id y x = true.
Proof. intros x y. rewrite !same_id_iff. intuition congruence. Qed.
Lemma same_id_trans : forall x y z, same_id x y = true -> same_id y z = true -> same_id x z = true.
Proof. intros x y z. rewrite !same_id_iff. intuition congruence. Qed.
Lemma unique_same : forall x k, unique_type (fst k) -> same_id x k = true -> x = k.
Proof. intros [t w] [u v] U S. apply same_id_iff in S. cbn [fst snd] in *. destruct S as [S ->]. now rewrite (U _ S). Qed.
Lemma is_iff : forall a a' k k', is a a' k k' = true <-> a = a' /\ k = k'.
Proof. intros. unfold is. destruct (Nat.eq_dec a a'); [destruct (key_dec k k')|]; intuition congruence. Qed.
Lemma is_refl : forall a k, is a a k k = true.
Proof. intros. now apply is_iff. Qed.
Lemma is_false : forall a a' k k', a <> a' \/ k <> k' -> is a a' k k' = false.
Proof. intros. destruct (is a a' k k') eqn:E; [apply is_iff in E; intuition congruence|reflexivity]. Qed.
Lemma existsb_eqb : forall x l, existsb (Nat.eqb x) l = true <-> In x l.
Proof. intros. rewrite existsb_exists. split; [intros (y & I & E); apply Nat.eqb_eq in E; now subst|intros I; exists x; split; [exact I|apply Nat.eqb_refl]]. Qed.
Lemma existsb_rr : forall x l, existsb (rr_eqb x) l = true <-> In x l.
Proof. intros. rewrite existsb_exists. split; [intros (y & I & E); apply rr_eqb_iff in E; now subst|intros I; exists x; split; [exact I|now apply rr_eqb_iff]]. Qed.
Lemma existsb_key : forall x l, existsb (key_eqb x) l = true <-> In x l.
Proof. intros. rewrite existsb_exists. split; [intros (y & I & E); apply key_eqb_iff in E; now subst|intros I; exists x; split; [exact I|apply key_eqb_refl]]. Qed.
Lemma not_true : forall b, b = false <-> ~ b = true.
Proof. intros []; intuition congruence. Qed.

(** * Components of a state *)
Definition links (n : net) (a : nat) (k : key) : link := p_links (n_part n a) k.
Definition rcvs (n : net) (a : nat) : list key := p_rcvs (n_part n a).
Definition peers (n : net) (a : nat) : list nat := p_peers (n_part n a).
Definition svcs (n : net) (a : nat) : list desc := p_svcs (n_part n a).
Definition remote (n : net) (a : nat) (k : key) : list (nat * nat) := l_remote (links n a k).
Definition local (n : net) (a : nat) (k : key) : list nat := l_local (links n a k).

Lemma post_all_part : forall a l n, n_part (post_all a l n) = n_part n.
Proof. unfold post_all. intros a l. induction l as [|x l IH]; intros n; [reflexivity|]. cbn [fold_left]. now rewrite IH. Qed.
Lemma post_all_trace : forall a l n, n_trace (post_all a l n) = n_trace n.
Proof. unfold post_all. intros a l. induction l as [|x l IH]; intros n; [reflexivity|]. cbn [fold_left]. now rewrite IH. Qed.
Lemma post_all_met : forall a l n, n_met (post_all a l n) = n_met n.
Proof. unfold post_all. intros a l. induction l as [|x l IH]; intros n; [reflexivity|]. cbn [fold_left]. now rewrite IH. Qed.
Definition sel (y : nat) (l : list (nat * wire)) : list wire := map snd (filter (fun z => fst z =? y) l).
Lemma post_chan : forall a b w n x y, n_chan (post a b w n) x y = n_chan n x y ++ (if (x =? a) && (y =? b) then [w] else []).
Proof.
  intros. unfold post, set_chan. cbn [n_chan]. destruct (Nat.eqb_spec x a), (Nat.eqb_spec y b); subst; cbn [andb]; now rewrite ?app_nil_r.
Qed.
Lemma post_all_chan : forall a l n x y, n_chan (post_all a l n) x y = n_chan n x y ++ (if x =? a then sel y l else []).
Proof.
  unfold post_all, sel. intros a l. induction l as [|z l IH]; intros n x y.
  - cbn. destruct (x =? a); now rewrite app_nil_r.
  - cbn [fold_left]. rewrite IH, post_chan, <- app_assoc. f_equal. cbn [filter].
    rewrite (Nat.eqb_sym (fst z) y). destruct (x =? a), (y =? fst z); reflexivity.
Qed.
Lemma set_part_part : forall a p n x, n_part (set_part a p n) x = if x =? a then p else n_part n x.
Proof. reflexivity. Qed.

(** * Well-formed states *)
Definition inj_on (P : nat -> Prop) (hash : nat -> nat) : Prop := forall x y, P x -> P y -> hash x = hash y -> x = y.
Section WithHash.
Variable hash : nat -> nat.
Variable throws : handlers.
Variable isname : nat -> Prop.
Hypothesis Hinj : inj_on isname hash.

Definition met (n : net) (a b : nat) : Prop := In (a, b) (n_met n) \/ In (b, a) (n_met n).

(** what may be in the channel from a to b *)
Definition wire_ok (n : net) (a b : nat) (w : wire) : Prop :=
  match w with
  | WSub i k => nth_error (rcvs n a) i = Some k
  | WReply subs => forall i k, In (i, k) subs -> nth_error (rcvs n a) i = Some k
  | WData i t m => exists k, nth_error (rcvs n b) i = Some k /\ serdes_name (fst k) = serdes_name t
  | _ => True
  end.

Record wf (n : net) : Prop := {
  wf_rcv : forall b i j x y, nth_error (rcvs n b) i = Some x -> nth_error (rcvs n b) j = Some y -> same_id x y = true -> i = j;
  wf_svc0 : forall b, svcs n b = [] -> rcvs n b = [];
  wf_svc : forall a s d, nth_error (svcs n a) s = Some d -> d_sid d = s;
  wf_local : forall b k s, In s (local n b k) -> s < length (svcs n b) /\ exists x, In x (rcvs n b) /\ same_id x k = true;
  wf_ndl : forall b k, NoDup (local n b k);
  wf_chan : forall a b w, In w (n_chan n a b) -> wire_ok n a b w /\ met n a b;
  wf_remote : forall a b i k, In (b, i) (remote n a k) -> In b (peers n a) /\ exists x, nth_error (rcvs n b) i = Some x /\ same_id x k = true;
  wf_ndr : forall a k, NoDup (remote n a k);
  wf_peers : forall a b, In b (peers n a) -> a <> b /\ met n a b /\ ~ In (ELeft a b) (n_trace n);
  wf_left : forall a b, In (ELeft a b) (n_trace n) -> met n a b
}.

Lemma nth_error_snoc : forall {A} (l : list A) x i, nth_error (l ++ [x]) i = if i =? length l then Some x else nth_error l i.
Proof.
  intros. destruct (Nat.eqb_spec i (length l)) as [->|N].
  - rewrite nth_error_app2, Nat.sub_diag; [reflexivity|lia].
  - destruct (Nat.lt_ge_cases i (length l)) as [L|L]; [now rewrite nth_error_app1|].
    rewrite nth_error_app2 by lia. destruct (i - length l) as [|j] eqn:E; [lia|]. cbn [nth_error]. rewrite (proj2 (nth_error_None l i)) by lia.
    destruct j; reflexivity.
Qed.
Lemma nth_error_ext : forall {A} (l r : list A) x i, nth_error l i = Some x -> nth_error (l ++ r) i = Some x.
Proof. intros. rewrite nth_error_app1; [assumption|]. apply nth_error_Some. congruence. Qed.

(** wire_ok is preserved when the receivers grow *)
Lemma wire_ok_ext : forall n n' a b w, (forall x, exists r, rcvs n' x = rcvs n x ++ r) -> wire_ok n a b w -> wire_ok n' a b w.
Proof.
  intros n n' a b w G. destruct (G a) as [ra Ea], (G b) as [rb Eb]. destruct w; cbn [wire_ok]; trivial; rewrite ?Ea, ?Eb.
  - intros H i k I. apply nth_error_ext, (H i k I).
  - apply nth_error_ext.
  - intros (k & H & S). exists k. split; [now apply nth_error_ext|exact S].
Qed.

Lemma wf_net0 : wf net0.
Proof.
  split; unfold rcvs, svcs, local, remote, peers, links; cbn; try contradiction; try (intros; constructor); auto.
  - intros b [|i] j x y H; discriminate.
  - intros a [|s] d H; discriminate.
Qed.

Lemma emit_rcvs : forall es n x, rcvs (emit es n) x = rcvs n x.
Proof. reflexivity. Qed.
(** ** Emitting events other than ELeft *)
Lemma wf_emit : forall es n, (forall a b, ~ In (ELeft a b) es) -> wf n -> wf (emit es n).
Proof.
  intros es n N W. destruct W. split; try assumption.
  - intros a b I. destruct (wf_peers0 a b I) as (D & M & L). repeat split; try assumption. cbn. rewrite in_app_iff. intros [H|H]; [now apply L|exact (N _ _ H)].
  - intros a b. cbn. rewrite in_app_iff. intros [H|H]; [now apply wf_left0|destruct (N _ _ H)].
Qed.

(** ** Posting acceptable messages *)
Lemma wf_post : forall a b w n, wf n -> wire_ok n a b w -> met n a b -> wf (post a b w n).
Proof.
  intros a b w n W K M. destruct W. split; try assumption.
  intros x y v. rewrite post_chan, in_app_iff. intros [H|H]; [exact (wf_chan0 x y v H)|].
  destruct (Nat.eqb_spec x a) as [->|]; cbn [andb] in H; [|destruct H]. destruct (Nat.eqb_spec y b) as [->|]; [|destruct H].
  destruct H as [<-|[]]. split; assumption.
Qed.
Lemma wf_post_all : forall a l n, wf n -> (forall b w, In (b, w) l -> wire_ok n a b w /\ met n a b) -> wf (post_all a l n).
Proof.
  intros a l. induction l as [|[b w] l IH]; intros n W K; [exact W|].
  change (post_all a ((b, w) :: l) n) with (post_all a l (post a b w n)). apply IH.
  - apply wf_post; [exact W| |]; apply (K b w (or_introl eq_refl)).
  - intros b' w' I. exact (K b' w' (or_intror I)).
Qed.

(** ** Changing one link, keeping its remote receivers *)
Lemma links_set : forall n a k l x k', links (set_part a (set_link k l (n_part n a)) n) x k' = if (x =? a) && key_eqb k' k then l else links n x k'.
Proof.
  intros. unfold links. rewrite set_part_part. destruct (Nat.eqb_spec x a) as [->|]; [|reflexivity]. unfold set_link. cbn [p_links andb].
  destruct (key_eqb k' k); reflexivity.
Qed.
Lemma same_rcvs : forall n a k l x, rcvs (set_part a (set_link k l (n_part n a)) n) x = rcvs n x.
Proof. intros. unfold rcvs. rewrite set_part_part. destruct (Nat.eqb_spec x a) as [->|]; reflexivity. Qed.
Lemma same_peers : forall n a k l x, peers (set_part a (set_link k l (n_part n a)) n) x = peers n x.
Proof. intros. unfold peers. rewrite set_part_part. destruct (Nat.eqb_spec x a) as [->|]; reflexivity. Qed.
Lemma same_svcs : forall n a k l x, svcs (set_part a (set_link k l (n_part n a)) n) x = svcs n x.
Proof. intros. unfold svcs. rewrite set_part_part. destruct (Nat.eqb_spec x a) as [->|]; reflexivity. Qed.

Lemma wf_set_link : forall n a k l, wf n ->
  NoDup (l_local l) -> (forall s, In s (l_local l) -> In s (local n a k) \/ s < length (svcs n a) /\ exists x, In x (rcvs n a) /\ same_id x k = true) ->
  NoDup (l_remote l) -> (forall b i, In (b, i) (l_remote l) -> In (b, i) (remote n a k) \/
     In b (peers n a) /\ exists x, nth_error (rcvs n b) i = Some x /\ same_id x k = true) ->
  wf (set_part a (set_link k l (n_part n a)) n).
Proof.
  intros n a k l W NL KL NR KR. destruct W. split.
  - intros b. rewrite same_rcvs. apply wf_rcv0.
  - intros b. rewrite same_rcvs, same_svcs. apply wf_svc1.
  - intros x. rewrite same_svcs. apply wf_svc2.
  - intros b k' s. unfold local. rewrite links_set, same_svcs, same_rcvs. destruct (Nat.eqb_spec b a) as [->|]; cbn [andb]; [|apply wf_local0].
    destruct (key_eqb k' k) eqn:E; [|apply wf_local0]. apply key_eqb_iff in E as ->. intros I. destruct (KL s I) as [J|J]; [now apply wf_local0|exact J].
  - intros b k'. unfold local. rewrite links_set. destruct ((b =? a) && key_eqb k' k); [exact NL|apply wf_ndl0].
  - intros x y w I. destruct (wf_chan0 x y w I) as [K M]. split; [|exact M]. eapply wire_ok_ext; [|exact K].
    intros z. exists []. now rewrite same_rcvs, app_nil_r.
  - intros x b i k'. unfold remote. rewrite links_set, same_peers, same_rcvs. destruct (Nat.eqb_spec x a) as [->|]; cbn [andb]; [|apply wf_remote0].
    destruct (key_eqb k' k) eqn:E; [|apply wf_remote0]. apply key_eqb_iff in E as ->. intros I. destruct (KR b i I) as [J|J]; [now apply wf_remote0|exact J].
  - intros x k'. unfold remote. rewrite links_set. destruct ((x =? a) && key_eqb k' k); [exact NR|apply wf_ndr0].
  - intros x y. rewrite same_peers. apply wf_peers0.
  - exact wf_left0.
Qed.

Lemma wf_senders : forall n a l, wf n -> wf (set_part a (mkP (p_links (n_part n a)) (p_rcvs (n_part n a)) (p_peers (n_part n a)) l (p_svcs (n_part n a))) n).
Proof.
  intros n a l W. set (n' := set_part _ _ _).
  assert (EL : forall x, links n' x = links n x) by (intros x; unfold n', links; rewrite set_part_part; destruct (Nat.eqb_spec x a) as [->|]; reflexivity).
  assert (ER : forall x, rcvs n' x = rcvs n x) by (intros x; unfold n', rcvs; rewrite set_part_part; destruct (Nat.eqb_spec x a) as [->|]; reflexivity).
  assert (EP : forall x, peers n' x = peers n x) by (intros x; unfold n', peers; rewrite set_part_part; destruct (Nat.eqb_spec x a) as [->|]; reflexivity).
  assert (ES : forall x, svcs n' x = svcs n x) by (intros x; unfold n', svcs; rewrite set_part_part; destruct (Nat.eqb_spec x a) as [->|]; reflexivity).
  destruct W. split.
  - intros b. rewrite ER. apply wf_rcv0.
  - intros b. rewrite ER, ES. apply wf_svc1.
  - intros b. rewrite ES. apply wf_svc2.
  - intros b k s. unfold local. rewrite EL, ES, ER. apply wf_local0.
  - intros b k. unfold local. rewrite EL. apply wf_ndl0.
  - intros x y w I. destruct (wf_chan0 x y w I) as [K M]. split; [|exact M]. eapply wire_ok_ext; [|exact K]. intros z. exists []. now rewrite ER, app_nil_r.
  - intros x b i k. unfold remote. rewrite EL, EP, ER. apply wf_remote0.
  - intros x k. unfold remote. rewrite EL. apply wf_ndr0.
  - intros x y. rewrite EP. apply wf_peers0.
  - exact wf_left0.
Qed.

(** ** Registration *)
Lemma add_local_local : forall s l, l_local (add_local s l) = if existsb (Nat.eqb s) (l_local l) then l_local l else l_local l ++ [s].
Proof. intros. unfold add_local. destruct (existsb _ _); reflexivity. Qed.
Lemma add_local_remote : forall s l, l_remote (add_local s l) = l_remote l.
Proof. intros. unfold add_local. destruct (existsb _ _); reflexivity. Qed.
Lemma add_local_last : forall s l, l_last (add_local s l) = l_last l.
Proof. intros. unfold add_local. destruct (existsb _ _); reflexivity. Qed.
Lemma add_local_hist : forall s l, l_hist (add_local s l) = l_hist l.
Proof. intros. unfold add_local. destruct (existsb _ _); reflexivity. Qed.

(** closed form of register_receiver *)
Definition new_rcv (n : net) (b : nat) (k : key) : bool := negb (existsb (same_id k) (rcvs n b)).
Definition new_local (n : net) (b s : nat) (k : key) : bool := negb (existsb (Nat.eqb s) (local n b k)).
Lemma rr_links : forall b s k n x k', links (register_receiver b s k n) x k' = if (x =? b) && key_eqb k' k then add_local s (links n b k) else links n x k'.
Proof.
  intros. unfold register_receiver. fold (links n b k). fold (local n b k). fold (new_local n b s k).
  set (n1 := set_part b (set_link k (add_local s (links n b k)) (n_part n b)) n).
  assert (E1 : n_part (if new_local n b s k then emit [EReg b k s] n1 else n1) = n_part n1) by (destruct (new_local n b s k); reflexivity).
  rewrite E1. destruct (existsb _ _).
  - unfold links at 1. rewrite E1. apply links_set.
  - unfold links at 1. rewrite post_all_part, set_part_part. destruct (Nat.eqb_spec x b) as [->|Hn].
    + cbn [p_links]. change (p_links (n_part n1 b) k') with (links n1 b k'). unfold n1. rewrite links_set, Nat.eqb_refl. reflexivity.
    + rewrite E1. change (p_links (n_part n1 x) k') with (links n1 x k'). unfold n1. rewrite links_set. now rewrite (proj2 (Nat.eqb_neq x b) Hn).
Qed.
Lemma rr_rcvs : forall b s k n x, rcvs (register_receiver b s k n) x = if (x =? b) && new_rcv n b k then rcvs n b ++ [k] else rcvs n x.
Proof.
  intros. unfold register_receiver. fold (links n b k). fold (local n b k). fold (new_local n b s k).
  set (n1 := set_part b (set_link k (add_local s (links n b k)) (n_part n b)) n).
  assert (E1 : n_part (if new_local n b s k then emit [EReg b k s] n1 else n1) = n_part n1) by (destruct (new_local n b s k); reflexivity).
  rewrite E1. assert (E2 : forall x, p_rcvs (n_part n1 x) = rcvs n x) by (intros; apply same_rcvs). rewrite E2. unfold new_rcv.
  destruct (existsb _ _); cbn [negb].
  - rewrite andb_false_r. unfold rcvs at 1. rewrite E1. apply E2.
  - rewrite andb_true_r. unfold rcvs at 1. rewrite post_all_part, set_part_part. destruct (x =? b); [reflexivity|]. rewrite E1. apply E2.
Qed.
Lemma rr_peers : forall b s k n x, peers (register_receiver b s k n) x = peers n x.
Proof.
  intros. unfold register_receiver. fold (links n b k). fold (local n b k). fold (new_local n b s k).
  set (n1 := set_part b (set_link k (add_local s (links n b k)) (n_part n b)) n).
  assert (E1 : n_part (if new_local n b s k then emit [EReg b k s] n1 else n1) = n_part n1) by (destruct (new_local n b s k); reflexivity).
  rewrite E1. assert (E2 : forall x, p_peers (n_part n1 x) = peers n x) by (intros; apply same_peers).
  destruct (existsb _ _); unfold peers at 1; rewrite ?post_all_part, ?set_part_part; [|destruct (Nat.eqb_spec x b) as [->|]]; cbn [p_peers]; rewrite ?E1; apply E2.
Qed.
Lemma rr_svcs : forall b s k n x, svcs (register_receiver b s k n) x = svcs n x.
Proof.
  intros. unfold register_receiver. fold (links n b k). fold (local n b k). fold (new_local n b s k).
  set (n1 := set_part b (set_link k (add_local s (links n b k)) (n_part n b)) n).
  assert (E1 : n_part (if new_local n b s k then emit [EReg b k s] n1 else n1) = n_part n1) by (destruct (new_local n b s k); reflexivity).
  rewrite E1. assert (E2 : forall x, p_svcs (n_part n1 x) = svcs n x) by (intros; apply same_svcs).
  destruct (existsb _ _); unfold svcs at 1; rewrite ?post_all_part, ?set_part_part; [|destruct (Nat.eqb_spec x b) as [->|]]; cbn [p_svcs]; rewrite ?E1; apply E2.
Qed.
Lemma rr_met : forall b s k n, n_met (register_receiver b s k n) = n_met n.
Proof.
  intros. unfold register_receiver. match goal with |- context [if ?c then emit _ _ else _] => destruct c end; match goal with |- context [if ?c then _ else _] => destruct c end; rewrite ?post_all_met; reflexivity.
Qed.
Lemma rr_trace : forall b s k n, n_trace (register_receiver b s k n) = n_trace n ++ (if new_local n b s k then [EReg b k s] else []).
Proof.
  intros. unfold register_receiver. fold (links n b k). fold (local n b k). fold (new_local n b s k). destruct (new_local n b s k); match goal with |- context [if ?c then _ else _] => destruct c end; rewrite ?post_all_trace; cbn [n_trace emit set_part]; now rewrite ?app_nil_r.
Qed.
Lemma rr_chan : forall b s k n x y, n_chan (register_receiver b s k n) x y =
  n_chan n x y ++ (if (x =? b) && new_rcv n b k then sel y (map (fun q => (q, WSub (length (rcvs n b)) k)) (peers n b)) else []).
Proof.
  intros. unfold register_receiver. fold (links n b k). fold (local n b k). fold (new_local n b s k).
  set (n1 := set_part b (set_link k (add_local s (links n b k)) (n_part n b)) n).
  assert (E1 : n_part (if new_local n b s k then emit [EReg b k s] n1 else n1) = n_part n1) by (destruct (new_local n b s k); reflexivity).
  assert (E3 : n_chan (if new_local n b s k then emit [EReg b k s] n1 else n1) = n_chan n) by (destruct (new_local n b s k); reflexivity).
  rewrite E1. assert (E2 : forall x, p_rcvs (n_part n1 x) = rcvs n x) by (intros; apply same_rcvs). rewrite !E2.
  assert (E4 : p_peers (n_part n1 b) = peers n b) by apply same_peers. rewrite E4. unfold new_rcv.
  destruct (existsb _ _); cbn [negb].
  - rewrite andb_false_r, app_nil_r. now rewrite E3.
  - rewrite andb_true_r, post_all_chan. cbn [n_chan set_part]. now rewrite E3.
Qed.
Lemma in_sel : forall y l w, In w (sel y l) <-> In (y, w) l.
Proof.
  intros. unfold sel. rewrite in_map_iff. split.
  - intros ([p v] & <- & I). apply filter_In in I as [I E]. apply Nat.eqb_eq in E. cbn [fst snd] in *. now subst.
  - intros I. exists (y, w). split; [reflexivity|]. apply filter_In. split; [exact I|apply Nat.eqb_refl].
Qed.

Lemma wf_register_receiver : forall b s k n, wf n -> s < length (svcs n b) -> wf (register_receiver b s k n).
Proof.
  intros b s k n W L. pose proof W as W0. destruct W.
  assert (G : forall x, exists r, rcvs (register_receiver b s k n) x = rcvs n x ++ r).
  { intros x. rewrite rr_rcvs. destruct (Nat.eqb_spec x b) as [->|]; cbn [andb]; [|exists []; now rewrite app_nil_r].
    destruct (new_rcv n b k); [now exists [k]|exists []; now rewrite app_nil_r]. }
  assert (NR : new_rcv n b k = true -> forall i x, nth_error (rcvs n b) i = Some x -> same_id x k = true -> False).
  { unfold new_rcv. rewrite negb_true_iff, not_true, existsb_exists. intros N i x I S. apply N. exists x. split; [eapply nth_error_In, I|now apply same_id_sym]. }
  split.
  - intros b' i j x y. rewrite rr_rcvs. destruct (Nat.eqb_spec b' b) as [->|]; cbn [andb]; [|apply wf_rcv0].
    destruct (new_rcv n b k) eqn:N; [|apply wf_rcv0]. specialize (NR eq_refl). rewrite !nth_error_snoc.
    destruct (Nat.eqb_spec i (length (rcvs n b))) as [->|], (Nat.eqb_spec j (length (rcvs n b))) as [->|]; intros I J S; [reflexivity| | |exact (wf_rcv0 _ _ _ _ _ I J S)].
    + injection I as <-. destruct (NR _ _ J). now apply same_id_sym.
    + injection J as <-. destruct (NR _ _ I S).
  - intros b'. rewrite rr_svcs, rr_rcvs. intros E. destruct (Nat.eqb_spec b' b) as [->|]; cbn [andb]; [|now apply wf_svc1]. rewrite E in L. cbn in L. lia.
  - intros x. rewrite rr_svcs. apply wf_svc2.
  - intros b' k' s'. unfold local. rewrite rr_links, rr_svcs. destruct (G b') as [r Er].
    assert (Old : In s' (l_local (links n b' k')) -> s' < length (svcs n b') /\ exists x, In x (rcvs (register_receiver b s k n) b') /\ same_id x k' = true).
    { intros I. destruct (wf_local0 b' k' s' I) as (Ls & x & Ix & Sx). split; [exact Ls|]. exists x. rewrite Er, in_app_iff. auto. }
    destruct (Nat.eqb_spec b' b) as [->|]; cbn [andb]; [|exact Old]. destruct (key_eqb k' k) eqn:E; [|exact Old]. apply key_eqb_iff in E as ->.
    rewrite add_local_local. destruct (existsb _ _); [exact Old|]. rewrite in_app_iff. intros [I|[<-|[]]]; [exact (Old I)|]. split; [exact L|].
    rewrite rr_rcvs, Nat.eqb_refl. cbn [andb]. destruct (new_rcv n b k) eqn:N.
    + exists k. rewrite in_app_iff. split; [right; now left|apply same_id_refl].
    + unfold new_rcv in N. apply negb_false_iff, existsb_exists in N as (x & Ix & Sx). exists x. split; [exact Ix|now apply same_id_sym].
  - intros b' k'. unfold local. rewrite rr_links. destruct ((b' =? b) && key_eqb k' k); [|apply wf_ndl0]. rewrite add_local_local.
    destruct (existsb _ _) eqn:E; [apply wf_ndl0|]. apply not_true in E. rewrite existsb_eqb in E.
    apply NoDup_rev in E || idtac. rewrite <- (rev_involutive (_ ++ _)), rev_app_distr. apply NoDup_rev. cbn [rev app]. constructor; [now rewrite <- in_rev|]. apply NoDup_rev. apply (wf_ndl0 b k).
  - intros x y w. rewrite rr_chan, in_app_iff. unfold met. rewrite rr_met. intros [I|I].
    + destruct (wf_chan0 x y w I) as [K M]. split; [|exact M]. eapply wire_ok_ext; [exact G|exact K].
    + destruct (Nat.eqb_spec x b) as [->|]; cbn [andb] in I; [|destruct I]. destruct (new_rcv n b k) eqn:N; [|destruct I].
      apply in_sel, in_map_iff in I as (q & E & I). injection E as -> <-. split; [|exact (proj1 (proj2 (wf_peers0 b y I)))].
      cbn [wire_ok]. rewrite rr_rcvs, Nat.eqb_refl, N. cbn [andb]. now rewrite nth_error_snoc, Nat.eqb_refl.
  - intros x b' i k'. unfold remote. rewrite rr_links, rr_peers. intros I.
    assert (I' : In (b', i) (remote n x k')).
    { unfold remote. destruct (Nat.eqb_spec x b) as [->|]; cbn [andb] in I; [|exact I]. destruct (key_eqb k' k) eqn:E; [|exact I]. apply key_eqb_iff in E as ->. now rewrite add_local_remote in I. }
    destruct (wf_remote0 x b' i k' I') as (P & y & Iy & Sy). split; [exact P|]. destruct (G b') as [r Er]. exists y. rewrite Er. split; [now apply nth_error_ext|exact Sy].
  - intros x k'. unfold remote. rewrite rr_links. destruct (Nat.eqb_spec x b) as [->|]; cbn [andb]; [|apply wf_ndr0]. destruct (key_eqb k' k) eqn:E; [|apply wf_ndr0]. rewrite add_local_remote. apply (wf_ndr0 b k).
  - intros x y. rewrite rr_peers, rr_trace. intros I. destruct (wf_peers0 x y I) as (D & M & N). split; [exact D|]. unfold met. rewrite rr_met. split; [exact M|].
    rewrite in_app_iff. intros [H|H]; [now apply N|]. destruct (new_local n b s k); [destruct H as [H|[]]; discriminate|destruct H].
  - intros x y. rewrite rr_trace, in_app_iff. unfold met. rewrite rr_met. intros [H|H]; [now apply wf_left0|]. destruct (new_local n b s k); [destruct H as [H|[]]; discriminate|destruct H].
Qed.

Lemma wf_add_svc : forall a d n, wf n -> d_sid d = length (svcs n a) ->
  wf (set_part a (mkP (p_links (n_part n a)) (p_rcvs (n_part n a)) (p_peers (n_part n a)) (p_senders (n_part n a)) (p_svcs (n_part n a) ++ [d])) n).
Proof.
  intros a d n W D. set (n' := set_part _ _ _).
  assert (EL : forall x, links n' x = links n x) by (intros x; unfold n', links; rewrite set_part_part; destruct (Nat.eqb_spec x a) as [->|]; reflexivity).
  assert (ER : forall x, rcvs n' x = rcvs n x) by (intros x; unfold n', rcvs; rewrite set_part_part; destruct (Nat.eqb_spec x a) as [->|]; reflexivity).
  assert (EP : forall x, peers n' x = peers n x) by (intros x; unfold n', peers; rewrite set_part_part; destruct (Nat.eqb_spec x a) as [->|]; reflexivity).
  assert (ES : forall x, svcs n' x = if x =? a then svcs n a ++ [d] else svcs n x) by (intros x; unfold n', svcs; rewrite set_part_part; destruct (Nat.eqb_spec x a) as [->|]; reflexivity).
  destruct W. split.
  - intros b. rewrite ER. apply wf_rcv0.
  - intros b. rewrite ER, ES. destruct (b =? a); [intros E; destruct (svcs n a); discriminate|apply wf_svc1].
  - intros x s e. rewrite ES. destruct (Nat.eqb_spec x a) as [->|]; [|apply wf_svc2]. rewrite nth_error_snoc. destruct (Nat.eqb_spec s (length (svcs n a))) as [->|]; [|apply wf_svc2].
    injection 1 as <-. exact D.
  - intros b k s. unfold local. rewrite EL, ES, ER. intros I. destruct (wf_local0 b k s I) as [L X]. split; [|exact X]. destruct (Nat.eqb_spec b a) as [->|]; [rewrite app_length; cbn; lia|exact L].
  - intros b k. unfold local. rewrite EL. apply wf_ndl0.
  - intros x y w I. destruct (wf_chan0 x y w I) as [K M]. split; [|exact M]. eapply wire_ok_ext; [|exact K]. intros z. exists []. now rewrite ER, app_nil_r.
  - intros x b i k. unfold remote. rewrite EL, EP, ER. apply wf_remote0.
  - intros x k. unfold remote. rewrite EL. apply wf_ndr0.
  - intros x y. rewrite EP. apply wf_peers0.
  - exact wf_left0.
Qed.

(** an invariant that holds through the parts of a registration *)
Lemma register_ind : forall (P : net -> Prop) a w ty rs ss n,
  P n ->
  (forall n d, P n -> d_sid d = length (svcs n a) -> P (set_part a (mkP (p_links (n_part n a)) (p_rcvs (n_part n a)) (p_peers (n_part n a)) (p_senders (n_part n a)) (p_svcs (n_part n a) ++ [d])) n)) ->
  (forall n s t, P n -> s < length (svcs n a) -> P (register_receiver a s (t, w) n)) ->
  (forall n t, P n -> P (register_sender a (t, w) n)) ->
  P (register hash a w ty rs ss n).
Proof.
  intros P a w ty rs ss n HP H1 H2 H3. unfold register. set (s := length _). set (n1 := set_part _ _ _).
  assert (P1 : P n1) by (apply H1; [exact HP|reflexivity]).
  assert (L1 : s < length (svcs n1 a)) by (unfold n1, svcs; rewrite set_part_part, Nat.eqb_refl; cbn [p_svcs]; rewrite app_length; cbn; subst s; lia).
  clearbody n1 s. clear HP. revert n1 P1 L1. induction rs as [|t rs IH]; intros n1 P1 L1; cbn [fold_left].
  - clear L1. revert n1 P1. induction ss as [|t ss IH]; intros n1 P1; cbn [fold_left]; [exact P1|]. apply IH, H3, P1.
  - apply IH; [now apply H2|now rewrite rr_svcs].
Qed.
Lemma wf_register : forall a w ty rs ss n, wf n -> wf (register hash a w ty rs ss n).
Proof.
  intros. apply register_ind; [assumption|intros; now apply wf_add_svc|intros; now apply wf_register_receiver|intros; now apply wf_senders].
Qed.

(** ** Subscription *)
(** one iteration of try_add *)
Definition add_one (a b idx : nat) (k : key) (n : net) : net :=
  let (ws, l) := add_remote (fst k) b idx (links n a k) in
  let new := negb (existsb (rr_eqb (b, idx)) (remote n a k)) in
  let n1 := set_part a (set_link k l (n_part n a)) n in
  let n2 := if new then emit [ESub a b k] n1 else n1 in
  post_all a (map (fun w => (b, w)) ws) n2.
Lemma try_add_ind : forall (P : net -> Prop) a b idx k n,
  P n -> (forall n t, P n -> serdes_name t = serdes_name (fst k) -> P (add_one a b idx (t, snd k) n)) -> P (try_add a b idx k n).
Proof.
  intros P a b idx k n HP H. unfold try_add. generalize all_types. intros ts. revert n HP. induction ts as [|t ts IH]; intros n HP; [exact HP|].
  cbn [fold_left]. apply IH. destruct (same_serdes t (fst k)) eqn:E; [|exact HP]. apply (H n t HP). now apply String.eqb_eq.
Qed.

#[global] Opaque try_add.
Lemma ao_new : forall a b idx k n, ~ In (b, idx) (remote n a k) ->
  add_one a b idx k n = post_all a (map (fun w => (b, w)) (notify (fst k) idx (links n a k)))
    (emit [ESub a b k] (set_part a (set_link k (mkL (local n a k) (remote n a k ++ [(b, idx)]) (l_last (links n a k)) (l_hist (links n a k))) (n_part n a)) n)).
Proof.
  intros a b idx k n N. unfold add_one, add_remote. fold (remote n a k). rewrite <- existsb_rr in N. apply not_true in N. rewrite N. reflexivity.
Qed.
Lemma ao_old : forall a b idx k n, In (b, idx) (remote n a k) -> add_one a b idx k n = set_part a (set_link k (links n a k) (n_part n a)) n.
Proof.
  intros a b idx k n N. unfold add_one, add_remote. fold (remote n a k). rewrite <- existsb_rr in N. rewrite N. reflexivity.
Qed.
Lemma wf_add_one : forall a b idx k n, wf n -> In b (peers n a) -> (exists x, nth_error (rcvs n b) idx = Some x /\ same_id x k = true) -> wf (add_one a b idx k n).
Proof.
  intros a b idx k n W P X. destruct (existsb (rr_eqb (b, idx)) (remote n a k)) eqn:E.
  - apply existsb_rr in E. rewrite ao_old by exact E. apply wf_set_link; auto; [apply (wf_ndl n W a k)|apply (wf_ndr n W a k)].
  - apply not_true in E. rewrite existsb_rr in E. rewrite ao_new by exact E. apply wf_post_all.
    + apply wf_emit; [intros x y [H|[]]; discriminate|]. apply wf_set_link; cbn [l_local l_remote]; auto.
      * apply (wf_ndl n W a k).
      * rewrite <- (rev_involutive (_ ++ _)), rev_app_distr. apply NoDup_rev. cbn [rev app]. constructor; [now rewrite <- in_rev|]. apply NoDup_rev, (wf_ndr n W a k).
      * intros b' i. rewrite in_app_iff. intros [H|[H|[]]]; [now left|]. injection H as <- <-. right. auto.
    + intros b' w I. apply in_map_iff in I as (v & E' & I). injection E' as <- ->. split; [|exact (proj1 (proj2 (wf_peers n W a b P)))].
      unfold notify in I. destruct (has_history (fst k)); [|destruct I]. destruct (l_last (links n a k)); [|destruct I]. destruct (l_hist (links n a k)); [|destruct I].
      destruct I as [<-|[]]. cbn [wire_ok]. destruct X as (x & Hx & Sx). exists x. rewrite emit_rcvs, same_rcvs. split; [exact Hx|]. now apply same_id_iff in Sx.
Qed.
Lemma ao_rcvs : forall a b idx k n x, rcvs (add_one a b idx k n) x = rcvs n x.
Proof.
  intros. destruct (existsb (rr_eqb (b, idx)) (remote n a k)) eqn:E.
  - apply existsb_rr in E. rewrite ao_old by exact E. apply same_rcvs.
  - apply not_true in E. rewrite existsb_rr in E. rewrite ao_new by exact E. unfold rcvs. rewrite post_all_part. apply same_rcvs.
Qed.
Lemma ao_peers : forall a b idx k n x, peers (add_one a b idx k n) x = peers n x.
Proof.
  intros. destruct (existsb (rr_eqb (b, idx)) (remote n a k)) eqn:E.
  - apply existsb_rr in E. rewrite ao_old by exact E. apply same_peers.
  - apply not_true in E. rewrite existsb_rr in E. rewrite ao_new by exact E. unfold peers. rewrite post_all_part. apply same_peers.
Qed.
Lemma ao_svcs : forall a b idx k n x, svcs (add_one a b idx k n) x = svcs n x.
Proof.
  intros. destruct (existsb (rr_eqb (b, idx)) (remote n a k)) eqn:E.
  - apply existsb_rr in E. rewrite ao_old by exact E. apply same_svcs.
  - apply not_true in E. rewrite existsb_rr in E. rewrite ao_new by exact E. unfold svcs. rewrite post_all_part. apply same_svcs.
Qed.

(** the condition under which a subscription is handled *)
Definition sub_ok (n : net) (a b idx : nat) (k : key) : Prop := In b (peers n a) /\ nth_error (rcvs n b) idx = Some k.
Lemma try_add_inv : forall (P : net -> Prop) a b idx k n,
  P n -> sub_ok n a b idx k ->
  (forall n t, P n -> sub_ok n a b idx k -> serdes_name t = serdes_name (fst k) -> P (add_one a b idx (t, snd k) n)) ->
  P (try_add a b idx k n) /\ sub_ok (try_add a b idx k n) a b idx k.
Proof.
  intros P a b idx k n HP S H. apply (try_add_ind (fun n => P n /\ sub_ok n a b idx k)); [split; assumption|].
  intros n' t [HP' S'] E. split; [now apply H|]. unfold sub_ok in *. now rewrite ao_peers, ao_rcvs.
Qed.
Lemma wf_try_add : forall a b idx k n, wf n -> sub_ok n a b idx k -> wf (try_add a b idx k n).
Proof.
  intros a b idx k n W S. refine (proj1 (try_add_inv wf a b idx k n W S _)). intros n' t W' [I J] E. apply wf_add_one; [assumption|assumption|].
  exists k. split; [exact J|]. apply same_id_iff. cbn [fst snd]. auto.
Qed.
Lemma try_add_rcvs : forall a b idx k n x, rcvs (try_add a b idx k n) x = rcvs n x.
Proof. intros. apply (try_add_ind (fun n' => rcvs n' x = rcvs n x)); [reflexivity|]. intros n' t E _. now rewrite ao_rcvs. Qed.
Lemma try_add_peers : forall a b idx k n x, peers (try_add a b idx k n) x = peers n x.
Proof. intros. apply (try_add_ind (fun n' => peers n' x = peers n x)); [reflexivity|]. intros n' t E _. now rewrite ao_peers. Qed.
Lemma try_add_svcs : forall a b idx k n x, svcs (try_add a b idx k n) x = svcs n x.
Proof. intros. apply (try_add_ind (fun n' => svcs n' x = svcs n x)); [reflexivity|]. intros n' t E _. now rewrite ao_svcs. Qed.

Lemma fold_inv : forall {A S} (f : S -> A -> S) (I : S -> Prop) (l : list A), (forall n x, In x l -> I n -> I (f n x)) -> forall n, I n -> I (fold_left f l n).
Proof.
  intros A S f I l. induction l as [|x l IH]; intros H n HI; [exact HI|]. cbn [fold_left]. apply IH; [intros; apply H; [now right|assumption]|]. apply H; [now left|exact HI].
Qed.
Lemma reply_inv : forall (P : net -> Prop) a b subs n,
  P n -> In b (peers n a) -> (forall i k, In (i, k) subs -> nth_error (rcvs n b) i = Some k) ->
  (forall n i t k, P n -> sub_ok n a b i k -> serdes_name t = serdes_name (fst k) -> P (add_one a b i (t, snd k) n)) ->
  P (fold_left (fun n x => try_add a b (fst x) (snd x) n) subs n).
Proof.
  intros P a b subs n HP Pb Hs H.
  apply (fold_inv (fun n x => try_add a b (fst x) (snd x) n) (fun n => P n /\ In b (peers n a) /\ forall i k, In (i, k) subs -> nth_error (rcvs n b) i = Some k) subs); [|auto].
  clear n HP Pb Hs. intros n [i k] I (HP & Pb & Hs). assert (S : sub_ok n a b i k) by (split; auto).
  destruct (try_add_inv P a b i k n HP S) as [HP' S']; [intros; now apply H|]. split; [exact HP'|]. split; [exact (proj1 S')|].
  intros i' k' I'. cbn [fst snd]. rewrite try_add_rcvs. now apply Hs.
Qed.

(** ** Removal of a peer *)
Definition named (n : net) : Prop := forall a b, met n a b -> isname a /\ isname b.
Lemma erase_first_in : forall p rs r, In r (erase_first hash p rs) -> In r rs.
Proof. intros p rs. induction rs as [|x rs IH]; intros r; cbn [erase_first]; [auto|]. destruct (_ =? _); [now right|]. intros [->|I]; [now left|right; auto]. Qed.
Lemma erase_first_nodup : forall p rs, NoDup rs -> NoDup (erase_first hash p rs).
Proof.
  intros p rs. induction rs as [|x rs IH]; intros N; cbn [erase_first]; [exact N|]. inversion N as [|? ? A B]; subst. destruct (_ =? _); [exact B|].
  constructor; [intros I; apply A; eapply erase_first_in, I|auto].
Qed.
Lemma erase_first_gone : forall p rs, isname p -> (forall q i, In (q, i) rs -> isname q) -> NoDup rs -> (forall i j, In (p, i) rs -> In (p, j) rs -> i = j) -> forall i, ~ In (p, i) (erase_first hash p rs).
Proof.
  intros p rs Np. induction rs as [|[q j] rs IH]; intros Nq ND U i; cbn [erase_first fst]; [auto|]. inversion ND as [|? ? A B]; subst.
  destruct (Nat.eqb_spec (hash q) (hash p)) as [E|E].
  - apply Hinj in E as ->; [|apply (Nq q j); now left|exact Np]. intros I. assert (i = j) by (apply U; [now right|now left]). subst. contradiction.
  - intros [H|I]; [injection H as -> ->; congruence|]. revert I. apply IH; [intros q' i' I'; apply (Nq q' i'); now right|exact B|]. intros x y Hx Hy. apply U; now right.
Qed.
Lemma erase_first_keep : forall p q i rs, isname p -> isname q -> q <> p -> In (q, i) rs -> In (q, i) (erase_first hash p rs).
Proof.
  intros p q i rs Np Nq D. induction rs as [|x rs IH]; cbn [erase_first]; [auto|]. intros [->|I].
  - cbn [fst]. destruct (Nat.eqb_spec (hash q) (hash p)) as [E|]; [apply Hinj in E; [contradiction|exact Nq|exact Np]|now left].
  - destruct (_ =? _); [exact I|right; auto].
Qed.

Lemma wf_close : forall a b n, wf n -> named n -> In a (peers n b) ->
  wf (emit [ELeft b a] (set_part b (mkP (fun k => remove_remote hash a (p_links (n_part n b) k)) (p_rcvs (n_part n b))
                                        (filter (fun q => negb (q =? a)) (p_peers (n_part n b))) (p_senders (n_part n b)) (p_svcs (n_part n b))) n)).
Proof.
  intros a b n W NM P. set (n' := emit _ _).
  assert (EL : forall x k, links n' x k = if x =? b then remove_remote hash a (links n b k) else links n x k) by (intros; unfold n', links, emit; cbn [n_part]; rewrite set_part_part; destruct (Nat.eqb_spec x b) as [->|]; reflexivity).
  assert (ER : forall x, rcvs n' x = rcvs n x) by (intros x; unfold n', rcvs, emit; cbn [n_part]; rewrite set_part_part; destruct (Nat.eqb_spec x b) as [->|]; reflexivity).
  assert (EP : forall x, peers n' x = if x =? b then filter (fun q => negb (q =? a)) (peers n b) else peers n x) by (intros x; unfold n', peers, emit; cbn [n_part]; rewrite set_part_part; destruct (Nat.eqb_spec x b) as [->|]; reflexivity).
  assert (ES : forall x, svcs n' x = svcs n x) by (intros x; unfold n', svcs, emit; cbn [n_part]; rewrite set_part_part; destruct (Nat.eqb_spec x b) as [->|]; reflexivity).
  destruct (wf_peers n W b a P) as (D & M & NL). destruct W. split.
  - intros x. rewrite ER. apply wf_rcv0.
  - intros x. rewrite ER, ES. apply wf_svc1.
  - intros x. rewrite ES. apply wf_svc2.
  - intros x k s. unfold local. rewrite EL, ES, ER. intros I. apply wf_local0. unfold local. destruct (Nat.eqb_spec x b) as [->|]; exact I.
  - intros x k. unfold local. rewrite EL. destruct (Nat.eqb_spec x b) as [->|]; apply wf_ndl0.
  - intros x y w I. destruct (wf_chan0 x y w I) as [K M']. split; [|exact M']. eapply wire_ok_ext; [|exact K]. intros z. exists []. now rewrite ER, app_nil_r.
  - intros x c i k. unfold remote. rewrite EL, EP, ER. destruct (Nat.eqb_spec x b) as [->|]; [|apply wf_remote0]. unfold remove_remote. cbn [l_remote]. intros I.
    assert (I' := erase_first_in _ _ _ I). destruct (wf_remote0 b c i k I') as [Pc X]. split; [|exact X]. apply filter_In. split; [exact Pc|].
    destruct (Nat.eqb_spec c a) as [->|]; [|reflexivity]. exfalso. revert I. apply erase_first_gone; [apply (NM b a M)|intros q j Iq; apply (NM b q), (wf_peers0 b q), (wf_remote0 b q j k Iq)|apply (wf_ndr0 b k)|].
    intros i1 i2 H1 H2. destruct (wf_remote0 b a i1 k H1) as (_ & x1 & N1 & S1). destruct (wf_remote0 b a i2 k H2) as (_ & x2 & N2 & S2).
    apply (wf_rcv0 a i1 i2 x1 x2 N1 N2). eapply same_id_trans; [exact S1|now apply same_id_sym].
  - intros x k. unfold remote. rewrite EL. destruct (Nat.eqb_spec x b) as [->|]; [|apply wf_ndr0]. apply erase_first_nodup, (wf_ndr0 b k).
  - intros x y. rewrite EP. intros I. assert (I' : In y (peers n x) /\ (x = b -> y <> a)).
    { destruct (Nat.eqb_spec x b) as [->|]; [|split; [exact I|contradiction]]. apply filter_In in I as [I E]. split; [exact I|]. intros _ ->. now rewrite Nat.eqb_refl in E. }
    destruct I' as [I1 I2]. destruct (wf_peers0 x y I1) as (D1 & M1 & L1). split; [exact D1|]. split; [exact M1|]. unfold n', emit. cbn [n_trace]. rewrite in_app_iff.
    intros [H|[H|[]]]; [now apply L1|]. injection H as -> ->. now apply I2.
  - intros x y. unfold n', emit. cbn [n_trace]. rewrite in_app_iff. intros [H|[H|[]]]; [exact (wf_left0 x y H)|]. injection H as -> ->. exact M.
Qed.

(** ** Connecting *)
Lemma wf_connect : forall a b n, wf n -> wf (step hash throws (OConnect a b) n).
Proof.
  intros a b n W. cbn [step]. destruct (_ || _) eqn:E; [exact W|]. rewrite !orb_false_iff in E. destruct E as [[[E1 E2] E3] E4].
  apply Nat.eqb_neq in E1. unfold pair_eqb in *. apply not_true in E2, E3. rewrite existsb_rr in E2, E3.
  set (n' := post _ _ _ _).
  assert (EL : forall x, links n' x = links n x).
  { intros x. unfold n', links, post, set_chan. cbn [n_part]. rewrite !set_part_part. destruct (Nat.eqb_spec x b) as [->|]; cbn [p_links]; destruct (Nat.eqb_spec b a) as [->|]; cbn [p_links]; try reflexivity; destruct (Nat.eqb_spec x a) as [->|]; reflexivity. }
  assert (ER : forall x, rcvs n' x = rcvs n x).
  { intros x. unfold n', rcvs, post, set_chan. cbn [n_part]. rewrite !set_part_part. destruct (Nat.eqb_spec x b) as [->|]; cbn [p_rcvs]; destruct (Nat.eqb_spec b a) as [->|]; cbn [p_rcvs]; try reflexivity; destruct (Nat.eqb_spec x a) as [->|]; reflexivity. }
  assert (ES : forall x, svcs n' x = svcs n x).
  { intros x. unfold n', svcs, post, set_chan. cbn [n_part]. rewrite !set_part_part. destruct (Nat.eqb_spec x b) as [->|]; cbn [p_svcs]; destruct (Nat.eqb_spec b a) as [->|]; cbn [p_svcs]; try reflexivity; destruct (Nat.eqb_spec x a) as [->|]; reflexivity. }
  assert (EP : forall x, peers n' x = peers n x ++ (if x =? a then [b] else if x =? b then [a] else [])).
  { intros x. unfold n', peers, post, set_chan. cbn [n_part]. rewrite !set_part_part. destruct (Nat.eqb_spec x b) as [->|]; cbn [p_peers].
    - destruct (Nat.eqb_spec b a) as [->|]; [contradiction|]. reflexivity.
    - destruct (Nat.eqb_spec x a) as [->|]; cbn [p_peers]; [reflexivity|now rewrite app_nil_r]. }
  assert (EM : forall x y, met n' x y <-> met n x y \/ (x = a /\ y = b) \/ (x = b /\ y = a)).
  { intros. unfold met, n', post, set_chan. cbn [n_met In]. split; [|intuition (subst; auto)]. intros [[H|H]|[H|H]]; try injection H as -> ->; auto. }
  assert (ET : n_trace n' = n_trace n) by reflexivity. destruct W. split.
  - intros x. rewrite ER. apply wf_rcv0.
  - intros x. rewrite ER, ES. apply wf_svc1.
  - intros x. rewrite ES. apply wf_svc2.
  - intros x k s. unfold local. rewrite EL, ES, ER. apply wf_local0.
  - intros x k. unfold local. rewrite EL. apply wf_ndl0.
  - intros x y w. unfold n' at 1. rewrite post_chan, in_app_iff. intros [I|I].
    + destruct (wf_chan0 x y w I) as [K M]. split; [|apply EM; now left]. eapply wire_ok_ext; [|exact K]. intros z. exists []. now rewrite ER, app_nil_r.
    + destruct (Nat.eqb_spec x a) as [->|]; cbn [andb] in I; [|destruct I]. destruct (Nat.eqb_spec y b) as [->|]; [|destruct I]. destruct I as [<-|[]]. split; [exact Logic.I|apply EM; auto].
  - intros x c i k. unfold remote. rewrite EL, EP, ER. intros I. destruct (wf_remote0 x c i k I) as [P X]. split; [apply in_or_app; now left|exact X].
  - intros x k. unfold remote. rewrite EL. apply wf_ndr0.
  - intros x y. rewrite EP, in_app_iff, ET. intros [I|I].
    + destruct (wf_peers0 x y I) as (D & M & L). split; [exact D|]. split; [apply EM; now left|exact L].
    + assert (X : x = a /\ y = b \/ x = b /\ y = a).
      { destruct (Nat.eqb_spec x a) as [->|]; [destruct I as [<-|[]]; auto|]. destruct (Nat.eqb_spec x b) as [->|]; [destruct I as [<-|[]]; auto|destruct I]. }
      split; [destruct X as [[-> ->]|[-> ->]]; congruence|]. split; [apply EM; auto|]. intros H. apply wf_left0 in H. unfold met in H.
      destruct X as [[-> ->]|[-> ->]]; intuition.
  - intros x y H. apply EM. left. now apply wf_left0.
Qed.

Lemma enumerate_nth : forall ks i0 i k, In (i, k) (enumerate i0 ks) -> i0 <= i /\ nth_error ks (i - i0) = Some k.
Proof.
  induction ks as [|x ks IH]; intros i0 i k; cbn [enumerate]; [contradiction|]. intros [H|H].
  - injection H as -> ->. split; [lia|]. now rewrite Nat.sub_diag.
  - destruct (IH _ _ _ H) as [L E]. split; [lia|]. destruct (i - i0) as [|j] eqn:D; [lia|]. cbn [nth_error]. rewrite <- E. f_equal. lia.
Qed.

Definition no_left (es : list event) : Prop := forall a b, ~ In (ELeft a b) es.
Lemma no_left_flat : forall {A} (f : A -> list event) l, (forall x, no_left (f x)) -> no_left (flat_map f l).
Proof. intros A f l H a b I. apply in_flat_map in I as (x & _ & I). exact (H x a b I). Qed.
Lemma no_left_dispatch : forall b k s a m, no_left (dispatch throws b k s a m).
Proof. intros b k s a m x y. unfold dispatch. destruct (throws b s k m); intros [H|[]]; discriminate. Qed.
Lemma no_left_remote : forall b k a m l, no_left (distribute_remote throws b k a m l).
Proof. intros. apply no_left_flat. intros. apply no_left_dispatch. Qed.
Lemma no_left_self : forall descs from a k m l, no_left (distribute_to_self throws descs from a k m l).
Proof.
  intros. unfold distribute_to_self. destruct (self_forbidden (fst k)); [intros x y []|]. apply no_left_flat. intros s. destruct (_ && _); [intros x y []|apply no_left_dispatch].
Qed.

Lemma wf_pop : forall a b w ws n, wf n -> n_chan n a b = w :: ws -> wf (set_chan a b ws n).
Proof.
  intros a b w ws n W E. destruct W. split; try assumption. intros x y v. unfold set_chan at 1. cbn [n_chan]. intros I. apply (wf_chan0 x y v).
  destruct (Nat.eqb_spec x a) as [->|], (Nat.eqb_spec y b) as [->|]; cbn [andb] in I; try exact I. rewrite E. now right.
Qed.

Lemma wf_receive : forall a b w n, wf n -> In a (peers n b) -> wire_ok n a b w -> wf (receive throws a b w n).
Proof.
  intros a b w n W P K. assert (M : met n b a) by exact (proj1 (proj2 (wf_peers n W b a P))). destruct w; cbn [receive].
  - apply wf_post; [exact W| |exact M]. cbn [wire_ok]. intros i k I. apply enumerate_nth in I as [_ I]. now rewrite Nat.sub_0_r in I.
  - apply wf_emit; [intros x y [H|[]]; discriminate|]. apply (reply_inv wf); auto. intros n' i t k W' [S1 S2] E. apply wf_add_one; [exact W'|exact S1|].
    exists k. split; [exact S2|]. apply same_id_iff. auto.
  - assert (S : sub_ok n b a idx k) by (split; assumption). apply wf_post; [now apply wf_try_add|exact I|].
    destruct (try_add_inv (fun n' => n_met n' = n_met n) b a idx k n eq_refl S) as [E _].
    + intros n' t E _ _. rewrite <- E. unfold add_one, add_remote. destruct (existsb _ _); cbn [negb]; rewrite post_all_met; reflexivity.
    + unfold met. rewrite E. exact M.
  - apply wf_emit; [intros x y [H|[]]; discriminate|exact W].
  - destruct (nth_error _ _) as [k|]; [destruct (mtype_beq _ _)|]; (apply wf_emit; [|exact W]).
    + intros x y [H|H]; [discriminate|]. revert H. apply no_left_remote.
    + intros x y [H|[]]. discriminate.
    + intros x y [H|[]]. discriminate.
Qed.

Lemma set_emit : forall a p es n, set_part a p (emit es n) = emit es (set_part a p n).
Proof. reflexivity. Qed.
Lemma save_fields : forall t m l, l_local (save t m l) = l_local l /\ l_remote (save t m l) = l_remote l /\ l_hist (save t m l) = l_hist l /\
  l_last (save t m l) = if has_history t && l_hist l then Some m else l_last l.
Proof. intros. unfold save. destruct (_ && _); auto. Qed.

Lemma wf_keep_link : forall n a k l, wf n -> l_local l = local n a k -> l_remote l = remote n a k -> wf (set_part a (set_link k l (n_part n a)) n).
Proof.
  intros n a k l W E1 E2. apply wf_set_link; rewrite ?E1, ?E2; auto; [apply (wf_ndl n W a k)|apply (wf_ndr n W a k)].
Qed.

Theorem wf_step : forall o n, wf n -> named n -> wf (step hash throws o n).
Proof.
  intros o n W NM. destruct o.
  - now apply wf_connect.
  - cbn [step]. now apply wf_register.
  - cbn [step]. apply wf_emit; [intros x y [H|[]]; discriminate|]. apply wf_keep_link; [exact W| |]; unfold set_history; destruct (has_history _); reflexivity.
  - cbn [step]. destruct (nth_error _ _) as [d|]; [|exact W]. destruct (existsb _ _); [|apply wf_emit; [intros x y [H|[]]; discriminate|exact W]].
    unfold distribute_local, transmit. set (k := (t, d_net d)). apply wf_emit; [apply no_left_self|].
    destruct (save_fields (fst k) (s, v) (p_links (n_part n a) k)) as (S1 & S2 & S3 & S4). rewrite set_emit. apply wf_post_all.
    + apply wf_emit; [intros x y [H|[]]; discriminate|]. apply wf_keep_link; assumption.
    + intros b w I. apply in_map_iff in I as ([b' i] & E & I). injection E as <- <-. cbn [fst snd].
      destruct (wf_remote n W a b' i k I) as (P & x & Hx & Sx). split; [|exact (proj1 (proj2 (wf_peers n W a b' P)))]. cbn [wire_ok]. exists x.
      rewrite emit_rcvs, same_rcvs. split; [exact Hx|now apply same_id_iff in Sx].
  - cbn [step]. destruct (nth_error _ _) as [d|]; [|exact W]. destruct (existsb _ _); [|apply wf_emit; [intros x y [H|[]]; discriminate|exact W]].
    set (k := (t, d_net d)). destruct (a =? b).
    + apply wf_emit; [|exact W]. intros x y [H|H]; [discriminate|]. revert H. apply no_left_self.
    + unfold transmit_to. destruct (save_fields t (s, v) (p_links (n_part n a) k)) as (S1 & S2 & S3 & S4). rewrite set_emit.
      destruct (find _ _) as [[b' i]|] eqn:F; cbn [option_map].
      * apply find_some in F as [I _]. apply wf_post_all.
        -- apply wf_emit; [intros x y [H|[]]; discriminate|]. apply wf_keep_link; assumption.
        -- intros c w [E|[]]. injection E as <- <-. cbn [fst snd].
           destruct (wf_remote n W a b' i k I) as (P & x & Hx & Sx). split; [|exact (proj1 (proj2 (wf_peers n W a b' P)))]. cbn [wire_ok]. exists x.
           rewrite emit_rcvs, same_rcvs. split; [exact Hx|now apply same_id_iff in Sx].
      * apply wf_emit; [intros x y [H|[]]; discriminate|]. apply wf_emit; [intros x y [H|[]]; discriminate|]. apply wf_keep_link; assumption.
  - cbn [step]. unfold has_peer. destruct (existsb _ _) eqn:E; [|exact W]. apply existsb_eqb in E. destruct (n_chan n a b) as [|w ws] eqn:C; [exact W|].
    apply wf_receive; [eapply wf_pop; [exact W|exact C]|exact E|]. apply (wf_chan n W a b w). rewrite C. now left.
  - cbn [step]. unfold has_peer. destruct (existsb _ _) eqn:E; [|exact W]. apply existsb_eqb in E. now apply wf_close.
Qed.

Lemma run_snoc : forall ops o, run hash throws (ops ++ [o]) = step hash throws o (run hash throws ops).
Proof. intros. unfold run. now rewrite fold_left_app. Qed.
Lemma ao_met : forall a b idx k n, n_met (add_one a b idx k n) = n_met n.
Proof. intros. unfold add_one. destruct (add_remote _ _ _ _). rewrite post_all_met. destruct (negb _); reflexivity. Qed.
Lemma try_add_met : forall a b idx k n, n_met (try_add a b idx k n) = n_met n.
Proof. intros. apply (try_add_ind (fun n' => n_met n' = n_met n) a b idx k n eq_refl). intros n' t E _. rewrite ao_met. exact E. Qed.
Lemma reply_met : forall a b (subs : list (nat * key)) n, n_met (fold_left (fun n x => try_add a b (fst x) (snd x) n) subs n) = n_met n.
Proof.
  intros a b subs n. refine (fold_inv (fun n x => try_add a b (fst x) (snd x) n) (fun n' => n_met n' = n_met n) subs _ n eq_refl).
  intros n' x _ E. exact (eq_trans (try_add_met a b (fst x) (snd x) n') E).
Qed.
Lemma emit_met : forall es n, n_met (emit es n) = n_met n.
Proof. reflexivity. Qed.
Lemma post_met : forall a b w n, n_met (post a b w n) = n_met n.
Proof. reflexivity. Qed.
Lemma step_met : forall o n, n_met (step hash throws o n) = n_met n \/ exists a b, o = OConnect a b /\ n_met (step hash throws o n) = (a, b) :: n_met n.
Proof.
  intros o n. destruct o as [c d|c w ty rs ss|c k0 h|c s t v|c s t d v|c d|c d]; cbn [step].
  - destruct (_ || _); [now left|]. right. exists c, d. split; reflexivity.
  - left. apply (register_ind (fun n' => n_met n' = n_met n)); [reflexivity|auto| |auto]. intros n0 s t E _. now rewrite rr_met.
  - now left.
  - left. destruct (nth_error _ _); [|reflexivity]. destruct (existsb _ _); [|reflexivity]. unfold distribute_local, transmit. cbn [emit n_met]. now rewrite post_all_met.
  - left. destruct (nth_error _ _); [|reflexivity]. destruct (existsb _ _); [|reflexivity]. destruct (_ =? _); [reflexivity|]. unfold transmit_to. destruct (find _ _); reflexivity.
  - left. destruct (has_peer _ _ _); [|reflexivity]. destruct (n_chan n c d) as [|w ws]; [reflexivity|]. destruct w; cbn [receive]; try reflexivity.
    + rewrite emit_met. exact (reply_met d c subs (set_chan c d ws n)).
    + rewrite post_met. exact (try_add_met d c idx k (set_chan c d ws n)).
    + destruct (nth_error _ _); [|reflexivity]. destruct (mtype_beq _ _); reflexivity.
  - left. destruct (has_peer _ _ _); reflexivity.
Qed.
Definition named_ops (ops : list op) : Prop := forall x, In x (names ops) -> isname x.
Lemma named_step : forall o n, named_ops [o] -> named n -> named (step hash throws o n).
Proof.
  intros o n NO NM x y M. unfold met in M. destruct (step_met o n) as [E|(a & b & -> & E)]; rewrite E in M; [exact (NM x y M)|].
  assert (isname a /\ isname b) by (split; apply NO; cbn; auto). destruct M as [[M|M]|[M|M]]; try (injection M as -> ->; tauto); [apply (NM x y); now left|apply (NM x y); now right].
Qed.
Lemma named_ops_app : forall p q, named_ops (p ++ q) -> named_ops p /\ named_ops q.
Proof. intros p q H. split; intros x I; apply H; unfold names; rewrite flat_map_app, in_app_iff; auto. Qed.
Theorem wf_run : forall ops, named_ops ops -> wf (run hash throws ops) /\ named (run hash throws ops).
Proof.
  intros ops. induction ops as [|o ops IH] using rev_ind; intros NO; [split; [apply wf_net0|intros x y [[]|[]]]|]. apply named_ops_app in NO as [N1 N2]. destruct (IH N1) as [W NM]. rewrite run_snoc.
  split; [now apply wf_step|now apply named_step].
Qed.

End WithHash.
