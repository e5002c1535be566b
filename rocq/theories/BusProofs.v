(** Proofs about the CAN/Ethernet model: what every call, with everything its handlers do, changes. *)
From Coq Require Import List NArith Arith Bool Lia Sorting.Sorted Logic.FinFun.
From Verif Require Import Base BusModel.
Import ListNotations.

(** * Reading the log *)

(** The SendFrame call an event belongs to, and the controller at which it happens. *)
Definition ev_num (e : ev) : option nat :=
  match e with ECall _ n _ _ _ => Some n | EFrame _ _ n _ _ _ => Some n | EAck _ n _ _ _ => Some n | _ => None end.
Definition ev_at (e : ev) : nat :=
  match e with ECall i _ _ _ _ => i | EMode i _ => i | EFrame j _ _ _ _ _ => j | EAck i _ _ _ _ => i | ESt i _ => i end.

(** [at_ j n l]: the events of call [n] at controller [j]. *)
Definition is_at (j n : nat) (e : ev) : bool :=
  (ev_at e =? j) && match ev_num e with Some k => k =? n | None => false end.
Definition at_ (j n : nat) (l : list ev) : list ev := filter (is_at j n) l.

(** [rxs g j p l]: the call numbers of the frames controller [j] received (direction RX) from the
    controllers of participant [p], in order. *)
Definition rx_num (g : cfg) (j p : nat) (e : ev) : list nat :=
  match e with
  | EFrame j' i n RX _ _ => if (j' =? j) && (part g i =? p) then [n] else []
  | _ => []
  end.
Definition rxs (g : cfg) (j p : nat) (l : list ev) : list nat := flat_map (rx_num g j p) l.

(** The state of controller [i] according to its state change handler. *)
Definition st_step (i : nat) (x : bst) (e : ev) : bst :=
  match e with ESt j y => if j =? i then y else x | _ => x end.
Definition last_st (k : kind) (i : nat) (l : list ev) : bst := fold_left (st_step i) l (init_st k).

(** Messages on their way: with number [n] to participant [q]; from [p] to [q]. *)
Definition pend (q n : nat) (l : list wire) : list wire :=
  filter (fun w => (w_dst w =? q) && (m_n (w_msg w) =? n)) l.
Definition between (p q : nat) (l : list wire) : list nat :=
  map (fun w => m_n (w_msg w)) (filter (fun w => (w_src w =? p) && (w_dst w =? q)) l).

(** What controller [j] has got and will get of call [n]. *)
Definition view (g : cfg) (s : net) (j n : nat) : list ev :=
  at_ j n (b_log s) ++
  map (fun w => frame_event (c_kind g) j RX (w_msg w)) (pend (part g j) n (b_net s)).

Definition ack_event (k : kind) (i n : nat) (f : frame) (ctx : N) (st : bst) : list ev :=
  match ack_of k st with
  | Some a => [EAck i n (match k with KCan => f_id f | KEth => 0%N end) a ctx]
  | None => []
  end.

Definition expected (g : cfg) (i n : nat) (f : frame) (ctx : N) (st : bst) (j : nat) : list ev :=
  let k := c_kind g in
  if j =? i then
    ECall i n f ctx st ::
    (if transmits k st then [EFrame i i n TX (wire_frame k f) ctx] else []) ++ ack_event k i n f ctx st
  else if transmits k st then [EFrame j i n RX (wire_frame k f) 0%N] else [].

(** * Invariant and frame *)

(** The log as far as the states of the controllers are concerned. *)
Inductive st_log (k : kind) : list ev -> Prop :=
| sl_nil : st_log k []
| sl_call l i n f c : st_log k l -> st_log k (l ++ [ECall i n f c (last_st k i l)])
| sl_frame l j i n d f c : st_log k l -> st_log k (l ++ [EFrame j i n d f c])
| sl_ack l i n id a c : st_log k l -> st_log k (l ++ [EAck i n id a c])
| sl_same l i m : st_log k l ->
    (mode_target k m (last_st k i l) = None \/ mode_target k m (last_st k i l) = Some (last_st k i l)) ->
    st_log k (l ++ [EMode i m])
| sl_change l i m x : st_log k l ->
    mode_target k m (last_st k i l) = Some x -> x <> last_st k i l ->
    st_log k (l ++ [EMode i m; ESt i x]).

(** The numbers of the SendFrame calls, in order. *)
Definition call_nums (l : list ev) : list nat :=
  flat_map (fun e => match e with ECall _ n _ _ _ => [n] | _ => [] end) l.

(** Every event of a call comes after the call. *)
Definition causal (l : list ev) : Prop :=
  forall a e b n, l = a ++ e :: b -> ev_num e = Some n ->
    match e with ECall _ _ _ _ _ => True | _ => In n (call_nums a) end.

Record Inv (g : cfg) (s : net) : Prop := {
  i_wire : Forall (fun w => m_n (w_msg w) < b_next s /\ w_src w = part g (m_from (w_msg w))
                            /\ w_dst w <> w_src w) (b_net s);
  i_uniq : NoDup (map (fun w => (w_dst w, m_n (w_msg w))) (b_net s));
  i_num : Forall (fun e => match ev_num e with Some n => n < b_next s | None => True end) (b_log s);
  i_st : forall i, b_st s i = last_st (c_kind g) i (b_log s);
  i_log : st_log (c_kind g) (b_log s);
  i_calls : call_nums (b_log s) = seq 0 (b_next s);
  i_caus : causal (b_log s) }.

Definition Good (g : cfg) (s : net) (n : nat) : Prop :=
  exists i f ctx st, i < ncontrollers g /\
    forall j, j < ncontrollers g -> view g s j n = expected g i n f ctx st j.

(** [Fr g s s' A]: from [s] to [s'] the events [A] happened for old calls, and besides only complete
    new calls, or deliveries of messages which were on their way. *)
Record Fr (g : cfg) (s s' : net) (A : list ev) : Prop := {
  f_next : b_next s <= b_next s';
  f_view : forall j n, j < ncontrollers g -> n < b_next s -> view g s' j n = view g s j n ++ at_ j n A;
  f_pend : forall q n, n < b_next s -> pend q n (b_net s) = [] -> pend q n (b_net s') = [];
  f_good : forall n, b_next s <= n < b_next s' -> Good g s' n;
  f_io : forall p, b_io s' p = b_io s p;
  f_busy : forall j p, p <> part g j -> b_io s (part g j) = true ->
      rxs g j p (b_log s') = rxs g j p (b_log s) ++ rxs g j p A /\
      exists t, between p (part g j) (b_net s') = between p (part g j) (b_net s) ++ t /\
                StronglySorted lt t /\ Forall (fun n => b_next s <= n < b_next s') t;
  f_order : forall j p, j < ncontrollers g -> p <> part g j -> rxs g j p A = [] ->
      exists t, rxs g j p (b_log s') ++ between p (part g j) (b_net s')
                = rxs g j p (b_log s) ++ between p (part g j) (b_net s) ++ t /\
                StronglySorted lt t /\ Forall (fun n => b_next s <= n < b_next s') t }.

Definition Pres (g : cfg) (h : net -> net) : Prop :=
  forall s, Inv g s -> Inv g (h s) /\ Fr g s (h s) [].

(** * Small facts *)

Arguments last_st : simpl never.
Arguments at_ : simpl never.
Arguments rxs : simpl never.
Arguments pend : simpl never.
Arguments between : simpl never.
Arguments call_nums : simpl never.

Lemma at_app : forall j n a b, at_ j n (a ++ b) = at_ j n a ++ at_ j n b.
Proof. intros; apply filter_app. Qed.
Lemma rxs_app : forall g j p a b, rxs g j p (a ++ b) = rxs g j p a ++ rxs g j p b.
Proof. intros; apply flat_map_app. Qed.
Lemma pend_app : forall q n a b, pend q n (a ++ b) = pend q n a ++ pend q n b.
Proof. intros; apply filter_app. Qed.
Lemma between_app : forall p q a b, between p q (a ++ b) = between p q a ++ between p q b.
Proof. intros; unfold between; rewrite filter_app, map_app; reflexivity. Qed.
Lemma last_st_snoc : forall k i l e, last_st k i (l ++ [e]) = st_step i (last_st k i l) e.
Proof. intros; unfold last_st; rewrite fold_left_app; reflexivity. Qed.

Lemma bst_eqb_eq : forall a b, bst_eqb a b = true <-> a = b.
Proof. intros a b; destruct a, b; cbn; split; intros; try reflexivity; discriminate. Qed.

Lemma filter_nil : forall {A} (f : A -> bool) l, (forall x, In x l -> f x = false) -> filter f l = [].
Proof.
  intros A f l; induction l as [|a l IH]; intros H; [reflexivity|].
  cbn. rewrite (H a) by (left; reflexivity). apply IH. intros x Hx; apply H; right; exact Hx.
Qed.

Lemma sorted_app : forall a b, StronglySorted lt a -> StronglySorted lt b ->
  (forall x y, In x a -> In y b -> x < y) -> StronglySorted lt (a ++ b).
Proof.
  intros a; induction a as [|x a IH]; intros b Ha Hb H; [exact Hb|].
  inversion Ha as [|? ? Hs Hf]; subst.
  cbn. constructor.
  - apply IH; auto. intros u v Hu Hv; apply H; [right|]; assumption.
  - rewrite Forall_forall. intros y Hy. apply in_app_or in Hy. destruct Hy as [Hy|Hy].
    + rewrite Forall_forall in Hf; apply Hf; exact Hy.
    + apply H; [left; reflexivity|exact Hy].
Qed.

Lemma resize_length : forall (l : list N) n, length l <= n -> length (resize n 0%N l) = n.
Proof. intros l n H; unfold resize. rewrite app_length, firstn_length, repeat_length. lia. Qed.

Lemma pad_idem : forall l, pad (pad l) = pad l.
Proof.
  intros l. unfold pad at 1.
  assert (H : length (pad l) <? min_eth = false).
  { apply Nat.ltb_ge. unfold pad. destruct (length l <? min_eth) eqn:E.
    - apply Nat.ltb_lt in E. rewrite resize_length by lia. lia.
    - apply Nat.ltb_ge in E. exact E. }
  rewrite H. reflexivity.
Qed.

Lemma wire_idem : forall k f, wire_frame k (wire_frame k f) = wire_frame k f.
Proof. intros [] f; cbn; [reflexivity|]. rewrite pad_idem. reflexivity. Qed.

Lemma at_none : forall j n l, Forall (fun e => match ev_num e with Some k => k < n | None => True end) l ->
  forall n', n <= n' -> at_ j n' l = [].
Proof.
  intros j n l H n' Hn. apply filter_nil. intros e He.
  rewrite Forall_forall in H. specialize (H e He). unfold is_at.
  destruct (ev_num e); [|apply andb_false_r].
  replace (n0 =? n') with false by (symmetry; apply Nat.eqb_neq; lia). apply andb_false_r.
Qed.

Lemma pend_none : forall g s, Inv g s -> forall q n, b_next s <= n -> pend q n (b_net s) = [].
Proof.
  intros g s H q n Hn. apply filter_nil. intros w Hw.
  pose proof (i_wire _ _ H) as Hf. rewrite Forall_forall in Hf. specialize (Hf w Hw).
  replace (m_n (w_msg w) =? n) with false by (symmetry; apply Nat.eqb_neq; lia). apply andb_false_r.
Qed.

Lemma call_nums_app : forall a b, call_nums (a ++ b) = call_nums a ++ call_nums b.
Proof. intros; apply flat_map_app. Qed.

Lemma snoc_split : forall {A} (l : list A) e a x b, l ++ [e] = a ++ x :: b ->
  (exists b', l = a ++ x :: b' /\ b = b' ++ [e]) \/ (l = a /\ e = x /\ b = []).
Proof.
  intros A l e a x b H. destruct (exists_last (l := x :: b)) as (b' & y & E); [discriminate|].
  rewrite E, app_assoc in H. apply app_inj_tail in H. destruct H as [H ->].
  destruct b' as [|z b'].
  - right. rewrite app_nil_r in H. destruct b as [|u b]; [|destruct b; discriminate].
    injection E as ->. auto.
  - left. injection E as -> E. exists b'. auto.
Qed.

Lemma causal_snoc : forall l e, causal l ->
  match e with ECall _ _ _ _ _ => True
             | _ => match ev_num e with Some n => In n (call_nums l) | None => True end end ->
  causal (l ++ [e]).
Proof.
  intros l e H He a x b n E Hn. destruct (snoc_split _ _ _ _ _ E) as [(b' & E' & _)|(-> & -> & _)].
  - apply (H a x b' n E' Hn).
  - destruct x; auto; cbn in *; try discriminate; injection Hn as ->; exact He.
Qed.

(** * The frame relation composes *)

Lemma fr_refl : forall g s, Fr g s s [].
Proof.
  intros g s; constructor; intros; try lia; auto.
  - cbn; rewrite app_nil_r; reflexivity.
  - split; [cbn; rewrite app_nil_r; reflexivity|].
    exists []; rewrite app_nil_r; repeat split; constructor.
  - exists []; rewrite app_nil_r; repeat split; constructor.
Qed.

Lemma sorted_ranges : forall a b c t u,
  StronglySorted lt t -> Forall (fun n => a <= n < b) t ->
  StronglySorted lt u -> Forall (fun n => b <= n < c) u ->
  a <= b -> b <= c ->
  StronglySorted lt (t ++ u) /\ Forall (fun n => a <= n < c) (t ++ u).
Proof.
  intros a b c t u Ht Ft Hu Fu Hab Hbc. rewrite Forall_forall in Ft, Fu. split.
  - apply sorted_app; auto. intros x y Hx Hy. specialize (Ft x Hx). specialize (Fu y Hy). lia.
  - rewrite Forall_forall. intros x Hx. apply in_app_or in Hx. destruct Hx as [Hx|Hx].
    + specialize (Ft x Hx). lia.
    + specialize (Fu x Hx). lia.
Qed.

Lemma fr_trans : forall g s s1 s2 A B,
  Fr g s s1 A -> Fr g s1 s2 B ->
  Forall (fun e => match ev_num e with Some n => n < b_next s | None => True end) B ->
  Fr g s s2 (A ++ B).
Proof.
  intros g s s1 s2 A B H1 H2 HB.
  pose proof (f_next _ _ _ _ H1) as N1. pose proof (f_next _ _ _ _ H2) as N2.
  constructor.
  - lia.
  - intros j n Hj Hn. rewrite (f_view _ _ _ _ H2) by lia. rewrite (f_view _ _ _ _ H1) by lia.
    rewrite at_app, app_assoc. reflexivity.
  - intros q n Hn Hp. apply (f_pend _ _ _ _ H2); [lia|]. apply (f_pend _ _ _ _ H1); auto.
  - intros n Hn. destruct (le_lt_dec (b_next s1) n) as [Hle|Hlt].
    + apply (f_good _ _ _ _ H2). lia.
    + destruct (f_good _ _ _ _ H1 n) as (i & f & c & st & Hi & Hg); [lia|].
      exists i, f, c, st. split; [exact Hi|]. intros j Hj.
      rewrite (f_view _ _ _ _ H2) by lia. rewrite Hg by exact Hj.
      rewrite (at_none j (b_next s) B HB n) by lia. apply app_nil_r.
  - intros p. rewrite (f_io _ _ _ _ H2). apply (f_io _ _ _ _ H1).
  - intros j p Hp Hb.
    destruct (f_busy _ _ _ _ H1 j p Hp Hb) as (E1 & t & T1 & S1 & F1).
    assert (Hb1 : b_io s1 (part g j) = true) by (rewrite (f_io _ _ _ _ H1); exact Hb).
    destruct (f_busy _ _ _ _ H2 j p Hp Hb1) as (E2 & u & T2 & S2 & F2).
    split; [rewrite E2, E1, rxs_app, app_assoc; reflexivity|].
    exists (t ++ u). split; [rewrite T2, T1, app_assoc; reflexivity|].
    eapply sorted_ranges; eauto.
  - intros j p Hj Hp HA. rewrite rxs_app in HA. apply app_eq_nil in HA. destruct HA as [HA HBn].
    destruct (f_order _ _ _ _ H1 j p Hj Hp HA) as (t & T1 & S1 & F1).
    destruct (f_order _ _ _ _ H2 j p Hj Hp HBn) as (u & T2 & S2 & F2).
    exists (t ++ u). split.
    + rewrite T2. rewrite app_assoc, T1. rewrite <- !app_assoc. reflexivity.
    + eapply sorted_ranges; eauto.
Qed.

(** * Single steps *)

(** Adding an event of an old call which belongs to a controller that has nothing pending. *)
Definition old_event (e : ev) (s : net) : Prop :=
  match e with
  | EFrame j i n d f c => n < b_next s
  | EAck i n id a c => n < b_next s
  | _ => False
  end.

Lemma add_event : forall g s e n, Inv g s -> old_event e s -> ev_num e = Some n ->
  pend (part g (ev_at e)) n (b_net s) = [] ->
  Inv g (add_log e s) /\ Fr g s (add_log e s) [e].
Proof.
  intros g s e n HI Ho Hn Hp. split.
  - destruct HI as [a b c d l x y]. constructor; cbn; auto.
    + apply Forall_app; split; [exact c|]. constructor; [|constructor].
      destruct e; cbn in *; auto; contradiction.
    + intros i. rewrite last_st_snoc, d. destruct e; cbn in *; auto; contradiction.
    + destruct e; cbn in Ho; try contradiction; constructor; assumption.
    + rewrite call_nums_app, x. destruct e; cbn in Ho; try contradiction; apply app_nil_r.
    + apply causal_snoc; [exact y|]. rewrite x.
      destruct e; cbn in *; try contradiction; apply in_seq; lia.
  - constructor; cbn; intros; try lia; auto.
    + unfold view; cbn [add_log b_log b_net]. rewrite at_app.
      unfold at_ at 2 4. cbn [filter]. destruct (is_at j n0 e) eqn:E; [|rewrite !app_nil_r; reflexivity].
      unfold is_at in E. apply andb_prop in E. destruct E as [E1 E2]. rewrite Hn in E2.
      apply Nat.eqb_eq in E1, E2. subst j n0. rewrite Hp. cbn. rewrite !app_nil_r. reflexivity.
    + split; [apply rxs_app|]. exists []; rewrite app_nil_r; repeat split; constructor.
    + exists []. rewrite rxs_app, H1, !app_nil_r. repeat split; constructor.
Qed.

Lemma emit_fr : forall g e h s n, Forall (Pres g) h -> Inv g s -> old_event e s -> ev_num e = Some n ->
  pend (part g (ev_at e)) n (b_net s) = [] ->
  Inv g (fst (emit e h s)) /\ Fr g s (fst (emit e h s)) [e] /\ Forall (Pres g) (snd (emit e h s)).
Proof.
  intros g e h s n Hh HI Ho Hn Hp.
  destruct (add_event g s e n HI Ho Hn Hp) as [HI1 HF1].
  destruct h as [|f h]; cbn; [auto|].
  inversion Hh as [|? ? Hf Hr]; subst.
  destruct (Hf _ HI1) as [HI2 HF2].
  split; [exact HI2|]. split; [|exact Hr].
  change [e] with ([e] ++ []). eapply fr_trans; eauto.
Qed.

Lemma deliver_fr : forall g m js h s, Forall (Pres g) h -> Inv g s -> m_n m < b_next s ->
  (forall j, In j js -> pend (part g j) (m_n m) (b_net s) = []) ->
  let r := deliver (c_kind g) js m h s in
  Inv g (fst r) /\ Fr g s (fst r) (map (fun j => frame_event (c_kind g) j RX m) js)
  /\ Forall (Pres g) (snd r).
Proof.
  intros g m js; induction js as [|j js IH]; intros h s Hh HI Hm Hp; cbn zeta.
  - cbn. split; [exact HI|]. split; [apply fr_refl|exact Hh].
  - cbn [deliver map].
    destruct (emit_fr g (frame_event (c_kind g) j RX m) h s (m_n m) Hh HI) as (I1 & F1 & H1).
    + cbn. exact Hm.
    + reflexivity.
    + cbn. apply Hp. left; reflexivity.
    + destruct (emit (frame_event (c_kind g) j RX m) h s) as [s1 h1]; cbn [fst snd] in *.
      destruct (IH h1 s1 H1 I1) as (I2 & F2 & H2).
      * pose proof (f_next _ _ _ _ F1). lia.
      * intros k Hk. apply (f_pend _ _ _ _ F1); [exact Hm|]. apply Hp. right; exact Hk.
      * split; [exact I2|]. split; [|exact H2].
        change (frame_event (c_kind g) j RX m :: map (fun j0 => frame_event (c_kind g) j0 RX m) js)
          with ([frame_event (c_kind g) j RX m] ++ map (fun j0 => frame_event (c_kind g) j0 RX m) js).
        eapply fr_trans; eauto.
        rewrite Forall_map. rewrite Forall_forall. intros x _. cbn. exact Hm.
Qed.

(** * SendFrame *)

Lemma locals_in : forall g p j, In j (locals g p) <-> j < ncontrollers g /\ part g j = p.
Proof.
  intros g p j; unfold locals. rewrite filter_In, in_seq, Nat.eqb_eq. lia.
Qed.
Lemma remotes_in : forall g p q, In q (remotes g p) <-> q <> p /\ In q (c_parts g).
Proof.
  intros g p q; unfold remotes. rewrite filter_In, nodup_In, negb_true_iff, Nat.eqb_neq. tauto.
Qed.
Lemma part_in : forall g j, j < ncontrollers g -> In (part g j) (c_parts g).
Proof. intros g j H; apply nth_In; exact H. Qed.
Lemma remotes_nodup : forall g p, NoDup (remotes g p).
Proof. intros; apply NoDup_filter, NoDup_nodup. Qed.
Lemma locals_nodup : forall g p, NoDup (locals g p).
Proof. intros; apply NoDup_filter, seq_NoDup. Qed.

Lemma filter_one : forall {A} (f : A -> bool) (x : A) l, NoDup l -> In x l -> f x = true ->
  (forall y, In y l -> f y = true -> y = x) -> filter f l = [x].
Proof.
  intros A f x l; induction l as [|a l IH]; intros Hn Hi Hx Hu; [contradiction|].
  inversion Hn as [|? ? Hna Hn']; subst. cbn.
  destruct (f a) eqn:E.
  - assert (a = x) by (apply Hu; [left; reflexivity|exact E]). subst a.
    f_equal. apply filter_nil. intros y Hy. destruct (f y) eqn:Ey; [|reflexivity].
    assert (y = x) by (apply Hu; [right; exact Hy|exact Ey]). subst y. contradiction.
  - destruct Hi as [Hi|Hi]; [subst; congruence|].
    apply IH; auto. intros y Hy; apply Hu; right; exact Hy.
Qed.

Lemma at_map_frame : forall k j n m js,
  at_ j n (map (fun j0 => frame_event k j0 RX m) js) =
  map (fun j0 => frame_event k j0 RX m) (filter (fun j0 => (j0 =? j) && (m_n m =? n)) js).
Proof.
  intros k j n m js; unfold at_; induction js as [|a js IH]; [reflexivity|].
  cbn [map filter]. rewrite IH. unfold is_at at 1. cbn [frame_event ev_at ev_num].
  destruct ((a =? j) && (m_n m =? n)); reflexivity.
Qed.

Lemma pend_enq : forall q n p m l,
  pend q n (map (fun q0 => mkWire p q0 m) l) =
  map (fun q0 => mkWire p q0 m) (filter (fun q0 => (q0 =? q) && (m_n m =? n)) l).
Proof.
  intros q n p m l; unfold pend; induction l as [|a l IH]; [reflexivity|].
  cbn [map filter]. rewrite IH. cbn [w_dst w_msg].
  destruct ((a =? q) && (m_n m =? n)); reflexivity.
Qed.

Lemma between_enq : forall p0 q p m l,
  between p0 q (map (fun q0 => mkWire p q0 m) l) =
  map (fun _ => m_n m) (filter (fun q0 => (p =? p0) && (q0 =? q)) l).
Proof.
  intros p0 q p m l; unfold between; induction l as [|a l IH]; [reflexivity|].
  cbn [map filter]. cbn [w_dst w_src]. destruct ((p =? p0) && (a =? q)); cbn [map]; rewrite IH; reflexivity.
Qed.

Lemma rxs_map_frame : forall g k j p m js,
  rxs g j p (map (fun j0 => frame_event k j0 RX m) js) =
  map (fun _ => m_n m) (filter (fun j0 => (j0 =? j) && (part g (m_from m) =? p)) js).
Proof.
  intros g k j p m js; unfold rxs; induction js as [|a js IH]; [reflexivity|].
  cbn [map filter flat_map]. rewrite IH. cbn [frame_event rx_num].
  destruct ((a =? j) && (part g (m_from m) =? p)); reflexivity.
Qed.

Section Send.
  Variables (g : cfg) (i : nat) (f : frame) (ctx : N) (s : net).
  Hypothesis HI : Inv g s.
  Hypothesis Hi : i < ncontrollers g.
  Let k := c_kind g.
  Let n := b_next s.
  Let st := b_st s i.
  Let m := mkMsg n i (wire_frame k f) ctx.
  Let s0 := bump (add_log (ECall i n f ctx st) s).
  Let s1 := if transmits k st then enqueue g m s0 else s0.
  Let own := (if transmits k st then
                map (fun j => frame_event k j RX m) (filter (fun j => negb (j =? i)) (locals g (part g i)))
                ++ [frame_event k i TX m] else [])
             ++ ack_event k i n f ctx st.

  Lemma send_inv0 : Inv g s0.
  Proof.
    destruct HI as [a b c d l x y]. constructor; cbn.
    - eapply Forall_impl; [|exact a]. cbn; intros w Hw; intuition lia.
    - exact b.
    - apply Forall_app; split.
      + eapply Forall_impl; [|exact c]. cbn; intros e He. destruct (ev_num e); auto.
      + constructor; [|constructor]. cbn. unfold n; lia.
    - intros z. rewrite last_st_snoc. cbn. apply d.
    - unfold st. rewrite d. constructor. exact l.
    - rewrite call_nums_app, x. change (call_nums [ECall i n f ctx st]) with [n].
      symmetry. apply (seq_S (b_next s) 0).
    - apply causal_snoc; [exact y|exact I].
  Qed.


  Lemma nodup_app2 : forall {A} (a b : list A), NoDup a -> NoDup b ->
    (forall x, In x a -> ~ In x b) -> NoDup (a ++ b).
  Proof.
    intros A a; induction a as [|x a IH]; intros b Ha Hb H; [exact Hb|].
    inversion Ha as [|? ? Hx Ha']; subst. cbn. constructor.
    - intros Hin. apply in_app_or in Hin. destruct Hin as [Hin|Hin]; [contradiction|].
      apply (H x); [left; reflexivity|exact Hin].
    - apply IH; auto. intros y Hy; apply H; right; exact Hy.
  Qed.

  Lemma send_inv1 : Inv g s1.
  Proof.
    pose proof send_inv0 as H0. unfold s1. destruct (transmits k st) eqn:E; [|exact H0].
    pose proof (i_wire _ _ HI) as Hw.
    destruct H0 as [a b c d l u v]. constructor; auto.
    - cbn [enqueue set_net b_net b_next]. apply Forall_app; split; [exact a|].
      rewrite Forall_map, Forall_forall.
      intros q Hq. apply remotes_in in Hq. cbn. split; [unfold n; lia|]. split; [reflexivity|]. apply Hq.
    - cbn [enqueue set_net b_net]. rewrite map_app, map_map. cbn [w_dst w_msg m_n m].
      apply nodup_app2.
      + exact b.
      + apply Injective_map_NoDup; [|apply remotes_nodup].
        intros x y Hxy. congruence.
      + intros [q x'] Hx Hy. apply in_map_iff in Hx. destruct Hx as (w & Ew & Hin).
        apply in_map_iff in Hy. destruct Hy as (y & Ey & _).
        rewrite Forall_forall in Hw. specialize (Hw w Hin).
        injection Ew as _ E1. injection Ey as _ E2. unfold n in E2. lia.
  Qed.

  Lemma s1_next : b_next s1 = S n.
  Proof. unfold s1. destruct (transmits k st); reflexivity. Qed.

  Lemma s1_log : b_log s1 = b_log s ++ [ECall i n f ctx st].
  Proof. unfold s1. destruct (transmits k st); reflexivity. Qed.

  Lemma s1_io : forall p, b_io s1 p = b_io s p.
  Proof. intros p; unfold s1. destruct (transmits k st); reflexivity. Qed.

  Lemma s1_net : b_net s1 = b_net s ++
    (if transmits k st then map (fun q => mkWire (part g i) q m) (remotes g (part g i)) else []).
  Proof. unfold s1. destruct (transmits k st); cbn; [reflexivity|]. rewrite app_nil_r; reflexivity. Qed.

  Lemma s1_pend_old : forall q x, x < n -> pend q x (b_net s1) = pend q x (b_net s).
  Proof.
    intros q x Hx. rewrite s1_net, pend_app. destruct (transmits k st); [|apply app_nil_r].
    rewrite pend_enq, filter_nil; [apply app_nil_r|].
    intros y _. cbn. replace (n =? x) with false by (symmetry; apply Nat.eqb_neq; lia). apply andb_false_r.
  Qed.

  Lemma s1_pend_own : pend (part g i) n (b_net s1) = [].
  Proof.
    rewrite s1_net, pend_app. rewrite (pend_none g s HI) by (unfold n; lia).
    destruct (transmits k st); [|reflexivity].
    rewrite pend_enq, filter_nil; [reflexivity|].
    intros y Hy. apply remotes_in in Hy. replace (y =? part g i) with false; [reflexivity|].
    symmetry; apply Nat.eqb_neq; tauto.
  Qed.

  Lemma own_num : Forall (fun e => ev_num e = Some n) own.
  Proof.
    unfold own. apply Forall_app; split.
    - destruct (transmits k st); [|constructor]. apply Forall_app; split.
      + rewrite Forall_map, Forall_forall. intros x _. reflexivity.
      + constructor; [reflexivity|constructor].
    - unfold ack_event. destruct (ack_of k st); [|constructor]. constructor; [reflexivity|constructor].
  Qed.

  Lemma own_at_old : forall j x, x < n -> at_ j x own = [].
  Proof.
    intros j x Hx. apply filter_nil. intros e He. pose proof own_num as H.
    rewrite Forall_forall in H. specialize (H e He). unfold is_at. rewrite H.
    replace (n =? x) with false by (symmetry; apply Nat.eqb_neq; lia). apply andb_false_r.
  Qed.

  Lemma own_rxs : forall j p, p <> part g j -> rxs g j p own = [].
  Proof.
    intros j p Hp. unfold own. rewrite rxs_app.
    replace (rxs g j p (ack_event k i n f ctx st)) with (@nil nat)
      by (unfold ack_event; destruct (ack_of k st); reflexivity).
    rewrite app_nil_r. destruct (transmits k st); [|reflexivity].
    rewrite rxs_app. change (rxs g j p [frame_event k i TX m]) with (@nil nat). rewrite app_nil_r.
    rewrite rxs_map_frame, filter_nil; [reflexivity|].
    intros y Hy. apply filter_In in Hy. destruct Hy as [Hy _]. apply locals_in in Hy. cbn.
    destruct (y =? j) eqn:E; [|reflexivity]. apply Nat.eqb_eq in E. subst y. cbn.
    apply Nat.eqb_neq. lia.
  Qed.

  (** What controller [j] has got and will get of the new call. *)
  Lemma own_view : forall j, j < ncontrollers g ->
    view g s1 j n ++ at_ j n own = expected g i n f ctx st j.
  Proof.
    intros j Hj. unfold view. rewrite s1_log, at_app.
    rewrite (at_none j n (b_log s) (i_num _ _ HI) n) by lia.
    rewrite s1_net, pend_app, (pend_none g s HI) by (unfold n; lia).
    cbn [app]. unfold own, expected. fold k.
    assert (Ew : wire_frame k (m_f m) = wire_frame k f) by (cbn; apply wire_idem).
    destruct (Nat.eqb_spec j i) as [->|Hji].
    - replace (at_ i n [ECall i n f ctx st]) with [ECall i n f ctx st]
        by (unfold at_; cbn; unfold is_at; cbn; rewrite !Nat.eqb_refl; reflexivity).
      rewrite at_app.
      replace (at_ i n (ack_event k i n f ctx st)) with (ack_event k i n f ctx st)
        by (unfold ack_event; destruct (ack_of k st); [|reflexivity];
            unfold at_; cbn; unfold is_at; cbn; rewrite !Nat.eqb_refl; reflexivity).
      destruct (transmits k st); [|reflexivity].
      rewrite pend_enq, filter_nil.
      + cbn [map app]. f_equal. f_equal. rewrite at_app, at_map_frame, filter_nil.
        * cbn [map app]. unfold at_; cbn; unfold is_at; cbn; rewrite !Nat.eqb_refl. cbn.
          unfold frame_event. rewrite Ew. reflexivity.
        * intros y Hy. apply filter_In in Hy. destruct Hy as [_ Hy]. apply negb_true_iff in Hy.
          rewrite Hy. reflexivity.
      + intros y Hy. apply remotes_in in Hy. replace (y =? part g i) with false; [reflexivity|].
        symmetry; apply Nat.eqb_neq; tauto.
    - replace (at_ j n [ECall i n f ctx st]) with (@nil ev)
        by (unfold at_; cbn; unfold is_at; cbn;
            replace (i =? j) with false by (symmetry; apply Nat.eqb_neq; lia); reflexivity).
      rewrite at_app.
      replace (at_ j n (ack_event k i n f ctx st)) with (@nil ev)
        by (unfold ack_event; destruct (ack_of k st); [|reflexivity];
            unfold at_; cbn; unfold is_at; cbn;
            replace (i =? j) with false by (symmetry; apply Nat.eqb_neq; lia); reflexivity).
      rewrite app_nil_r. destruct (transmits k st); [|reflexivity].
      rewrite at_app.
      replace (at_ j n [frame_event k i TX m]) with (@nil ev)
        by (unfold at_; cbn; unfold is_at; cbn;
            replace (i =? j) with false by (symmetry; apply Nat.eqb_neq; lia); reflexivity).
      rewrite app_nil_r, at_map_frame, pend_enq. cbn [m_n m app].
      destruct (Nat.eq_dec (part g j) (part g i)) as [Hp|Hp].
      + rewrite (filter_nil _ (remotes g (part g i))).
        * rewrite (filter_one _ j).
          -- cbn. unfold frame_event. rewrite Ew. reflexivity.
          -- apply NoDup_filter, locals_nodup.
          -- apply filter_In. split; [apply locals_in; auto|].
             apply negb_true_iff, Nat.eqb_neq; exact Hji.
          -- rewrite !Nat.eqb_refl; reflexivity.
          -- intros y _ Hy. apply andb_prop in Hy. apply Nat.eqb_eq; tauto.
        * intros y Hy. apply remotes_in in Hy. rewrite Hp.
          replace (y =? part g i) with false; [reflexivity|]. symmetry; apply Nat.eqb_neq; tauto.
      + rewrite (filter_one _ (part g j) (remotes g (part g i))).
        * rewrite filter_nil.
          -- cbn. unfold frame_event. rewrite Ew. reflexivity.
          -- intros y Hy. apply filter_In in Hy. destruct Hy as [Hy _]. apply locals_in in Hy.
             destruct (y =? j) eqn:E; [|reflexivity]. apply Nat.eqb_eq in E. subst y. tauto.
        * apply remotes_nodup.
        * apply remotes_in. split; [exact Hp|apply part_in; exact Hj].
        * rewrite !Nat.eqb_refl; reflexivity.
        * intros y _ Hy. apply andb_prop in Hy. apply Nat.eqb_eq; tauto.
  Qed.

  Lemma s1_between : forall p q, q <> p -> exists t : list nat,
    between p q (b_net s1) = between p q (b_net s) ++ t /\
    StronglySorted lt t /\ Forall (fun x => n <= x < S n) t.
  Proof.
    intros p q Hq. rewrite s1_net, between_app.
    destruct (transmits k st);
      [|exists []; split; [reflexivity|split; constructor]].
    rewrite between_enq. eexists; split; [reflexivity|].
    destruct (Nat.eq_dec (part g i) p) as [Hp|Hp].
    - destruct (in_dec Nat.eq_dec q (remotes g (part g i))) as [Hin|Hin].
      + rewrite (filter_one _ q).
        * cbn. split; repeat constructor; lia.
        * apply remotes_nodup.
        * exact Hin.
        * rewrite Hp, !Nat.eqb_refl; reflexivity.
        * intros y _ Hy. apply andb_prop in Hy. apply Nat.eqb_eq; tauto.
      + rewrite filter_nil; [split; constructor|].
        intros y Hy. replace (y =? q) with false; [apply andb_false_r|].
        symmetry; apply Nat.eqb_neq; intros ->; contradiction.
    - rewrite filter_nil; [split; constructor|].
      intros y Hy. replace (part g i =? p) with false; [reflexivity|].
      symmetry; apply Nat.eqb_neq; exact Hp.
  Qed.

  Lemma send_close : forall s', Inv g s' -> Fr g s1 s' own -> Fr g s s' [].
  Proof.
    intros s' HI' HF. pose proof (f_next _ _ _ _ HF) as Hn. rewrite s1_next in Hn.
    constructor.
    - unfold n in Hn; lia.
    - intros j x Hj Hx. rewrite (f_view _ _ _ _ HF) by (rewrite ?s1_next; unfold n; lia).
      rewrite own_at_old by exact Hx. change (at_ j x []) with (@nil ev). rewrite !app_nil_r.
      unfold view. rewrite s1_pend_old by exact Hx. rewrite s1_log, at_app.
      replace (at_ j x [ECall i n f ctx st]) with (@nil ev); [rewrite app_nil_r; reflexivity|].
      unfold at_; cbn; unfold is_at; cbn.
      replace (n =? x) with false by (symmetry; apply Nat.eqb_neq; unfold n; lia).
      rewrite andb_false_r; reflexivity.
    - intros q x Hx Hp. apply (f_pend _ _ _ _ HF); [rewrite s1_next; unfold n; lia|].
      rewrite s1_pend_old; assumption.
    - intros x Hx. destruct (Nat.eq_dec x n) as [->|Hne].
      + exists i, f, ctx, st. split; [exact Hi|]. intros j Hj.
        rewrite (f_view _ _ _ _ HF) by (rewrite ?s1_next; lia). apply own_view; exact Hj.
      + apply (f_good _ _ _ _ HF). rewrite s1_next. unfold n in *; lia.
    - intros p. rewrite (f_io _ _ _ _ HF). apply s1_io.
    - intros j p Hp Hb. destruct (f_busy _ _ _ _ HF j p Hp) as (E & t & T & S1 & F1).
      { rewrite s1_io; exact Hb. }
      rewrite own_rxs, app_nil_r in E by exact Hp.
      destruct (s1_between p (part g j)) as (u & U & S2 & F2); [auto|].
      split.
      + rewrite E, s1_log, rxs_app. reflexivity.
      + exists (u ++ t). rewrite T, U, app_assoc. split; [reflexivity|].
        rewrite s1_next in F1. apply (sorted_ranges n (S n) (b_next s')); auto; lia.
    - intros j p Hj Hp _. destruct (f_order _ _ _ _ HF j p Hj Hp (own_rxs j p Hp)) as (t & T & S1 & F1).
      destruct (s1_between p (part g j)) as (u & U & S2 & F2); [auto|].
      exists (u ++ t). split.
      + rewrite T, U, s1_log, rxs_app. change (rxs g j p [ECall i n f ctx st]) with (@nil nat).
        rewrite app_nil_r, <- !app_assoc. reflexivity.
      + rewrite s1_next in F1. apply (sorted_ranges n (S n) (b_next s')); auto; lia.
  Qed.

  Lemma ack_step : forall h1 sx A, Forall (Pres g) h1 -> Inv g sx -> Fr g s1 sx A ->
    let s' := match ack_of k st with
              | Some a => fst (emit (EAck i n (match k with KCan => f_id f | KEth => 0%N end) a ctx) h1 sx)
              | None => sx
              end in
    Inv g s' /\ Fr g s1 s' (A ++ ack_event k i n f ctx st).
  Proof.
    intros h1 sx A Hh HIx HF. unfold ack_event. destruct (ack_of k st) as [a|]; cbn zeta.
    - pose proof (f_next _ _ _ _ HF) as Hn. rewrite s1_next in Hn.
      destruct (emit_fr g (EAck i n (match k with KCan => f_id f | KEth => 0%N end) a ctx) h1 sx n Hh HIx)
        as (I2 & F2 & _); [cbn; lia|reflexivity| |].
      { apply (f_pend _ _ _ _ HF); [rewrite s1_next; lia|]. apply s1_pend_own. }
      split; [exact I2|]. eapply fr_trans; eauto.
      constructor; [|constructor]. cbn. rewrite s1_next. lia.
    - split; [exact HIx|]. rewrite app_nil_r. exact HF.
  Qed.

  Lemma send_pres : forall h, Forall (Pres g) h ->
    Inv g (send_frame g i f ctx h s) /\ Fr g s (send_frame g i f ctx h s) [].
  Proof.
    intros h Hh.
    cut (Inv g (send_frame g i f ctx h s) /\ Fr g s1 (send_frame g i f ctx h s) own).
    { intros [H1 H2]. split; [exact H1|]. apply send_close; assumption. }
    unfold send_frame. fold k st n. fold m. fold s0.
    pose proof send_inv1 as I1. pose proof s1_pend_own as P1. pose proof s1_next as N1.
    pose proof ack_step as Hack.
    unfold own. unfold s1 in *. destruct (transmits k st) eqn:E.
    - destruct (deliver_fr g m (filter (fun j => negb (j =? i)) (locals g (part g i))) h _ Hh I1)
        as (I2 & F2 & H2).
      + rewrite N1. cbn. lia.
      + intros j Hj. apply filter_In in Hj. destruct Hj as [Hj _]. apply locals_in in Hj.
        replace (part g j) with (part g i) by lia. exact P1.
      + fold k in I2, F2, H2. cbn zeta in I2, F2, H2.
        destruct (deliver k _ m h (enqueue g m s0)) as [s2 h2]; cbn [fst snd] in *.
        pose proof (f_next _ _ _ _ F2) as N2. rewrite N1 in N2.
        destruct (emit_fr g (frame_event k i TX m) h2 s2 n H2 I2) as (I3 & F3 & H3);
          [cbn; lia|reflexivity| |].
        { cbn. apply (f_pend _ _ _ _ F2); [lia|exact P1]. }
        destruct (emit (frame_event k i TX m) h2 s2) as [s3 h3]; cbn [fst snd] in *.
        apply Hack; [exact H3|exact I3|].
        eapply fr_trans; eauto. constructor; [|constructor]. cbn. cbn in N1. lia.
    - cbn [app]. apply (Hack h s0 []); [exact Hh|exact I1|apply fr_refl].
  Qed.
End Send.

(** * Mode methods *)

Lemma quiet_fr : forall g s st' E, Forall (fun e => ev_num e = None) E ->
  Fr g s (mkNet st' (b_next s) (b_net s) (b_io s) (b_log s ++ E)) [].
Proof.
  intros g s st' E HE.
  assert (Hat : forall j n, at_ j n E = []).
  { intros j n. apply filter_nil. intros e He. rewrite Forall_forall in HE.
    unfold is_at. rewrite (HE e He). apply andb_false_r. }
  assert (Hrx : forall j p, rxs g j p E = []).
  { intros j p. clear Hat. induction E as [|e E IH]; [reflexivity|].
    inversion HE as [|? ? He HE']; subst. unfold rxs in *. cbn. rewrite IH by exact HE'.
    destruct e; cbn in *; try discriminate; reflexivity. }
  constructor; cbn; intros; try lia; auto.
  - unfold view; cbn. rewrite at_app, Hat, !app_nil_r. reflexivity.
  - rewrite rxs_app, Hrx, !app_nil_r. split; [reflexivity|].
    exists []; rewrite app_nil_r; repeat split; constructor.
  - rewrite rxs_app, Hrx, !app_nil_r. exists []; rewrite app_nil_r; repeat split; constructor.
Qed.

Lemma mode_pres : forall g i m h s, Forall (Pres g) h -> Inv g s ->
  Inv g (mode_call g i m h s) /\ Fr g s (mode_call g i m h s) [].
Proof.
  intros g i m h s Hh HI.
  assert (Hsame : (mode_target (c_kind g) m (b_st s i) = None
                   \/ mode_target (c_kind g) m (b_st s i) = Some (b_st s i)) ->
                  Inv g (add_log (EMode i m) s) /\ Fr g s (add_log (EMode i m) s) []).
  { intros Ht. split; [|apply (quiet_fr g s (b_st s) [EMode i m]); constructor; [reflexivity|constructor]].
    destruct HI as [a b c d l u v]. constructor; cbn; auto.
    - apply Forall_app; split; [exact c|]. constructor; [exact I|constructor].
    - intros x. rewrite last_st_snoc. cbn. apply d.
    - rewrite d in Ht. apply sl_same; assumption.
    - rewrite call_nums_app, u. apply app_nil_r.
    - apply causal_snoc; [exact v|exact I]. }
  unfold mode_call. destruct (mode_target (c_kind g) m (b_st s i)) as [x|] eqn:Et;
    [|apply Hsame; left; reflexivity].
  unfold receive_status. cbn [add_log b_st].
  destruct (bst_eqb x (b_st s i)) eqn:Ex.
  { apply bst_eqb_eq in Ex. subst x. apply Hsame. right; reflexivity. }
  assert (Hx : x <> b_st s i).
  { intros Hc. apply bst_eqb_eq in Hc. congruence. }
  set (s1 := add_log (ESt i x) (set_st i x (add_log (EMode i m) s))).
  assert (Hlog : b_log s1 = b_log s ++ [EMode i m; ESt i x])
    by (cbn; rewrite <- app_assoc; reflexivity).
  assert (I1 : Inv g s1).
  { destruct HI as [a b c d l u v]. constructor.
    - exact a.
    - exact b.
    - rewrite Hlog. apply Forall_app; split; [exact c|]. repeat constructor.
    - intros y. rewrite Hlog. change [EMode i m; ESt i x] with ([EMode i m] ++ [ESt i x]).
      rewrite app_assoc, !last_st_snoc. cbn. rewrite (Nat.eqb_sym i y). rewrite d. reflexivity.
    - rewrite Hlog. rewrite d in Et, Hx. apply sl_change; assumption.
    - rewrite Hlog, call_nums_app, u. apply app_nil_r.
    - rewrite Hlog. change [EMode i m; ESt i x] with ([EMode i m] ++ [ESt i x]). rewrite app_assoc.
      apply causal_snoc; [|exact I]. apply causal_snoc; [exact v|exact I]. }
  assert (F1 : Fr g s s1 []).
  { pose proof (quiet_fr g s (b_st s1) [EMode i m; ESt i x]) as Q.
    unfold s1. unfold add_log, set_st; cbn [b_st b_next b_net b_io b_log].
    rewrite <- app_assoc. apply Q. repeat constructor. }
  destruct h as [|f h]; cbn [emit fst]; [split; assumption|].
  inversion Hh as [|? ? Hf Hr]; subst.
  destruct (Hf _ I1) as [I2 F2]. split; [exact I2|].
  change (@nil ev) with (@nil ev ++ []). eapply fr_trans; eauto.
Qed.

(** * Deliveries *)

Lemma pop_split : forall p q l m r, pop p q l = Some (m, r) ->
  exists a w b, l = a ++ w :: b /\ r = a ++ b /\ w_src w = p /\ w_dst w = q /\ w_msg w = m /\
    Forall (fun x => (w_src x =? p) && (w_dst x =? q) = false) a.
Proof.
  intros p q l; induction l as [|x l IH]; intros m r H; cbn in H; [discriminate|].
  destruct ((w_src x =? p) && (w_dst x =? q)) eqn:E.
  - injection H as <- <-. exists [], x, l. apply andb_prop in E. destruct E as [E1 E2].
    apply Nat.eqb_eq in E1, E2. repeat split; auto.
  - destruct (pop p q l) as [[m' r']|] eqn:Ep; [|discriminate]. injection H as <- <-.
    destruct (IH m' r' eq_refl) as (a & w & b & -> & -> & H1 & H2 & H3 & H4).
    exists (x :: a), w, b. repeat split; auto.
Qed.

Lemma set_io_fields : forall p b s, b_st (set_io p b s) = b_st s /\ b_next (set_io p b s) = b_next s
  /\ b_net (set_io p b s) = b_net s /\ b_log (set_io p b s) = b_log s.
Proof. intros; repeat split. Qed.

Lemma inv_set_io : forall g p b s, Inv g s -> Inv g (set_io p b s).
Proof. intros g p b s [a c d e f h k]; constructor; assumption. Qed.

Lemma view_set_io : forall g p b s j n, view g (set_io p b s) j n = view g s j n.
Proof. reflexivity. Qed.

Lemma receive_pres : forall g p q h s, Forall (Pres g) h -> Inv g s ->
  Inv g (receive g p q h s) /\ Fr g s (receive g p q h s) [].
Proof.
  intros g p q h s Hh HI. unfold receive.
  destruct (b_io s q) eqn:Eio; [split; [exact HI|apply fr_refl]|].
  destruct (pop p q (b_net s)) as [[m r]|] eqn:Ep; [|split; [exact HI|apply fr_refl]].
  destruct (pop_split _ _ _ _ _ Ep) as (a & w & b & El & Er & Hp & Hq & Hm & Ha).
  pose proof (i_wire _ _ HI) as Hw. rewrite El in Hw. apply Forall_app in Hw. destruct Hw as [Hwa Hwb].
  inversion Hwb as [|? ? Hww Hwb']; subst x l. destruct Hww as (Wn & Wsrc & Wne). rewrite Hm in Wn, Wsrc.
  pose proof (i_uniq _ _ HI) as Hu. rewrite El, map_app in Hu. cbn [map] in Hu.
  apply NoDup_remove in Hu. destruct Hu as [Hu1 Hu2]. rewrite Hq, Hm in Hu2.
  rewrite <- map_app in Hu1, Hu2.
  assert (Hnop : pend q (m_n m) r = []).
  { rewrite Er. apply filter_nil. intros x Hx.
    destruct (w_dst x =? q) eqn:E1; [|reflexivity]. destruct (m_n (w_msg x) =? m_n m) eqn:E2; [|reflexivity].
    exfalso. apply Hu2. apply in_map_iff. exists x. split; [|exact Hx].
    apply Nat.eqb_eq in E1, E2. congruence. }
  set (s0 := set_io q true (set_net r s)).
  assert (I0 : Inv g s0).
  { apply inv_set_io. destruct HI as [a0 b0 c0 d0 e0 f0 g0]. constructor; cbn; auto.
    - rewrite Er. apply Forall_app; split; assumption.
    - rewrite Er. exact Hu1. }
  destruct (deliver_fr g m (locals g q) h s0 Hh I0) as (I1 & F1 & H1).
  { cbn. exact Wn. }
  { intros j Hj. apply locals_in in Hj. destruct Hj as [_ ->]. exact Hnop. }
  cbn zeta in I1, F1. set (s1 := fst (deliver (c_kind g) (locals g q) m h s0)) in *.
  split; [apply inv_set_io; exact I1|].
  pose proof (f_next _ _ _ _ F1) as N1. cbn in N1.
  set (A := map (fun j => frame_event (c_kind g) j RX m) (locals g q)) in *.
  assert (HpA : forall j p', part g j <> q -> rxs g j p' A = []).
  { intros j p' Hj. unfold A. rewrite rxs_map_frame, filter_nil; [reflexivity|].
    intros y Hy. apply locals_in in Hy. destruct (y =? j) eqn:E; [|reflexivity].
    apply Nat.eqb_eq in E. subst y. tauto. }
  assert (Hbet : forall p' q', (p', q') <> (p, q) -> between p' q' r = between p' q' (b_net s)).
  { intros p' q' Hne. rewrite El, Er, !between_app. f_equal. unfold between. cbn [filter].
    replace ((w_src w =? p') && (w_dst w =? q')) with false; [reflexivity|].
    symmetry. apply andb_false_iff. rewrite Hp, Hq.
    destruct (Nat.eq_dec p p'); [|left; apply Nat.eqb_neq; assumption].
    right. apply Nat.eqb_neq. congruence. }
  assert (Hbet1 : between p q (b_net s) = m_n m :: between p q r).
  { rewrite El, Er, !between_app. 
    replace (between p q a) with (@nil nat).
    - unfold between. cbn [filter]. rewrite Hp, Hq, !Nat.eqb_refl. cbn. rewrite Hm. reflexivity.
    - unfold between. rewrite filter_nil; [reflexivity|]. intros x Hx.
      rewrite Forall_forall in Ha. apply Ha. exact Hx. }
  constructor.
  - cbn. exact N1.
  - intros j n Hj Hn. rewrite view_set_io, (f_view _ _ _ _ F1) by (cbn; auto).
    change (at_ j n []) with (@nil ev). rewrite app_nil_r.
    unfold A. rewrite at_map_frame. unfold view, s0. cbn [set_io set_net b_log b_net].
    rewrite <- app_assoc. f_equal. rewrite El, Er, !pend_app. unfold pend at 4. cbn [filter].
    rewrite Hq, Hm.
    destruct (Nat.eq_dec (part g j) q) as [Hjq|Hjq].
    + destruct (Nat.eq_dec (m_n m) n) as [Hmn|Hmn].
      * rewrite (filter_one _ j).
        -- rewrite <- !pend_app, <- Er, Hjq, <- Hmn, Hnop, !Nat.eqb_refl. cbn [map app andb].
           assert (Hab : pend q (m_n m) a = [] /\ pend q (m_n m) b = []).
           { rewrite Er, pend_app in Hnop. apply app_eq_nil in Hnop. exact Hnop. }
           destruct Hab as [-> Hb2]. unfold pend in Hb2. rewrite Hb2. cbn. rewrite Hm. reflexivity.
        -- apply locals_nodup.
        -- apply locals_in. auto.
        -- rewrite Hmn, !Nat.eqb_refl; reflexivity.
        -- intros y _ Hy. apply andb_prop in Hy. apply Nat.eqb_eq; tauto.
      * replace (m_n m =? n) with false by (symmetry; apply Nat.eqb_neq; exact Hmn).
        rewrite andb_false_r. rewrite filter_nil; [|intros; apply andb_false_r].
        cbn [map]. rewrite app_nil_r. reflexivity.
    + replace (q =? part g j) with false by (symmetry; apply Nat.eqb_neq; auto). cbn [andb].
      rewrite filter_nil.
      * cbn [map]. rewrite app_nil_r. reflexivity.
      * intros y Hy. apply locals_in in Hy. destruct (y =? j) eqn:E; [|reflexivity].
        apply Nat.eqb_eq in E. subst y. tauto.
  - intros q' n Hn Hpd. cbn [set_io b_net]. apply (f_pend _ _ _ _ F1); [exact Hn|]. cbn.
    rewrite El, pend_app in Hpd. apply app_eq_nil in Hpd. destruct Hpd as [P1 P2].
    rewrite Er, pend_app, P1. cbn. unfold pend in *. cbn [filter] in P2.
    destruct ((w_dst w =? q') && (m_n (w_msg w) =? n)); [discriminate|exact P2].
  - intros n Hn. cbn in Hn. destruct (f_good _ _ _ _ F1 n) as (i & f & c & st & Hi & Hg); [cbn; lia|].
    exists i, f, c, st. split; [exact Hi|]. intros j Hj. rewrite view_set_io. apply Hg; exact Hj.
  - intros x. cbn. rewrite (f_io _ _ _ _ F1). cbn.
    destruct (x =? q) eqn:E; [|reflexivity]. apply Nat.eqb_eq in E. subst x. symmetry; exact Eio.
  - intros j p' Hp' Hb. cbn [set_io b_log b_net b_next].
    assert (Hjq : part g j <> q) by (intros Hc; rewrite Hc in Hb; congruence).
    destruct (f_busy _ _ _ _ F1 j p' Hp') as (E1 & t & T & S1 & Ft).
    { cbn. rewrite Hb. destruct (part g j =? q); reflexivity. }
    rewrite HpA in E1 by exact Hjq. cbn in E1. change (rxs g j p' []) with (@nil nat).
    split; [exact E1|]. exists t. split; [|split; [exact S1|exact Ft]].
    rewrite T. cbn. rewrite Hbet; [reflexivity|]. congruence.
  - intros j p' Hj Hp' _. cbn [set_io b_log b_net b_next].
    destruct (Nat.eq_dec (part g j) q) as [Hjq|Hjq].
    + destruct (f_busy _ _ _ _ F1 j p' Hp') as (E1 & t & T & S1 & Ft).
      { cbn. rewrite Hjq, Nat.eqb_refl. reflexivity. }
      exists t. split; [|split; [exact S1|exact Ft]].
      rewrite E1, T. cbn [s0 set_io set_net b_log b_net].
      * unfold A. rewrite rxs_map_frame, <- Wsrc, Hp. rewrite Hjq.
        destruct (Nat.eq_dec p p') as [<-|Hpp].
        -- rewrite (filter_one _ j).
           ++ cbn [map]. rewrite Hbet1, <- !app_assoc. reflexivity.
           ++ apply locals_nodup.
           ++ apply locals_in; auto.
           ++ rewrite !Nat.eqb_refl; reflexivity.
           ++ intros y _ Hy. apply andb_prop in Hy. apply Nat.eqb_eq; tauto.
        -- rewrite filter_nil.
           ++ cbn [map app]. rewrite Hbet by congruence. rewrite <- !app_assoc. reflexivity.
           ++ intros y _. replace (p =? p') with false; [apply andb_false_r|].
              symmetry; apply Nat.eqb_neq; exact Hpp.
    + destruct (f_order _ _ _ _ F1 j p' Hj Hp') as (t & T & S1 & Ft).
      { apply HpA; exact Hjq. }
      exists t. split; [|split; [exact S1|exact Ft]].
      rewrite T. cbn [s0 set_io set_net b_log b_net]. rewrite Hbet; [reflexivity|congruence].
Qed.

(** * Whole executions *)

(** Induction over calls and the scripts of their handlers. *)
Fixpoint op_ind2 (P : op -> Prop)
  (HS : forall i f c l, Forall (Forall P) l -> P (OSend i f c l))
  (HM : forall i m l, Forall (Forall P) l -> P (OMode i m l))
  (HD : forall p q l, Forall (Forall P) l -> P (ODeliver p q l))
  (o : op) : P o :=
  let inner := fix inner (l : list op) : Forall P l :=
    match l with [] => Forall_nil _ | x :: r => Forall_cons x (op_ind2 P HS HM HD x) (inner r) end in
  let outer := fix outer (l : list (list op)) : Forall (Forall P) l :=
    match l with [] => Forall_nil _ | x :: r => Forall_cons x (inner x) (outer r) end in
  match o with
  | OSend i f c l => HS i f c l (outer l)
  | OMode i m l => HM i m l (outer l)
  | ODeliver p q l => HD p q l (outer l)
  end.

Lemma script_pres : forall g l, Forall (fun o => Pres g (exec g o)) l ->
  Pres g (fun s => fold_left (fun s o => exec g o s) l s).
Proof.
  intros g l; induction l as [|o l IH]; intros H s HI; cbn [fold_left].
  - split; [exact HI|apply fr_refl].
  - inversion H as [|? ? Ho Hl]; subst. destruct (Ho s HI) as [I1 F1].
    destruct (IH Hl _ I1) as [I2 F2]. split; [exact I2|].
    change (@nil ev) with (@nil ev ++ []). eapply fr_trans; eauto.
Qed.

Lemma scripts_pres : forall g ls, Forall (Forall (fun o => Pres g (exec g o))) ls ->
  Forall (Pres g) (map (fun l s => fold_left (fun s o => exec g o s) l s) ls).
Proof.
  intros g ls H. rewrite Forall_map. eapply Forall_impl; [|exact H].
  intros l Hl. apply script_pres. exact Hl.
Qed.

Lemma exec_pres : forall g o, Pres g (exec g o).
Proof.
  intros g o; induction o as [i f c l Hl|i m l Hl|p q l Hl] using op_ind2; intros s HI; cbn [exec];
    apply scripts_pres in Hl.
  - destruct (i <? ncontrollers g) eqn:E; [|split; [exact HI|apply fr_refl]].
    apply Nat.ltb_lt in E. apply send_pres; assumption.
  - destruct (i <? ncontrollers g) eqn:E; [|split; [exact HI|apply fr_refl]].
    apply mode_pres; assumption.
  - apply receive_pres; assumption.
Qed.

Lemma init_inv : forall g, Inv g (init g).
Proof.
  intros g; constructor; cbn; try constructor.
  intros a e b n H. destruct a; discriminate.
Qed.

Lemma run_frame : forall g os, Inv g (run g os) /\ Fr g (init g) (run g os) [].
Proof.
  intros g os. apply (script_pres g os); [|apply init_inv].
  rewrite Forall_forall. intros o _. apply exec_pres.
Qed.

Lemma run_good : forall g os n, n < b_next (run g os) -> Good g (run g os) n.
Proof. intros g os n Hn. destruct (run_frame g os) as [_ F]. apply (f_good _ _ _ _ F). cbn; lia. Qed.

Lemma call_num : forall g os e n, In e (b_log (run g os)) -> ev_num e = Some n -> n < b_next (run g os).
Proof.
  intros g os e n He Hn. destruct (run_frame g os) as [HI _].
  pose proof (i_num _ _ HI) as H. rewrite Forall_forall in H. specialize (H e He). rewrite Hn in H. exact H.
Qed.

(** The call with number [n] is the only one, so its arguments are those of [Good]. *)
Lemma call_good : forall g os i n f c st, i < ncontrollers g -> In (ECall i n f c st) (b_log (run g os)) ->
  forall j, j < ncontrollers g -> view g (run g os) j n = expected g i n f c st j.
Proof.
  intros g os i n f c st Hi H.
  destruct (run_good g os n) as (i' & f' & c' & st' & Hi' & Hg); [eapply call_num; eauto; reflexivity|].
  assert (Hin : In (ECall i n f c st) (view g (run g os) i n)).
  { unfold view. apply in_or_app. left. unfold at_. apply filter_In. split; [exact H|].
    unfold is_at; cbn. rewrite !Nat.eqb_refl. reflexivity. }
  rewrite Hg in Hin by exact Hi. unfold expected in Hin.
  destruct (i =? i') eqn:E.
  - destruct Hin as [Hin|Hin].
    + injection Hin as -> -> -> ->. exact Hg.
    + exfalso. apply in_app_or in Hin. destruct Hin as [Hin|Hin].
      * destruct (transmits (c_kind g) st'); [|contradiction].
        destruct Hin as [Hin|[]]; discriminate.
      * unfold ack_event in Hin. destruct (ack_of (c_kind g) st'); [|contradiction].
        destruct Hin as [Hin|[]]; discriminate.
  - exfalso. destruct (transmits (c_kind g) st'); [|contradiction].
    destruct Hin as [Hin|[]]; discriminate.
Qed.

(** Nothing is on its way to the own participant. *)
Lemma own_pend : forall g os i n f c st j, i < ncontrollers g -> In (ECall i n f c st) (b_log (run g os)) ->
  part g j = part g i -> pend (part g j) n (b_net (run g os)) = [].
Proof.
  intros g os i n f c st j Hi H Hp.
  pose proof (call_good g os i n f c st Hi H i Hi) as Hv. unfold view, expected in Hv.
  rewrite Nat.eqb_refl in Hv. rewrite Hp.
  destruct (pend (part g i) n (b_net (run g os))) as [|w l] eqn:E; [reflexivity|exfalso].
  destruct (run_frame g os) as [HI _].
  assert (Hin : In (frame_event (c_kind g) i RX (w_msg w))
                   (at_ i n (b_log (run g os)) ++ map (fun w => frame_event (c_kind g) i RX (w_msg w)) (w :: l)))
    by (apply in_or_app; right; left; reflexivity).
  rewrite Hv in Hin. destruct Hin as [Hin|Hin]; [discriminate|].
  apply in_app_or in Hin. destruct Hin as [Hin|Hin].
  - destruct (transmits (c_kind g) st); [|contradiction]. destruct Hin as [Hin|[]]; discriminate.
  - unfold ack_event in Hin. destruct (ack_of (c_kind g) st); [|contradiction].
    destruct Hin as [Hin|[]]; discriminate.
Qed.

Lemma quiet_at : forall g os i n f c st j, i < ncontrollers g -> j < ncontrollers g ->
  In (ECall i n f c st) (b_log (run g os)) -> pend (part g j) n (b_net (run g os)) = [] ->
  at_ j n (b_log (run g os)) = expected g i n f c st j.
Proof.
  intros g os i n f c st j Hi Hj H Hp. rewrite <- (call_good g os i n f c st Hi H j Hj).
  unfold view. rewrite Hp. cbn. rewrite app_nil_r. reflexivity.
Qed.

Lemma remote_sorted : forall g os j p, j < ncontrollers g -> p <> part g j ->
  StronglySorted lt (rxs g j p (b_log (run g os))).
Proof.
  intros g os j p Hj Hp. destruct (run_frame g os) as [_ F].
  destruct (f_order _ _ _ _ F j p Hj Hp eq_refl) as (t & T & S1 & _). cbn in T.
  change (between p (part g j) []) with (@nil nat) in T. change (rxs g j p []) with (@nil nat) in T.
  cbn in T. rewrite <- T in S1. clear - S1.
  induction (rxs g j p (b_log (run g os))) as [|x l IH]; [constructor|].
  cbn in S1. inversion S1 as [|? ? H1 H2]; subst. constructor; [apply IH; exact H1|].
  apply Forall_app in H2. apply H2.
Qed.

(** * States *)

Lemma st_log_state : forall k l, st_log k l -> forall a i x b, l = a ++ ESt i x :: b ->
  x <> last_st k i a /\
  exists a' m, a = a' ++ [EMode i m] /\ mode_target k m (last_st k i a') = Some x.
Proof.
  intros k l H; induction H as [|l i n f c H IH|l j i n d f c H IH|l i n id a c H IH|l i m H IH Ht|l i m x H IH Ht Hx];
    intros a0 i0 x0 b0 E; try (destruct (snoc_split _ _ _ _ _ E) as [(b' & E' & _)|(_ & E' & _)];
                                [apply (IH _ _ _ _ E')|discriminate]).
  - destruct a0; discriminate.
  - change [EMode i m; ESt i x] with ([EMode i m] ++ [ESt i x]) in E. rewrite app_assoc in E.
    destruct (snoc_split _ _ _ _ _ E) as [(b' & E' & _)|(E1 & E2 & _)].
    + destruct (snoc_split _ _ _ _ _ E') as [(b'' & E'' & _)|(_ & E'' & _)];
        [apply (IH _ _ _ _ E'')|discriminate].
    + injection E2 as <- <-. subst a0. rewrite last_st_snoc. cbn. split; [exact Hx|].
      exists l, m. auto.
Qed.

Lemma st_log_call : forall k l, st_log k l -> forall a i n f c st b, l = a ++ ECall i n f c st :: b ->
  st = last_st k i a.
Proof.
  intros k l H; induction H as [|l i n f c H IH|l j i n d f c H IH|l i n id a c H IH|l i m H IH Ht|l i m x H IH Ht Hx];
    intros a0 i0 n0 f0 c0 st0 b0 E;
    try (destruct (snoc_split _ _ _ _ _ E) as [(b' & E' & _)|(_ & E' & _)];
                                [apply (IH _ _ _ _ _ _ _ E')|discriminate]).
  - destruct a0; discriminate.
  - destruct (snoc_split _ _ _ _ _ E) as [(b' & E' & _)|(E1 & E2 & _)].
    + apply (IH _ _ _ _ _ _ _ E').
    + injection E2 as <- <- <- <- <-. subst a0. reflexivity.
  - change [EMode i m; ESt i x] with ([EMode i m] ++ [ESt i x]) in E. rewrite app_assoc in E.
    destruct (snoc_split _ _ _ _ _ E) as [(b' & E' & _)|(E1 & E2 & _)]; [|discriminate].
    destruct (snoc_split _ _ _ _ _ E') as [(b'' & E'' & _)|(_ & E'' & _)];
        [apply (IH _ _ _ _ _ _ _ E'')|discriminate].
Qed.

Lemma st_log_mode : forall k l, st_log k l -> forall a i m b x, l = a ++ EMode i m :: b ->
  mode_target k m (last_st k i a) = Some x -> x <> last_st k i a -> exists b', b = ESt i x :: b'.
Proof.
  intros k l H; induction H as [|l i n f c H IH|l j i n d f c H IH|l i n id a c H IH|l i m H IH Ht|l i m x H IH Ht Hx];
    intros a0 i0 m0 b0 x0 E Et Ex;
    try (destruct (snoc_split _ _ _ _ _ E) as [(b' & E' & Eb)|(_ & E' & _)];
           [destruct (IH _ _ _ _ _ E' Et Ex) as (b'' & ->); eexists; rewrite Eb; reflexivity
           |discriminate]).
  - destruct a0; discriminate.
  - destruct (snoc_split _ _ _ _ _ E) as [(b' & E' & Eb)|(E1 & E2 & _)].
    + destruct (IH _ _ _ _ _ E' Et Ex) as (b'' & ->). exists (b'' ++ [EMode i m]). rewrite Eb; reflexivity.
    + injection E2 as <- <-. subst a0. exfalso. destruct Ht as [Ht|Ht]; congruence.
  - change [EMode i m; ESt i x] with ([EMode i m] ++ [ESt i x]) in E. rewrite app_assoc in E.
    destruct (snoc_split _ _ _ _ _ E) as [(b' & E' & Eb)|(E1 & E2 & _)]; [|discriminate].
    destruct (snoc_split _ _ _ _ _ E') as [(b'' & E'' & Eb')|(E1 & E2 & E3)].
    + destruct (IH _ _ _ _ _ E'' Et Ex) as (b3 & ->). subst b' b0.
      exists (b3 ++ [EMode i m; ESt i x]). cbn. rewrite <- app_assoc. reflexivity.
    + injection E2 as <- <-. subst a0 b'. exists []. rewrite Eb. cbn. congruence.
Qed.

(** * Everything on its way can be delivered *)

Lemma deliver_plain : forall k js m s, b_net (fst (deliver k js m [] s)) = b_net s /\
  snd (deliver k js m [] s) = [].
Proof.
  intros k js m; induction js as [|j js IH]; intros s; [split; reflexivity|].
  cbn [deliver emit]. destruct (IH (add_log (frame_event k j RX m) s)) as [H1 H2].
  split; [rewrite H1; reflexivity|exact H2].
Qed.

Lemma pop_first : forall w l, pop (w_src w) (w_dst w) (w :: l) = Some (w_msg w, l).
Proof. intros w l; cbn. rewrite !Nat.eqb_refl. reflexivity. Qed.

Lemma run_app : forall g a b, run g (a ++ b) = fold_left (fun s o => exec g o s) b (run g a).
Proof. intros; unfold run; apply fold_left_app. Qed.

Lemma drain : forall g os, exists ds, Forall (fun o => match o with ODeliver _ _ [] => True | _ => False end) ds /\
  b_net (run g (os ++ ds)) = [].
Proof.
  intros g os. remember (length (b_net (run g os))) as n eqn:En. revert os En.
  induction n as [|n IH]; intros os En.
  - exists []. split; [constructor|]. rewrite app_nil_r.
    destruct (b_net (run g os)); [reflexivity|discriminate].
  - destruct (b_net (run g os)) as [|w l] eqn:E; [discriminate|].
    destruct (IH (os ++ [ODeliver (w_src w) (w_dst w) []])) as (ds & Hd & Hn).
    + rewrite run_app. cbn [fold_left exec map]. unfold receive.
      destruct (run_frame g os) as [_ F]. rewrite (f_io _ _ _ _ F). cbn [init b_io].
      rewrite E, pop_first. cbn [set_io b_net].
      destruct (deliver_plain (c_kind g) (locals g (w_dst w)) (w_msg w)
                  (set_io (w_dst w) true (set_net l (run g os)))) as [H _].
      rewrite H. cbn. cbn in En. lia.
    + exists (ODeliver (w_src w) (w_dst w) [] :: ds). split; [constructor; [exact I|exact Hd]|].
      rewrite <- app_assoc in Hn. exact Hn.
Qed.
