(** C39, C40: CAN and Ethernet controllers without network simulator. *)
From Coq Require Import List NArith Arith Bool Lia Sorting.Sorted.
From Verif Require Import Base BusModel BusProofs.
Import ListNotations.

(** ** Vocabulary of the statements

    [BusProofs.at_ j n log]: the events of the SendFrame call number [n] at controller [j];
    [BusProofs.last_st k i log]: the state last reported to the state change handler of [i];
    [b_net s = []]: nothing is on its way between participants. *)

(** An example: controllers 0 and 1 belong to participant 0, controllers 2 and 3 to participant 1. *)
Definition canG := mkCfg KCan [0; 0; 1; 1].
Definition ethG := mkCfg KEth [0; 0; 1; 1].
Definition frA := mkFrame 17%N [1%N] [1; 2; 3]%N.
Definition frB := mkFrame 18%N [2%N] [9; 8]%N.
Definition can_run :=
  run canG [OMode 0 MStart []; OSend 0 frA 77%N [[OSend 1 frB 5%N []]; [OMode 1 MStart []]];
            OMode 1 MSleep []; OSend 1 frB 6%N []; ODeliver 0 1 []].
Definition eth_run :=
  run ethG [OSend 0 frA 76%N []; OMode 0 MActivate []; OSend 0 frA 77%N [[OMode 0 MDeactivate []]]; ODeliver 0 1 []].

(** ** C39 *)

(** Every other controller gets the frame exactly once as RX, without the user context, if and only if
    the sender was started at the call; and nothing else of that call. *)
Theorem C39_each_other_controller_once : forall parts os i j n f ctx st,
  let g := mkCfg KCan parts in let s := run g os in
  In (ECall i n f ctx st) (b_log s) -> i < length parts -> j < length parts -> j <> i ->
  b_net s = [] ->
  at_ j n (b_log s) = match st with Started => [EFrame j i n RX f 0%N] | _ => [] end.
Proof.
  intros parts os i j n f ctx st g s H Hi Hj Hji Hq.
  unfold s in *. rewrite (quiet_at g os i n f ctx st j Hi Hj H) by (rewrite Hq; reflexivity).
  unfold expected. replace (j =? i) with false by (symmetry; apply Nat.eqb_neq; exact Hji).
  destruct st; reflexivity.
Qed.
Print Assumptions C39_each_other_controller_once.

(** While messages are still on their way it has got it or not yet; a controller of the participant of
    the sender has got it when the call returns. *)
Theorem C39_at_most_once_meanwhile : forall parts os i j n f ctx st,
  let g := mkCfg KCan parts in let s := run g os in
  In (ECall i n f ctx st) (b_log s) -> i < length parts -> j < length parts -> j <> i ->
  (at_ j n (b_log s) = [] \/ (st = Started /\ at_ j n (b_log s) = [EFrame j i n RX f 0%N])) /\
  (nth j parts 0 = nth i parts 0 -> st = Started -> at_ j n (b_log s) = [EFrame j i n RX f 0%N]).
Proof.
  intros parts os i j n f ctx st g s H Hi Hj Hji. unfold s in *.
  assert (E : expected g i n f ctx st j = match st with Started => [EFrame j i n RX f 0%N] | _ => [] end).
  { unfold expected. replace (j =? i) with false by (symmetry; apply Nat.eqb_neq; exact Hji).
    destruct st; reflexivity. }
  split.
  - pose proof (call_good g os i n f ctx st Hi H j Hj) as V. rewrite E in V. unfold view in V.
    destruct (at_ j n (b_log (run g os))) as [|e l]; [left; reflexivity|]. right.
    destruct st; try discriminate. split; [reflexivity|].
    injection V as -> V. apply app_eq_nil in V. destruct V as [-> _]. reflexivity.
  - intros Hp ->. rewrite (quiet_at g os i n f ctx Started j Hi Hj H); [exact E|].
    apply (own_pend g os i n f ctx Started j Hi H Hp).
Qed.
Print Assumptions C39_at_most_once_meanwhile.

(** The sender: its TX handlers once, then one acknowledgement with the user context, in this order,
    if it was started; otherwise nothing. *)
Theorem C39_sender_tx_then_ack : forall parts os i n f ctx st,
  let g := mkCfg KCan parts in let s := run g os in
  In (ECall i n f ctx st) (b_log s) -> i < length parts ->
  at_ i n (b_log s) =
    ECall i n f ctx st ::
    match st with
    | Started => [EFrame i i n TX f ctx; EAck i n (f_id f) Transmitted ctx]
    | _ => []
    end.
Proof.
  intros parts os i n f ctx st g s H Hi. unfold s in *.
  rewrite (quiet_at g os i n f ctx st i Hi Hi H) by (apply (own_pend g os i n f ctx st i Hi H eq_refl)).
  unfold expected. rewrite Nat.eqb_refl. destruct st; reflexivity.
Qed.
Print Assumptions C39_sender_tx_then_ack.

(** The state named in a call is the one last reported before, and it is the state the controller has. *)
Theorem C39_state_of_calls : forall k parts os,
  let g := mkCfg k parts in let s := run g os in
  (forall a i n f ctx st b, b_log s = a ++ ECall i n f ctx st :: b -> st = last_st k i a) /\
  (forall i, b_st s i = last_st k i (b_log s)).
Proof.
  intros k parts os g s. destruct (run_frame g os) as [HI _]. split.
  - intros a i n f ctx st b E. apply (st_log_call _ _ (i_log _ _ HI) a i n f ctx st b E).
  - intros i. apply (i_st _ _ HI).
Qed.
Print Assumptions C39_state_of_calls.

(** The state change handler is only called with a state different from the one before, directly after
    the call of the method for that state; and it is called whenever the method leads to a change. *)
Definition can_state (m : mode) : option bst :=
  match m with MReset => Some Uninit | MStart => Some Started | MStop => Some Stopped | MSleep => Some Sleeping
             | _ => None end.
Theorem C39_state_handler_only_on_change : forall parts os a i x b,
  let s := run (mkCfg KCan parts) os in
  b_log s = a ++ ESt i x :: b ->
  x <> last_st KCan i a /\ exists a' m, a = a' ++ [EMode i m] /\ can_state m = Some x.
Proof.
  intros parts os a i x b s E. destruct (run_frame (mkCfg KCan parts) os) as [HI _].
  destruct (st_log_state _ _ (i_log _ _ HI) a i x b E) as (Hx & a' & m & -> & Ht).
  split; [exact Hx|]. exists a', m. split; [reflexivity|]. destruct m; exact Ht.
Qed.
Print Assumptions C39_state_handler_only_on_change.
Theorem C39_state_handler_on_every_change : forall parts os a i m b x,
  let s := run (mkCfg KCan parts) os in
  b_log s = a ++ EMode i m :: b -> can_state m = Some x -> x <> last_st KCan i a ->
  exists b', b = ESt i x :: b'.
Proof.
  intros parts os a i m b x s E Hm Hx. destruct (run_frame (mkCfg KCan parts) os) as [HI _].
  apply (st_log_mode _ _ (i_log _ _ HI) a i m b x E); [|exact Hx]. destruct m; exact Hm.
Qed.
Print Assumptions C39_state_handler_on_every_change.

(** No handler is called for a frame that was not sent: every frame event and acknowledgement comes
    after the call it belongs to (and the theorems above tell which events a call has). *)
Theorem C39_nothing_from_nowhere : forall k parts os a e b n,
  let s := run (mkCfg k parts) os in
  b_log s = a ++ e :: b -> ev_num e = Some n ->
  (forall i f ctx st, e <> ECall i n f ctx st) ->
  exists i f ctx st, In (ECall i n f ctx st) a.
Proof.
  intros k parts os a e b n s E Hn Hne. destruct (run_frame (mkCfg k parts) os) as [HI _].
  pose proof (i_caus _ _ HI a e b n E Hn) as H.
  assert (Hin : In n (call_nums a)).
  { destruct e; try exact H. cbn in Hn. injection Hn as ->. exfalso. eapply Hne; reflexivity. }
  unfold call_nums in Hin. apply in_flat_map in Hin. destruct Hin as (x & Hx & Hin).
  destruct x; try contradiction. destruct Hin as [->|[]]. eauto.
Qed.
Print Assumptions C39_nothing_from_nowhere.

(** Calls are numbered in the order in which they are made, and a controller gets the frames of the
    controllers of another participant in this order. *)
Theorem C39_calls_numbered_in_order : forall k parts os,
  let s := run (mkCfg k parts) os in
  flat_map (fun e => match e with ECall _ n _ _ _ => [n] | _ => [] end) (b_log s) = seq 0 (b_next s).
Proof. intros k parts os s. destruct (run_frame (mkCfg k parts) os) as [HI _]. apply (i_calls _ _ HI). Qed.
Print Assumptions C39_calls_numbered_in_order.

Lemma rxs_in : forall g j p l n, In n (rxs g j p l) <->
  exists i f c, In (EFrame j i n RX f c) l /\ part g i = p.
Proof.
  intros g j p l n. unfold rxs. rewrite in_flat_map. split.
  - intros (e & He & Hn). destruct e; cbn in Hn; try contradiction. destruct d; [|contradiction].
    destruct ((j0 =? j) && (part g i =? p)) eqn:E; [|contradiction].
    apply andb_prop in E. destruct E as [E1 E2]. apply Nat.eqb_eq in E1, E2. subst.
    destruct Hn as [->|[]]. eauto.
  - intros (i & f & c & He & Hp). eexists; split; [exact He|]. cbn. rewrite Hp, !Nat.eqb_refl. left; reflexivity.
Qed.

Theorem C39_remote_frames_in_call_order : forall k parts os a j i n f c b i' n' f' c' d,
  let s := run (mkCfg k parts) os in
  b_log s = a ++ EFrame j i n RX f c :: b ++ EFrame j i' n' RX f' c' :: d ->
  j < length parts -> nth i parts 0 = nth i' parts 0 -> nth i parts 0 <> nth j parts 0 ->
  n < n'.
Proof.
  intros k parts os a j i n f c b i' n' f' c' d s E Hj Hp Hne. unfold s in *. set (g := mkCfg k parts) in *.
  pose proof (remote_sorted g os j (part g i) Hj) as S. specialize (S Hne).
  rewrite E in S. rewrite rxs_app in S.
  change (EFrame j i n RX f c :: b ++ EFrame j i' n' RX f' c' :: d)
    with ([EFrame j i n RX f c] ++ b ++ [EFrame j i' n' RX f' c'] ++ d) in S.
  rewrite !rxs_app in S.
  assert (E1 : rxs g j (part g i) [EFrame j i n RX f c] = [n])
    by (unfold rxs; cbn; rewrite !Nat.eqb_refl; reflexivity).
  assert (E2 : rxs g j (part g i) [EFrame j i' n' RX f' c'] = [n']).
  { unfold rxs; cbn [flat_map rx_num]. rewrite Nat.eqb_refl.
    replace (part g i' =? part g i) with true; [reflexivity|].
    symmetry; apply Nat.eqb_eq. symmetry; exact Hp. }
  rewrite E1, E2 in S. clear - S.
  induction (rxs g j (part g i) a) as [|x l IH]; cbn in S.
  - inversion S as [|? ? _ F]; subst. apply Forall_app in F. destruct F as [_ F].
    inversion F; subst; assumption.
  - inversion S; subst. apply IH; assumption.
Qed.
Print Assumptions C39_remote_frames_in_call_order.

(** Quiescence can always be reached by deliveries alone. *)
Theorem C39_pending_frames_can_be_delivered : forall g os,
  exists ds, Forall (fun o => match o with ODeliver _ _ [] => True | _ => False end) ds /\
  b_net (run g (os ++ ds)) = [].
Proof. exact drain. Qed.
Print Assumptions C39_pending_frames_can_be_delivered.

(** Within one participant the order is not kept: if a frame handler sends, a third controller of the
    participant gets the second frame of controller 0 before the first one (and a controller of
    another participant gets them the other way round). *)
Theorem C39_local_call_order_refuted :
  exists parts os a b d j i n n' f f', let s := run (mkCfg KCan parts) os in
  b_log s = a ++ EFrame j i n' RX f' 0%N :: b ++ EFrame j i n RX f 0%N :: d /\ n < n'.
Proof.
  exists [0; 0; 0], [OMode 0 MStart []; OSend 0 frA 1%N [[OSend 0 frB 2%N []]]].
  exists [EMode 0 MStart; ESt 0 Started; ECall 0 0 frA 1%N Started; EFrame 1 0 0 RX frA 0%N;
          ECall 0 1 frB 2%N Started; EFrame 1 0 1 RX frB 0%N],
         [EFrame 0 0 1 TX frB 2%N; EAck 0 1 18%N Transmitted 2%N],
         [EFrame 0 0 0 TX frA 1%N; EAck 0 0 17%N Transmitted 1%N],
         2, 0, 0, 1, frA, frB.
  split; [vm_compute; reflexivity|lia].
Qed.
Print Assumptions C39_local_call_order_refuted.

(** A controller that was never started receives the frames of the network nevertheless. *)
Theorem C39_stopped_controller_silent_refuted :
  exists parts os j i n f, let s := run (mkCfg KCan parts) os in
  In (EFrame j i n RX f 0%N) (b_log s) /\ (forall x, ~ In (ESt j x) (b_log s)) /\ b_st s j = Uninit.
Proof.
  exists [0; 1], [OMode 0 MStart []; OSend 0 frA 1%N []; ODeliver 0 1 []], 1, 0, 0, frA.
  split; [vm_compute; tauto|]. split; [|reflexivity].
  intros x. vm_compute. intuition discriminate.
Qed.
Print Assumptions C39_stopped_controller_silent_refuted.

Example C39_case :
  b_net can_run = [] /\
  In (ECall 0 0 frA 77%N Started) (b_log can_run) /\ In (ECall 1 1 frB 5%N Uninit) (b_log can_run) /\
  at_ 3 0 (b_log can_run) = [EFrame 3 0 0 RX frA 0%N] /\ at_ 2 1 (b_log can_run) = [] /\
  b_st can_run 1 = Sleeping /\ rxs canG 2 0 (b_log can_run) = [0].
Proof. vm_compute. intuition. Qed.
Example C39_state_case : exists a b,
  b_log can_run = a ++ EMode 1 MSleep :: ESt 1 Sleeping :: b /\ last_st KCan 1 a = Started.
Proof.
  exists (firstn 9 (b_log can_run)), (skipn 11 (b_log can_run)). split; vm_compute; reflexivity.
Qed.
Definition order_run := run canG [OMode 0 MStart []; OMode 1 MStart [];
  OSend 0 frA 1%N [[OSend 1 frB 2%N []]]; ODeliver 0 1 []; ODeliver 0 1 []].
Example C39_order_case : exists a b d,
  b_log order_run = a ++ EFrame 2 0 0 RX frA 0%N :: b ++ EFrame 2 1 1 RX frB 0%N :: d.
Proof.
  exists (firstn 12 (b_log order_run)), [EFrame 3 0 0 RX frA 0%N], [EFrame 3 1 1 RX frB 0%N].
  vm_compute; reflexivity.
Qed.

(** ** C40 *)

(** [padded raw l]: [l] is [raw], followed by zeros up to 60 bytes. *)
Definition padded (raw l : list N) : Prop :=
  length l = Nat.max 60 (length raw) /\ firstn (length raw) l = raw /\
  forall x, In x (skipn (length raw) l) -> x = 0%N.

Lemma pad_padded : forall l, padded l (pad l).
Proof.
  intros l. unfold pad, padded. destruct (length l <? min_eth) eqn:E.
  - apply Nat.ltb_lt in E. unfold min_eth in *. rewrite resize_length by lia.
    split; [lia|]. unfold resize. rewrite (firstn_all2 l) by lia. split.
    + rewrite firstn_app, firstn_all, Nat.sub_diag. cbn. apply app_nil_r.
    + intros x Hx. rewrite skipn_app, skipn_all, Nat.sub_diag in Hx. cbn [app skipn] in Hx.
      apply repeat_spec in Hx. exact Hx.
  - apply Nat.ltb_ge in E. unfold min_eth in *. split; [lia|]. split; [apply firstn_all|].
    intros x Hx. rewrite skipn_all in Hx. contradiction.
Qed.

(** Exactly one acknowledgement with the user context of the call, Transmitted if and only if the link
    is up; before it, if the link is up, the sender's own TX handlers with the padded frame. *)
Theorem C40_sender_acknowledged_once : forall parts os i n f ctx st,
  let g := mkCfg KEth parts in let s := run g os in
  In (ECall i n f ctx st) (b_log s) -> i < length parts ->
  (st = LinkUp /\ exists l, padded (f_data f) l /\
     at_ i n (b_log s) = [ECall i n f ctx st; EFrame i i n TX (mkFrame (f_id f) (f_ctl f) l) ctx;
                          EAck i n 0%N Transmitted ctx])
  \/ (st = Inact /\ at_ i n (b_log s) = [ECall i n f ctx st; EAck i n 0%N AckInactive ctx]).
Proof.
  intros parts os i n f ctx st g s H Hi. unfold s in *.
  rewrite (quiet_at g os i n f ctx st i Hi Hi H) by (apply (own_pend g os i n f ctx st i Hi H eq_refl)).
  unfold expected. rewrite Nat.eqb_refl.
  destruct (run_frame g os) as [HI _].
  apply in_split in H. destruct H as (a & b & E).
  pose proof (st_log_call _ _ (i_log _ _ HI) a i n f ctx st b E) as Hst.
  assert (Hdom : st = LinkUp \/ st = Inact).
  { rewrite Hst. change (c_kind g) with KEth.
    destruct (in_dec (fun x y : bool => bool_dec x y) true (map (fun e => match e with ESt k _ => k =? i | _ => false end) a))
      as [Hin|Hnin].
    - clear Hst Hin. pose proof (i_log _ _ HI) as L. change (c_kind g) with KEth in L.
      assert (Hall : forall a' x b', a = a' ++ ESt i x :: b' -> x = LinkUp \/ x = Inact).
      { intros a' x b' Ea. rewrite Ea in E.
        destruct (st_log_state _ _ L a' i x (b' ++ ECall i n f ctx st :: b)) as (_ & a2 & m & _ & Ht).
        { rewrite E, <- app_assoc. reflexivity. }
        destruct m; cbn in Ht; try discriminate; destruct (bst_eqb _ _); try discriminate;
          injection Ht as <-; auto. }
      clear - Hall. induction a as [|e a IH] using rev_ind; [right; reflexivity|].
      rewrite last_st_snoc. destruct e; cbn; try (apply IH; intros a' x b' ->; eapply (Hall a' x (b' ++ [_])); rewrite <- app_assoc; reflexivity).
      destruct (i0 =? i) eqn:Ei.
      + apply Nat.eqb_eq in Ei. subst i0. apply (Hall a st []). reflexivity.
      + apply IH; intros a' x b' ->; eapply (Hall a' x (b' ++ [_])); rewrite <- app_assoc; reflexivity.
    - right. clear - Hnin. induction a as [|e a IH] using rev_ind; [reflexivity|].
      rewrite map_app in Hnin. rewrite last_st_snoc.
      assert (IH' : last_st KEth i a = Inact) by (apply IH; intros Hc; apply Hnin, in_or_app; left; exact Hc).
      destruct e; cbn; auto. destruct (i0 =? i) eqn:Ei; auto.
      exfalso. apply Hnin, in_or_app. right. left. exact Ei. }
  destruct Hdom as [->| ->].
  - left. split; [reflexivity|]. exists (pad (f_data f)). split; [apply pad_padded|reflexivity].
  - right. split; reflexivity.
Qed.
Print Assumptions C40_sender_acknowledged_once.

(** Every other controller gets the frame exactly once if the link of the sender was up, padded with
    zeros to 60 bytes, otherwise unchanged, without user context; else it gets nothing. *)
Theorem C40_each_other_controller_padded_once : forall parts os i j n f ctx st,
  let g := mkCfg KEth parts in let s := run g os in
  In (ECall i n f ctx st) (b_log s) -> i < length parts -> j < length parts -> j <> i ->
  b_net s = [] ->
  (st = LinkUp -> exists l, padded (f_data f) l /\
     at_ j n (b_log s) = [EFrame j i n RX (mkFrame (f_id f) (f_ctl f) l) 0%N]) /\
  (st <> LinkUp -> at_ j n (b_log s) = []).
Proof.
  intros parts os i j n f ctx st g s H Hi Hj Hji Hq. unfold s in *.
  rewrite (quiet_at g os i n f ctx st j Hi Hj H) by (rewrite Hq; reflexivity).
  unfold expected. replace (j =? i) with false by (symmetry; apply Nat.eqb_neq; exact Hji).
  split.
  - intros ->. exists (pad (f_data f)). split; [apply pad_padded|reflexivity].
  - intros Hst. destruct st; try reflexivity. contradiction.
Qed.
Print Assumptions C40_each_other_controller_padded_once.

(** The user context is handed only to the controller of the call. *)
Theorem C40_context_only_at_sender : forall k parts os j i n d f c,
  let s := run (mkCfg k parts) os in
  In (EFrame j i n d f c) (b_log s) -> j < length parts -> c <> 0%N ->
  d = TX /\ exists f0 st, In (ECall j n f0 c st) (b_log s).
Proof.
  intros k parts os j i n d f c s H Hj Hc. unfold s in *. set (g := mkCfg k parts) in *.
  assert (Hn : n < b_next (run g os)) by (eapply call_num; [exact H|reflexivity]).
  destruct (run_good g os n Hn) as (i' & f' & c' & st' & Hi' & Hg).
  assert (Hin : In (EFrame j i n d f c) (view g (run g os) j n)).
  { unfold view. apply in_or_app; left. unfold at_. apply filter_In. split; [exact H|].
    unfold is_at; cbn. rewrite !Nat.eqb_refl. reflexivity. }
  pose proof (Hg j Hj) as Hv. rewrite Hv in Hin. unfold expected in Hin, Hv.
  destruct (Nat.eqb_spec j i') as [->|Hne].
  - destruct Hin as [Hin|Hin]; [discriminate|]. apply in_app_or in Hin. destruct Hin as [Hin|Hin].
    + destruct (transmits (c_kind g) st'); [|contradiction]. destruct Hin as [Hin|[]].
      injection Hin as <- <- <- <-. split; [reflexivity|]. exists f', st'.
      assert (Hx : In (ECall i' n f' c' st') (view g (run g os) i' n))
        by (rewrite Hv; left; reflexivity).
      unfold view in Hx. apply in_app_or in Hx. destruct Hx as [Hx|Hx].
      * unfold at_ in Hx. apply filter_In in Hx. apply Hx.
      * apply in_map_iff in Hx. destruct Hx as (w & Hw & _). discriminate.
    + unfold ack_event in Hin. destruct (ack_of (c_kind g) st'); [|contradiction].
      destruct Hin as [Hin|[]]; discriminate.
  - destruct (transmits (c_kind g) st'); [|contradiction]. destruct Hin as [Hin|[]].
    injection Hin as _ _ _ <-. congruence.
Qed.
Print Assumptions C40_context_only_at_sender.

(** Activate and Deactivate: the link is up exactly after an Activate that was not followed by a
    Deactivate; the handlers are told each change and nothing else. *)
Theorem C40_activation : forall parts os a i m b,
  let s := run (mkCfg KEth parts) os in
  b_log s = a ++ EMode i m :: b ->
  (m = MActivate -> last_st KEth i a = Inact -> exists b', b = ESt i LinkUp :: b') /\
  (m = MDeactivate -> last_st KEth i a <> Inact -> exists b', b = ESt i Inact :: b').
Proof.
  intros parts os a i m b s E. destruct (run_frame (mkCfg KEth parts) os) as [HI _].
  pose proof (i_log _ _ HI) as L. split; intros -> Hs;
    apply (st_log_mode _ _ L a i _ b _ E); cbn; rewrite ?Hs; try reflexivity; try discriminate.
  - destruct (bst_eqb (last_st KEth i a) Inact) eqn:Eb; [|reflexivity].
    apply bst_eqb_eq in Eb. contradiction.
  - auto.
Qed.
Print Assumptions C40_activation.
Theorem C40_state_handler_only_on_change : forall parts os a i x b,
  let s := run (mkCfg KEth parts) os in
  b_log s = a ++ ESt i x :: b ->
  x <> last_st KEth i a /\ exists a' m, a = a' ++ [EMode i m] /\
    ((m = MActivate /\ x = LinkUp) \/ (m = MDeactivate /\ x = Inact)).
Proof.
  intros parts os a i x b s E. destruct (run_frame (mkCfg KEth parts) os) as [HI _].
  destruct (st_log_state _ _ (i_log _ _ HI) a i x b E) as (Hx & a' & m & -> & Ht).
  split; [exact Hx|]. exists a', m. split; [reflexivity|].
  change (c_kind (mkCfg KEth parts)) with KEth in Ht.
  destruct m; cbn in Ht; try discriminate; destruct (bst_eqb _ _); try discriminate;
    injection Ht as <-; auto.
Qed.
Print Assumptions C40_state_handler_only_on_change.

Example C40_case :
  In (ECall 0 0 frA 76%N Inact) (b_log eth_run) /\ In (ECall 0 1 frA 77%N LinkUp) (b_log eth_run) /\
  b_net eth_run = [] /\
  at_ 2 1 (b_log eth_run) = [EFrame 2 0 1 RX (mkFrame 17 [1%N] (1 :: 2 :: 3 :: repeat 0 57)%N) 0%N] /\
  at_ 0 0 (b_log eth_run) = [ECall 0 0 frA 76%N Inact; EAck 0 0 0%N AckInactive 76%N] /\
  b_st eth_run 0 = Inact.
Proof. vm_compute. intuition. Qed.
