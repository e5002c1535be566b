(** What the dashboard is sent (C82) *)
From Coq Require Import String Ascii NArith ZArith List Bool Lia Permutation Sorted.
From Verif Require TextSpec MetricsModel.
From Verif Require Import Base TextModel TextProofs YamlModel YamlProofs YamlProps ParticipantModel ParticipantProofs ParticipantInv ParticipantMore ParticipantProps DashMapModel DashMapProofs.
Import ListNotations.
Open Scope Z_scope.
Open Scope list_scope.

(** ** One update *)
(** Every participant of an update is in the DTO once; there is one for every participant that has connected, whose state has changed or one of whose services was created, and no
    other. It has the changes of its state in their order and, in the order of creation, one entry per created controller and link to a bus with the data of its descriptor
    ([service_shown]). *)
Theorem C82_update : forall yaml b z, bulk_dto yaml b = Ok z ->
  NoDup (map q_name (z_parts z)) /\
  (forall n, In n (map q_name (z_parts z)) <->
     In n (b_connected b) \/ (exists s, In s (b_statuses b) /\ ps_part s = n) \/ (exists d, In (true, d) (b_services b) /\ v_part d = n)) /\
  (forall p, In p (z_parts z) ->
     Forall2 status_shown (filter (fun s => text_eqb (ps_part s) (q_name p)) (b_statuses b)) (q_statuses p) /\
     exists ls, Forall2 (fun cd x => service_shown yaml (snd cd) x) (filter (fun cd => fst cd && text_eqb (v_part (snd cd)) (q_name p)) (b_services b)) ls /\ q_entries p = concat ls) /\
  Forall2 state_shown (b_states b) (z_states z) /\
  (b_stopped b = None <-> z_stopped z = None) /\ (forall n, b_stopped b = Some n -> (n < 2 ^ 63)%N -> z_stopped z = Some (Z.of_N n)).
Proof.
  intros yaml b z H. destruct (bulk_ok _ _ _ H) as ((A & B & C) & S). split; [exact A|]. split; [|split; [|split; [exact S|]]].
  - intros n. rewrite B. rewrite !in_map_iff. split; (intros [I|[I|I]]; [now left|right; left|right; right]).
    + destruct I as (s & E & I). eauto.
    + destruct I as ([c d] & E & I). apply filter_In in I. cbn in *. destruct I as [I ->]. eauto.
    + destruct I as (s & I & E). eauto.
    + destruct I as (d & I & E). exists (true, d). split; [exact E|]. apply filter_In. auto.
  - intros p I. destruct (C (q_name p)) as [C1 C2]. rewrite (got_in _ _ A I) in C1, C2. split; assumption.
  - unfold bulk_dto in H. apply bind_ok in H. destruct H as (st & _ & H). cbv zeta in H. apply bind_ok in H. destruct H as (p1 & _ & H). apply bind_ok in H. destruct H as (p2 & _ & H). injection H as <-. cbn.
    destruct (b_stopped b) as [m|]; cbn; (split; [split; congruence|]); intros n E L; [|discriminate]. injection E as ->. f_equal.
    change (2 ^ 64) with 18446744073709551616. change (2 ^ 63) with 9223372036854775808. change (2 ^ 63)%N with 9223372036854775808%N in L. rewrite Z.mod_small by lia. destruct (Z.of_N n <? 9223372036854775808) eqn:E; lia.
Qed.
Print Assumptions C82_update.
(** There is a DTO if and only if all states are known and every created controller can be shown: a type that is known with the keys it must have, labels that can be read
    and are optional or mandatory, a number of a parent. *)
Theorem C82_update_possible : forall yaml b, (exists z, bulk_dto yaml b = Ok z) <->
  (forall s, In s (b_states b) -> exists t, state_shown s t) /\ (forall s, In s (b_statuses b) -> exists t, state_shown (ps_state s) t) /\
  (forall d, In (true, d) (b_services b) -> v_type d = SvController -> exists k e, shown yaml d k e).
Proof.
  intros yaml b. rewrite bulk_total. split; intros (A & B & C); (split; [exact A|split; [exact B|]]); intros d I; specialize (C d I); unfold service_shown in *.
  - intros T. destruct C as (l & C). rewrite T in C. destruct C as (k & e & _ & C). eauto.
  - destruct (v_type d); eauto. destruct (C eq_refl) as (k & e & S). exists [(k, e)]. eauto.
Qed.
Print Assumptions C82_update_possible.
(** A service is shown in one way only. *)
Theorem C82_shown_once : forall yaml d k e k' e', shown yaml d k e -> shown yaml d k' e' -> k = k' /\ e = e'.
Proof. intros yaml d k e k' e' H H'. apply controller_entry_ok in H, H'. rewrite H in H'. injection H' as -> ->. auto. Qed.
Print Assumptions C82_shown_once.

Definition ex_yaml (t : text) : res node := w_mlabels [mkMl (lit "k") (lit "v") 2; mkMl (lit "o") [] 1].
Definition ex_can : sdesc := mkSd (lit "P") SvController NtCan (lit "CAN1") (lit "C") 7 [(lit "controller.type", lit "CAN")].
Definition ex_pub : sdesc :=
  mkSd (lit "Q") SvController NtData (lit "u") (lit "Pub") 8
       [(lit "controller.type", lit "DataPublisher"); (lit "PubSub::topic", lit "T"); (lit "PubSub::pubMediaType", lit "m"); (lit "PubSub::pubLabels", lit "...")].
Definition ex_bad : sdesc := mkSd (lit "P") SvController NtCan (lit "CAN1") (lit "C") 7 [(lit "controller.type", lit "Custom")].
Definition ex_bulk : bulk :=
  mkBulk (Some 5%N) [50; 60] [lit "P"; lit "R"] [mkPstat (lit "P") 50 (lit "go") 2999999; mkPstat (lit "Q") 120 [] 0; mkPstat (lit "P") 60 [] 3000000]
         [(true, ex_can); (false, ex_bad); (true, ex_pub); (true, mkSd (lit "P") SvLink NtLin (lit "L") [] 9 [])].
Example C82_update_ex : bulk_dto ex_yaml ex_bulk =
  Ok (mkSim (Some 5) ["running"; "paused"]%string
        [mkPdto (lit "P") [("running"%string, lit "go", 2); ("paused"%string, [], 3)] [(CanC, ECtrl 7 (lit "C") (lit "CAN1")); (LinN, ENet (lit "L"))];
         mkPdto (lit "R") [] [];
         mkPdto (lit "Q") [("aborting"%string, [], 0)] [(PubS, EServ 8 (lit "Pub") (lit "u") (mkSpecDto (lit "T") (lit "m") [(lit "k", lit "v", "mandatory"); (lit "o", [], "optional")]%string))]]).
Proof. vm_compute. reflexivity. Qed.

(** ** States *)
(** A state has a text iff it is one of the thirteen of ParticipantState and SystemState, and then no other state has the same. *)
Theorem C82_states : forall s t, map_state s = Ok t -> (0 <= s <= 120 /\ s mod 10 = 0) /\ forall s', map_state s' = Ok t -> s' = s.
Proof.
  assert (F : forall s t, map_state s = Ok t -> In (s, t) states).
  { intros s t H. unfold map_state in H. destruct (find _ states) as [[x y]|] eqn:E; [|discriminate]. apply find_some in E. destruct E as [I E]. cbn in E, H. apply Z.eqb_eq in E. injection H as <-. now subst. }
  intros s t H. apply F in H. split.
  - cbn in H. repeat (destruct H as [H|H]; [injection H as <- _; split; [lia|reflexivity]|]). destruct H.
  - intros s' H'. apply F in H'. cbn in H. repeat (destruct H as [H|H]; [injection H as <- <-; cbn in H'; repeat (destruct H' as [H'|H']; [first [discriminate H'|injection H' as <-; reflexivity]|]); destruct H'|]). destruct H.
Qed.
Print Assumptions C82_states.
Theorem C82_states_possible : forall s, 0 <= s <= 120 -> s mod 10 = 0 -> exists t, map_state s = Ok t.
Proof.
  intros s H M. assert (Q : s = 10 * (s / 10)) by (pose proof (Z.div_mod s 10); lia). assert (R : 0 <= s / 10 <= 12) by (split; [apply Z.div_pos|apply Z.div_le_upper_bound]; lia).
  remember (s / 10) as q. assert (X : q = 0 \/ q = 1 \/ q = 2 \/ q = 3 \/ q = 4 \/ q = 5 \/ q = 6 \/ q = 7 \/ q = 8 \/ q = 9 \/ q = 10 \/ q = 11 \/ q = 12) by lia.
  subst s. clear - X. repeat (destruct X as [->|X]; [eexists; reflexivity|]). subst. eexists. reflexivity.
Qed.
Print Assumptions C82_states_possible.
Example C82_states_ex : map_state 40 = Ok "readytorun"%string /\ map_state 41 = Exn.
Proof. split; reflexivity. Qed.

(** ** Numbers of parents *)
Theorem C82_parent : forall n, stou (decimal n) = if (n <? 2 ^ 64)%N then Ok n else Exn.
Proof. intros n. rewrite stou_decimal. destruct (N.leb_spec (2 ^ 64)%N n), (N.ltb_spec n (2 ^ 64)%N); try reflexivity; lia. Qed.
Print Assumptions C82_parent.
Example C82_parent_ex : stou (decimal 18446744073709551615) = Ok 18446744073709551615%N /\ stou (decimal 18446744073709551616) = Exn /\ stou (lit "x") = Exn.
Proof. repeat split; vm_compute; reflexivity. Qed.
(** Other texts are taken for numbers, too. *)
Theorem C82_parent_refuted : ~ (forall s n, stou s = Ok n -> s = decimal n).
Proof. intros H. specialize (H (lit " -1 and more") 18446744073709551615%N eq_refl). vm_compute in H. discriminate. Qed.
Print Assumptions C82_parent_refuted.

(** ** Services of participants *)
(** the labels that are announced can be read again *)
Definition faithful (yaml : text -> res node) (emit : list mlabel -> text) : Prop := forall l n, w_mlabels l = Ok n -> yaml (emit l) = Ok n.
Definition kind_name (k : Z) : string := if k =? 2 then "mandatory" else "optional".
Definition show_labels (l : list mlabel) : list (text * text * string) := map (fun x => (ml_key x, ml_value x, kind_name (ml_kind x))) l.

Lemma final_kinds : forall srt l, sorts srt -> Forall (fun x => ml_kind x = 1 \/ ml_kind x = 2) (final_labels srt l).
Proof.
  intros srt l H. apply Forall_forall. intros x X. apply final_in in X; [|exact H]. apply in_map_iff in X. destruct X as (y & <- & _). apply C69_configured_labels_convert.
Qed.
Lemma show_ok : forall l, Forall (fun x => ml_kind x = 1 \/ ml_kind x = 2) l -> mapM label_dto l = Ok (show_labels l).
Proof.
  intros l H. unfold show_labels. induction H as [|x l [K|K] F IH]; [reflexivity|..]; cbn; unfold label_dto at 1, label_kind, kind_name; rewrite K; cbn; rewrite IH; reflexivity.
Qed.
Lemma labels_back : forall yaml emit srt l d k, faithful yaml emit -> sorts srt -> supp d k = Ok (emit (final_labels srt l)) -> labels_dto yaml d k = Ok (show_labels (final_labels srt l)).
Proof.
  intros yaml emit srt l d k Fa So E. unfold labels_dto. rewrite E. cbn [bind]. destruct (C69_labels_arrive (final_labels srt l) (final_kinds srt l So)) as (n & W & R).
  rewrite (Fa _ _ W). cbn [bind]. rewrite R. cbn [bind]. apply show_ok. now apply final_kinds.
Qed.
Definition bus_slot (b : bus) : slot := match b with BCan => CanC | BEth => EthC | BFlexray => FlexC | BLin => LinC end.
(** Every service a participant creates is shown with its number, its name and its network, the configured topic or function name and labels, else those that were passed, the
    media type that was passed and the number of its parent. *)
Theorem C82_participant_services : forall yaml emit c srt s d, faithful yaml emit -> sorts srt -> reachable c srt s ->
  let e := service_entry yaml (received emit d) in
  (forall b n net, snd (step c srt (OBus b n net) s) = Some (Some d) -> e = Ok [(bus_slot b, ECtrl (d_id d) n (configured ct_name ct_net (section_of c b) n net))]) /\
  (forall n sp h u, snd (step c srt (OPub n sp h u) s) = Some (Some d) ->
     e = Ok [(PubS, EServ (d_id d) n u (mkSpecDto (configured sv_name sv_topic (p_pubs c) n (sp_topic sp)) (sp_media sp)
                                                  (show_labels (final_labels srt (configured sv_name sv_labels (p_pubs c) n (passed_labels sp))))))]) /\
  (forall n sp, snd (step c srt (OSub n sp) s) = Some (Some d) ->
     e = Ok [(SubS, EServ (d_id d) n (lit "default") (mkSpecDto (configured sv_name sv_topic (p_subs c) n (sp_topic sp)) (sp_media sp)
                                                  (show_labels (final_labels srt (configured sv_name sv_labels (p_subs c) n (passed_labels sp))))))]) /\
  (forall n sp u, snd (step c srt (OClient n sp u) s) = Some (Some d) ->
     e = Ok [(CliS, EServ (d_id d) n u (mkSpecDto (configured sv_name sv_topic (p_clients c) n (sp_topic sp)) (sp_media sp)
                                                  (show_labels (final_labels srt (configured sv_name sv_labels (p_clients c) n (passed_labels sp))))))]) /\
  (forall n sp, snd (step c srt (OServer n sp) s) = Some (Some d) ->
     e = Ok [(SrvS, EServ (d_id d) n (lit "default") (mkSpecDto (configured sv_name sv_topic (p_servers c) n (sp_topic sp)) (sp_media sp)
                                                  (show_labels (final_labels srt (configured sv_name sv_labels (p_servers c) n (passed_labels sp))))))]) /\
  (forall p l u, (p < 2 ^ 64)%N -> snd (step c srt (OSubInt p l u) s) = Some (Some d) -> e = Ok [(SubI, EIntern (d_id d) u l p)]) /\
  (forall p l u, (p < 2 ^ 64)%N -> snd (step c srt (OServerInt p l u) s) = Some (Some d) -> e = Ok [(SrvI, EIntern (d_id d) u l p)]).
Proof.
  intros yaml emit c srt s d Fa So R e. subst e.
  assert (T : forall o r, snd (step c srt o s) = Some (Some d) -> target_of o = r -> match r with TNamed k _ => d_internal d = internal k | _ => False end).
  { intros o r E <-. destruct (created _ _ _ _ _ R E) as (k & n & l & Q & _ & _ & D & _). rewrite Q, D. reflexivity. }
  assert (P : forall n, (n < 2 ^ 64)%N -> stou (decimal n) = Ok n). { intros n L. rewrite C82_parent. destruct (N.ltb_spec n (2 ^ 64)%N); [reflexivity|lia]. }
  repeat split.
  - intros b n net E. destruct (C75_controller _ _ _ _ _ _ _ R E) as (A & B & C). pose proof (T _ _ E eq_refl) as I. cbn in I.
    unfold service_entry, received. cbn [v_type]. rewrite I, A, B, C. destruct b; reflexivity.
  - intros n sp h u E. destruct (C75_publisher _ _ _ _ _ _ _ _ R E) as (A & B & C). pose proof (T _ _ E eq_refl) as I. cbn in I.
    unfold service_entry, received. cbn [v_type]. rewrite I, A, B, C. cbn [map fst snd].
    set (dd := mkSd _ _ _ _ _ _ _). change (controller_entry yaml dd) with (e <- data_dto yaml dd ;; Ok (PubS, e)). unfold data_dto. change (supp dd "controller.type") with (Ok (lit "DataPublisher")). cbn [bind].
    change (text_eqb (lit "DataPublisher") (lit "DataSubscriber")) with false. change (text_eqb (lit "DataPublisher") (lit "DataPublisher")) with true. cbv iota. unfold make_spec.
    rewrite (labels_back yaml emit srt (configured sv_name sv_labels (p_pubs c) n (passed_labels sp)) dd "PubSub::pubLabels" Fa So eq_refl). reflexivity.
  - intros n sp E. destruct (C75_subscriber _ _ _ _ _ _ R E) as (A & B & C). pose proof (T _ _ E eq_refl) as I. cbn in I.
    unfold service_entry, received. cbn [v_type]. rewrite I, A, B, C. cbn [map fst snd].
    set (dd := mkSd _ _ _ _ _ _ _). change (controller_entry yaml dd) with (e <- data_dto yaml dd ;; Ok (SubS, e)). unfold data_dto. change (supp dd "controller.type") with (Ok (lit "DataSubscriber")). cbn [bind].
    change (text_eqb (lit "DataSubscriber") (lit "DataSubscriber")) with true. cbv iota. unfold make_spec.
    rewrite (labels_back yaml emit srt (configured sv_name sv_labels (p_subs c) n (passed_labels sp)) dd "PubSub::subLabels" Fa So eq_refl). reflexivity.
  - intros n sp u E. destruct (C75_client _ _ _ _ _ _ _ R E) as (A & B & C). pose proof (T _ _ E eq_refl) as I. cbn in I.
    unfold service_entry, received. cbn [v_type]. rewrite I, A, B, C. cbn [map fst snd].
    set (dd := mkSd _ _ _ _ _ _ _). change (controller_entry yaml dd) with (e <- rpc_dto yaml dd ;; Ok (CliS, e)). unfold rpc_dto. change (supp dd "controller.type") with (Ok (lit "RpcClient")). cbn [bind].
    change (text_eqb (lit "RpcClient") (lit "RpcClient")) with true. cbv iota. unfold make_spec.
    rewrite (labels_back yaml emit srt (configured sv_name sv_labels (p_clients c) n (passed_labels sp)) dd "Rpc::client::labels" Fa So eq_refl). reflexivity.
  - intros n sp E. destruct (C75_server _ _ _ _ _ _ R E) as (A & B & C). pose proof (T _ _ E eq_refl) as I. cbn in I.
    unfold service_entry, received. cbn [v_type]. rewrite I, A, B, C. cbn [map fst snd].
    set (dd := mkSd _ _ _ _ _ _ _). change (controller_entry yaml dd) with (e <- rpc_dto yaml dd ;; Ok (SrvS, e)). unfold rpc_dto. change (supp dd "controller.type") with (Ok (lit "RpcServer")). cbn [bind].
    change (text_eqb (lit "RpcServer") (lit "RpcClient")) with false. change (text_eqb (lit "RpcServer") (lit "RpcServer")) with true. cbv iota. unfold make_spec.
    rewrite (labels_back yaml emit srt (configured sv_name sv_labels (p_servers c) n (passed_labels sp)) dd "Rpc::server::labels" Fa So eq_refl). reflexivity.
  - intros p l u L E. destruct (C75_internal c srt s d p l u R) as [X _]. destruct (X E) as (A & B & C). pose proof (T _ _ E eq_refl) as I. cbn in I.
    unfold service_entry, received. cbn [v_type]. rewrite I, A, B, C. cbn [map fst snd].
    set (dd := mkSd _ _ _ _ _ _ _). change (controller_entry yaml dd) with (e <- intern_dto dd ;; Ok (SubI, e)). unfold intern_dto. change (supp dd "controller.type") with (Ok (lit "DataSubscriberInternal")). cbn [bind].
    change (text_eqb (lit "DataSubscriberInternal") (lit "DataSubscriberInternal")) with true. cbv iota. change (supp dd "PubSub::subIntParentServiceId") with (Ok (decimal p)). cbn [bind]. rewrite (P p L). reflexivity.
  - intros p l u L E. destruct (C75_internal c srt s d p l u R) as [_ X]. destruct (X E) as (A & B & C). pose proof (T _ _ E eq_refl) as I. cbn in I.
    unfold service_entry, received. cbn [v_type]. rewrite I, A, B, C. cbn [map fst snd].
    set (dd := mkSd _ _ _ _ _ _ _). change (controller_entry yaml dd) with (e <- intern_dto dd ;; Ok (SrvI, e)). unfold intern_dto. change (supp dd "controller.type") with (Ok (lit "RpcServerInternal")). cbn [bind].
    change (text_eqb (lit "RpcServerInternal") (lit "DataSubscriberInternal")) with false. change (text_eqb (lit "RpcServerInternal") (lit "RpcServerInternal")) with true. cbv iota.
    change (supp dd "Rpc::serverinternal::parentServiceId") with (Ok (decimal p)). cbn [bind]. rewrite (P p L). reflexivity.
Qed.
Print Assumptions C82_participant_services.
(** Whatever a participant does, all its services can be shown, those it only uses itself by nothing. *)
Definition parents_fit (o : op) : Prop := match o with OSubInt p _ _ | OServerInt p _ _ => (p < 2 ^ 64)%N | _ => True end.
Theorem C82_participants_shown : forall yaml emit c srt ops, faithful yaml emit -> sorts srt -> snd (start c) = Some tt -> Forall parents_fit ops ->
  forall k d, In (k, d) (s_ctrls (run c srt ops (fst (start c)))) -> exists l, service_entry yaml (received emit d) = Ok l /\ length l = if internal k then 0%nat else 1%nat.
Proof.
  intros yaml emit c srt ops Fa So St. induction ops as [|o ops IH] using rev_ind; intros Fo k d I.
  - cbn in I. destruct (C75_joined_services c St) as (_ & J & _). destruct (J k d I) as (_ & _ & J3 & _).
    assert (Rc : reachable c srt (fst (start c))) by (exists []; auto). destruct (C75_descriptors _ _ _ _ _ Rc I) as (_ & _ & K & _). exists []. unfold service_entry, received. cbn. rewrite <- K, J3. auto.
  - apply Forall_app in Fo. destruct Fo as [Fo Fo1]. inversion Fo1 as [|? ? Po _]; subst. unfold run in I. rewrite fold_left_app in I. cbn [fold_left] in I. fold (run c srt ops (fst (start c))) in I.
    set (s := run c srt ops (fst (start c))) in *. assert (Rc : reachable c srt s) by (exists ops; auto). destruct (reach_inv _ _ _ Rc) as [V R].
    assert (Q : s_ctrls (fst (step c srt o s)) = s_ctrls s \/ exists k1 n d1, snd (step c srt o s) = Some (Some d1) /\ target_of o = TNamed k1 n /\ s_ctrls (fst (step c srt o s)) = s_ctrls s ++ [(k1, d1)]).
    { destruct (step_shape c srt o s R) as [m G C|k' n m T' C1 C2 G d0|T1 T2 C1 C2|d' a b Eo Es Ec Ea]; [left; reflexivity|right; exists k', n, d0; auto|left; now destruct (target_of o)|left; reflexivity]. }
    destruct Q as [Q|(k1 & n & d1 & E & T & Q)]; rewrite Q in I; [now apply IH|]. apply in_app_iff in I. destruct I as [I|[I|[]]]; [now apply IH|]. injection I as <- <-.
    destruct (C82_participant_services yaml emit c srt s d1 Fa So Rc) as (X1 & X2 & X3 & X4 & X5 & X6 & X7). clear IH Q.
    destruct o as [b n' net|n' sp h u|n' sp|p l u|n' sp u|n' sp|p l u| | | | | |]; cbn in T; try discriminate T; injection T as <- _; eexists; (split; [eauto|]).
    all: try reflexivity. now destruct b.
Qed.
Print Assumptions C82_participants_shown.
(** a text of labels that can be read again: of every text its length first *)
Definition ex_emit (l : list mlabel) : text := flat_map (fun x => N.of_nat (length (ml_key x)) :: ml_key x ++ N.of_nat (length (ml_value x)) :: ml_value x ++ [Z.to_N (ml_kind x)]) l.
Fixpoint ex_parse (fuel : nat) (t : text) : list mlabel :=
  match fuel, t with
  | S f, a :: t => let k := firstn (N.to_nat a) t in
      match skipn (N.to_nat a) t with
      | b :: t => let v := firstn (N.to_nat b) t in match skipn (N.to_nat b) t with z :: t => mkMl k v (Z.of_N z) :: ex_parse f t | [] => [] end
      | [] => [] end
  | _, _ => []
  end.
Definition ex_read (t : text) : res node := w_mlabels (ex_parse (length t) t).
Lemma cut_app : forall (a b : text), firstn (N.to_nat (N.of_nat (length a))) (a ++ b) = a /\ skipn (N.to_nat (N.of_nat (length a))) (a ++ b) = b.
Proof. intros a b. rewrite Nat2N.id. split; [rewrite firstn_app, Nat.sub_diag, firstn_all; apply app_nil_r|rewrite skipn_app, Nat.sub_diag, skipn_all; reflexivity]. Qed.
Lemma ex_parse_emit : forall l f, Forall (fun x => ml_kind x = 1 \/ ml_kind x = 2) l -> (length l <= f)%nat -> ex_parse f (ex_emit l) = l.
Proof.
  induction l as [|[k v z] l IH]; intros [|f] F L; try reflexivity; try (cbn in L; lia). inversion F as [|? ? K F']; subst. cbn [ml_kind] in K.
  unfold ex_emit. cbn [flat_map]. fold (ex_emit l). cbn [ml_key ml_value ml_kind]. rewrite <- app_comm_cons. cbn [ex_parse]. rewrite <- app_assoc, <- app_comm_cons, <- app_assoc.
  destruct (cut_app k (N.of_nat (length v) :: v ++ [Z.to_N z] ++ ex_emit l)) as [-> ->]. destruct (cut_app v ([Z.to_N z] ++ ex_emit l)) as [-> ->]. cbn [app]. rewrite IH; [|exact F'|cbn in L; lia].
  f_equal. f_equal. lia.
Qed.
Example C82_faithful_ex : faithful ex_read ex_emit.
Proof.
  intros l n W. unfold ex_read. rewrite ex_parse_emit; [exact W| |].
  - destruct (Forall_dec (fun x => ml_kind x = 1 \/ ml_kind x = 2)) with (l := l) as [H|H]; [|exact H|exfalso; apply C69_other_kinds_not_sent in H; congruence].
    intros x. destruct (Z.eq_dec (ml_kind x) 1); [left; auto|]. destruct (Z.eq_dec (ml_kind x) 2); [left; auto|right; lia].
  - clear W. unfold ex_emit. induction l as [|x l IH]; cbn; [lia|]. rewrite !app_length. cbn. rewrite !app_length. cbn. lia.
Qed.
Example C82_participants_shown_ex : exists k d, In (k, d) (s_ctrls (run ex (isort true) ex_ops (fst (start ex)))) /\
  service_entry ex_read (received ex_emit d) =
    Ok [(PubS, EServ 11 (lit "P1") (lit "u1") (mkSpecDto (lit "TopicA") (lit "m") [(lit "a", lit "2", "mandatory"); (lit "b", lit "1", "mandatory")]%string))].
Proof. exists KPub. eexists (mkDesc _ _ _ _ _ _ _). split; [vm_compute; do 11 right; left; reflexivity|vm_compute; reflexivity]. Qed.

(** ** Metrics *)
(** A participant's metrics are in three lists, in their order: attributes and lists of texts as they are, counters and statistics as their values are read. All have the time and the
    name of the metric, in parts that have no slash. *)
Theorem C82_metrics : forall F json_int json_floats pn l d, metrics_dto F json_int json_floats pn l = Ok d -> 
  let at_ k m := match k, x_kind m with 0%nat, MkCounter | 1%nat, MkStatistic | 2%nat, MkStringList | 2%nat, MkAttribute => true | _, _ => false end in
  let headed m h := h_ts h = x_time m /\ h_pn h = pn /\ Forall (fun t => ~ In 47%N t) (h_mn h) /\ (TextSpec.join (lit "/") (h_mn h) = x_name m \/ TextSpec.join (lit "/") (h_mn h) ++ lit "/" = x_name m) in
  Forall2 (fun m y => headed m (fst y) /\ json_int (x_value m) = Ok (snd y)) (filter (at_ 0%nat) l) (y_counters F d) /\
  Forall2 (fun m y => headed m (fst y) /\ json_floats (x_value m) = Ok (snd y)) (filter (at_ 1%nat) l) (y_statistics F d) /\
  Forall2 (fun m y => headed m (fst y) /\ snd y = x_value m) (filter (at_ 2%nat) l) (y_attributes F d).
Proof.
  intros F json_int json_floats pn l d H at_ headed. destruct (metrics_ok _ _ _ _ _ _ H) as (A & B & C & _).
  assert (S : forall m h, head_shown pn m h -> headed m h). { intros m h (H1 & H2 & H3 & H4 & _). repeat split; assumption. }
  assert (I : forall A (P Q : metric -> A -> Prop) f g l r, (forall m y, P m y -> Q m y) -> (forall m, f m = g m) -> Forall2 P (filter f l) r -> Forall2 Q (filter g l) r).
  { clear. intros A P Q f g l r H E X. rewrite (filter_ext f g E) in X. induction X; constructor; auto. }
  split; [|split].
  - refine (I _ _ _ _ _ _ _ _ _ B); [intros m y [X Y]; split; [exact (S _ _ X)|exact Y]|intros m; unfold at_, kind_in; cbn; destruct (x_kind m); reflexivity].
  - refine (I _ _ _ _ _ _ _ _ _ C); [intros m y [X Y]; split; [exact (S _ _ X)|exact Y]|intros m; unfold at_, kind_in; cbn; destruct (x_kind m); reflexivity].
  - refine (I _ _ _ _ _ _ _ _ _ A); [intros m y [X Y]; split; [exact (S _ _ X)|exact Y]|intros m; unfold at_, kind_in; cbn; destruct (x_kind m); reflexivity].
Qed.
Print Assumptions C82_metrics.
Theorem C82_metrics_possible : forall F json_int json_floats pn l, (exists d, metrics_dto F json_int json_floats pn l = Ok d) <->
  forall m, In m l -> (x_kind m = MkCounter -> exists v, json_int (x_value m) = Ok v) /\ (x_kind m = MkStatistic -> exists v, json_floats (x_value m) = Ok v) /\ x_kind m <> MkOther.
Proof.
  intros F ji jf pn l. rewrite metrics_total, Forall_forall. unfold metric_fine. split; intros H m I; specialize (H m I).
  - destruct (x_kind m); repeat split; try discriminate; auto; contradiction.
  - destruct H as (A & B & C). destruct (x_kind m); auto.
Qed.
Print Assumptions C82_metrics_possible.
(** The parts of the name of a metric are shown if none has a slash and the last is not empty. *)
Theorem C82_metric_names : forall F json_int json_floats pn t v parts, parts <> [] -> Forall (fun p => ~ In 47%N p) parts -> last parts [] <> [] ->
  metrics_dto F json_int json_floats pn [mkMetric t (MetricsModel.join_name parts) MkAttribute v] = Ok (mkMet F [(mkHead t pn parts, v)] [] []).
Proof.
  intros F ji jf pn t v parts N A L. assert (J : MetricsModel.join_name parts = TextSpec.join (lit "/") parts).
  { clear. destruct parts as [|x r]; [reflexivity|]. cbn [MetricsModel.join_name]. revert x. induction r as [|y r IH]; intros x; [apply app_nil_r|]. rewrite join_cons, <- IH. reflexivity. }
  unfold metrics_dto. cbn [foldM]. unfold metric_step. cbn [x_kind x_name x_time x_value]. rewrite J. change (lit "/") with [47%N]. rewrite split_join by assumption. reflexivity.
Qed.
Print Assumptions C82_metric_names.
(** A participant whose name has a slash is shown as two parts (PeerMetrics.cpp:42-62 puts names of participants into the names of metrics). *)
Theorem C82_metric_names_refuted : ~ (forall F json_int json_floats pn t v parts, Forall (fun p => p <> []) parts ->
  metrics_dto F json_int json_floats pn [mkMetric t (MetricsModel.join_name parts) MkAttribute v] = Ok (mkMet F [(mkHead t pn parts, v)] [] [])).
Proof.
  intros H. assert (X : Forall (fun p : text => p <> []) [lit "Peer"; lit "a/b"; lit "tx_bytes"]) by (repeat constructor; discriminate).
  specialize (H unit (fun _ => Exn) (fun _ => Exn) [] 0 [] _ X). vm_compute in H. discriminate.
Qed.
Print Assumptions C82_metric_names_refuted.
Example C82_metrics_ex : metrics_dto unit (fun t => if text_eqb t (lit "3") then Ok 3 else Exn) (fun _ => Ok tt) (lit "P")
    [mkMetric 1 (lit "a/b") MkCounter (lit "3"); mkMetric 2 (lit "c") MkStringList (lit "[]"); mkMetric 3 (lit "d/") MkStatistic []] =
  Ok (mkMet unit [(mkHead 2 (lit "P") [lit "c"], lit "[]")] [(mkHead 1 (lit "P") [lit "a"; lit "b"], 3)] [(mkHead 3 (lit "P") [lit "d"], tt)]).
Proof. vm_compute. reflexivity. Qed.

(** ** The worker *)
(** All updates up to the first that cannot be shown are sent, in their order; no other is. *)
Theorem C82_worker : forall yaml F json_int json_floats l sent ok, worker yaml F json_int json_floats l = (sent, ok) ->
  exists pre post, l = pre ++ post /\
    Forall2 (fun u q => match u, q with
                        | DueBulk i b, SendBulk _ j z => i = j /\ bulk_dto yaml b = Ok z
                        | DueMetrics i pn ms, SendMetrics _ j d => i = j /\ metrics_dto F json_int json_floats pn ms = Ok d
                        | _, _ => False end) pre sent /\
    (if ok : bool then post = [] else exists u r, post = u :: r /\
       match u with DueBulk _ b => ~ exists z, bulk_dto yaml b = Ok z | DueMetrics _ pn ms => ~ exists d, metrics_dto F json_int json_floats pn ms = Ok d end).
Proof.
  intros yaml F ji jf l sent ok H. destruct (worker_ok _ _ _ _ _ _ _ H) as (pre & post & E & A & B). exists pre, post. split; [exact E|]. split.
  - clear -A. induction A as [|u q l m P A IH]; constructor; [|exact IH]. destruct u; cbn in P; apply bind_ok in P; destruct P as (d & D & P); injection P as <-; auto.
  - destruct ok; [exact B|]. destruct B as (u & r & -> & N). exists u, r. split; [reflexivity|]. destruct u; cbn in N; intros (z & Z); rewrite Z in N; cbn in N; now apply (N _ eq_refl).
Qed.
Print Assumptions C82_worker.
(** One service of a type the mapper does not know ends what the dashboard is told about every simulation. *)
Theorem C82_all_sent_refuted : ~ (forall yaml F json_int json_floats l u q, In u l -> to_request yaml F json_int json_floats u = Ok q -> In q (fst (worker yaml F json_int json_floats l))).
Proof.
  intros H. specialize (H ex_yaml unit (fun _ => Exn) (fun _ => Exn) [DueBulk 1 (mkBulk None [] [lit "P"] [] [(true, ex_bad)]); DueBulk 2 ex_bulk] (DueBulk 2 ex_bulk)).
  eapply H; [right; left; reflexivity|vm_compute; reflexivity].
Qed.
Print Assumptions C82_all_sent_refuted.
(** A simulated controller of a network simulator is shown by nothing. *)
Theorem C82_simulated_refuted : ~ (forall yaml d l, v_type d = SvSimulated -> service_entry yaml d = Ok l -> l <> []).
Proof. intros H. now apply (H ex_yaml (mkSd [] SvSimulated NtCan (lit "n") (lit "s") 1 []) []). Qed.
Print Assumptions C82_simulated_refuted.
