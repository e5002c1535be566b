From Coq Require Import NArith ZArith List Arith Bool Lia.
From Verif Require Import Base FlexrayModel.
Import ListNotations.
Open Scope N_scope.

(** * C44: FlexRay parameters *)
Definition within (lo x hi : N) : Prop := lo <= x /\ x <= hi.
Definition zwithin (lo x hi : Z) : Prop := (lo <= x /\ x <= hi)%Z.
(** The ranges documented in include/silkit/services/flexray/FlexrayDatatypes.hpp:46-125, in the order of the comments there *)
Definition documented_cluster (c : cluster) : Prop :=
  within 2 (gColdstartAttempts c) 31 /\ (within 7 (gCycleCountMax c) 63 /\ exists k, gCycleCountMax c = 2 * k + 1) /\ within 1 (gdActionPointOffset c) 63 /\
  within 0 (gdDynamicSlotIdlePhase c) 2 /\ within 2 (gdMiniSlot c) 63 /\ within 1 (gdMiniSlotActionPointOffset c) 31 /\ within 3 (gdStaticSlot c) 664 /\
  within 0 (gdSymbolWindow c) 162 /\ within 1 (gdSymbolWindowActionPointOffset c) 63 /\ within 1 (gdTSSTransmitter c) 15 /\ within 15 (gdWakeupTxActive c) 60 /\
  within 45 (gdWakeupTxIdle c) 180 /\ within 2 (gListenNoise c) 16 /\ within 8 (gMacroPerCycle c) 16000 /\ within 1 (gMaxWithoutClockCorrectionFatal c) 15 /\
  within 1 (gMaxWithoutClockCorrectionPassive c) 15 /\ within 0 (gNumberOfMiniSlots c) 7988 /\ within 2 (gNumberOfStaticSlots c) 1023 /\
  within 0 (gPayloadLengthStatic c) 127 /\ within 2 (gSyncFrameIDCountMax c) 15.
(** FlexrayDatatypes.hpp:132-241, without the four parameters of [documented_rest] *)
Definition documented_node (n : node) : Prop :=
  within 0 (pAllowHaltDueToClock n) 1 /\ within 0 (pAllowPassiveToActive n) 31 /\ within 0 (pClusterDriftDamping n) 10 /\
  zwithin 29 (pdAcceptedStartupRange n) 2743 /\ zwithin 1926 (pdListenTimeout n) 2567692 /\ within 0 (pKeySlotId n) 1023 /\
  within 0 (pKeySlotOnlyEnabled n) 1 /\ within 0 (pKeySlotUsedForStartup n) 1 /\ within 0 (pKeySlotUsedForSync n) 1 /\ within 0 (pLatestTx n) 7988 /\
  within 2 (pMacroInitialOffsetA n) 68 /\ within 2 (pMacroInitialOffsetB n) 68 /\ zwithin 0 (pMicroInitialOffsetA n) 239 /\ zwithin 0 (pMicroInitialOffsetB n) 239 /\
  zwithin 960 (pMicroPerCycle n) 1280000 /\ zwithin 15 (pOffsetCorrectionOut n) 16082 /\ within 7 (pOffsetCorrectionStart n) 15999 /\ zwithin 3 (pRateCorrectionOut n) 3846 /\
  (pWakeupChannel n = ChA \/ pWakeupChannel n = ChB) /\ within 0 (pWakeupPattern n) 63 /\ within 1 (pSamplesPerMicrotick n) 2.
Definition documented_rest (n : node) : Prop :=
  (pChannels n = ChA \/ pChannels n = ChB \/ pChannels n = ChAB) /\ (pdMicrotick n = T12_5NS \/ pdMicrotick n = T25NS \/ pdMicrotick n = T50NS) /\
  within 0 (pSecondKeySlotId n) 1023 /\ within 0 (pTwoKeySlotMode n) 1.

Definition ex_cluster : cluster := mkCluster 8 63 2 1 5 2 31 1 1 9 15 59 2 5000 2 2 325 70 15 15.
Definition ex_node : node := mkNode 1 15 ChAB 2 212 400162 10 0 1 1 249 3 3 6 6 200000 127 3632 81 ChA 33 T25NS 2 0 0.

Lemma throw_if_ok : forall A b (r : res A) x, throw_if b r = Ok x <-> b = false /\ r = Ok x.
Proof. intros A [] r x; cbn; split; [discriminate|intros [E _]; discriminate|auto|intros [_ E]; exact E]. Qed.
Lemma mod2_odd : forall n, (n mod 2 =? 1) = true <-> exists k, n = 2 * k + 1.
Proof.
  intros n. rewrite N.eqb_eq. split.
  - intros H. exists (n / 2). pose proof (N.div_mod n 2). lia.
  - intros [k ->]. rewrite N.add_comm, N.mul_comm, N.mod_add by discriminate. reflexivity.
Qed.

Theorem C44_cluster_accepted_iff_documented : forall c, validate_cluster c = Ok tt <-> documented_cluster c.
Proof.
  intros c. unfold validate_cluster, documented_cluster. rewrite !throw_if_ok, negb_false_iff, mod2_odd. unfold within. rewrite !orb_false_iff, !N.ltb_ge.
  split; intros H; decompose [and] H; repeat split; try assumption; try lia.
Qed.
Print Assumptions C44_cluster_accepted_iff_documented.
Theorem C44_node_accepted_iff : forall n, validate_node n = Ok tt <-> documented_node n.
Proof.
  intros n. unfold validate_node, documented_node. rewrite !throw_if_ok. unfold within, zwithin. rewrite !orb_false_iff, andb_false_iff, !negb_false_iff, !N.eqb_eq, !N.ltb_ge, !Z.ltb_ge.
  split; intros H; decompose [and] H; repeat split; try assumption; try lia.
Qed.
Print Assumptions C44_node_accepted_iff.
Example ex_documented : documented_cluster ex_cluster /\ documented_node ex_node /\ documented_rest ex_node.
Proof. split; [|split]; [apply C44_cluster_accepted_iff_documented|apply C44_node_accepted_iff|]; try (vm_compute; reflexivity). unfold documented_rest, within. repeat split; try discriminate; vm_compute; auto. Qed.
Example ex_undocumented : validate_cluster (mkCluster 8 62 2 1 5 2 31 1 1 9 15 59 2 5000 2 2 325 70 15 15) = Exn /\ validate_node (mkNode 1 15 ChAB 2 28 400162 10 0 1 1 249 3 3 6 6 200000 127 3632 81 ChA 33 T25NS 2 0 0) = Exn.
Proof. split; vm_compute; reflexivity. Qed.
(** validation never has another outcome than accepting and the exception *)
Theorem C44_validation_is_total : forall c n, (validate_cluster c = Ok tt \/ validate_cluster c = Exn) /\ (validate_node n = Ok tt \/ validate_node n = Exn).
Proof.
  assert (K : forall b (r : res unit), (r = Ok tt \/ r = Exn) -> throw_if b r = Ok tt \/ throw_if b r = Exn) by (intros [] r H; cbn; auto).
  intros c n. split; [unfold validate_cluster|unfold validate_node]; repeat (apply K); now left.
Qed.
Print Assumptions C44_validation_is_total.

(** ** C44, refuted part: "accepted iff every parameter lies in its documented range" fails for four node parameters that are not
    checked at all *)
Theorem C44_every_parameter_is_validated_refuted :
  (exists n, validate_node n = Ok tt /\ pChannels n = ChNone) /\ (exists n, validate_node n = Ok tt /\ pdMicrotick n = 17) /\
  (exists n, validate_node n = Ok tt /\ ~ within 0 (pSecondKeySlotId n) 1023) /\ (exists n, validate_node n = Ok tt /\ ~ within 0 (pTwoKeySlotMode n) 1).
Proof.
  split; [|split; [|split]].
  - exists (mkNode 1 15 ChNone 2 212 400162 10 0 1 1 249 3 3 6 6 200000 127 3632 81 ChA 33 T25NS 2 0 0). split; reflexivity.
  - exists (mkNode 1 15 ChA 2 212 400162 10 0 1 1 249 3 3 6 6 200000 127 3632 81 ChA 33 17 2 0 0). split; reflexivity.
  - exists (mkNode 1 15 ChA 2 212 400162 10 0 1 1 249 3 3 6 6 200000 127 3632 81 ChA 33 T25NS 2 2000 0). split; [reflexivity|]. unfold within. cbn. lia.
  - exists (mkNode 1 15 ChA 2 212 400162 10 0 1 1 249 3 3 6 6 200000 127 3632 81 ChA 33 T25NS 2 0 2). split; [reflexivity|]. unfold within. cbn. lia.
Qed.
Print Assumptions C44_every_parameter_is_validated_refuted.

(** ** The controller *)
Lemma frun_snoc : forall ops c o, frun c (ops ++ [o]) = (let '(c1, es) := frun c ops in let '(c2, e) := fstep c1 o in (c2, es ++ [e])).
Proof.
  induction ops as [|a ops IH]; intros c o; cbn [app frun].
  - now destruct (fstep c o).
  - destruct (fstep c a) as [c1 e]. rewrite IH. destruct (frun c1 ops) as [c2 es]. now destruct (fstep c2 o).
Qed.
(** whatever configuration reaches the simulator, its parameters are in their ranges, and predefined parameters are never overridden *)
Theorem C44_sent_configurations : forall d net id ops to cfg, In (ESend to (PConfig cfg)) (concat (snd (frun (fctl0 d net id) ops))) ->
  documented_cluster (c_cluster cfg) /\ documented_node (c_node cfg) /\
  (forall x, d_cluster d = Some x -> c_cluster cfg = x) /\ (forall x, d_node d = Some x -> c_node cfg = x) /\ (d_bufs d <> [] -> c_bufs cfg = d_bufs d).
Proof.
  intros d net id ops to cfg. assert (P : forall ops, f_predef (fst (frun (fctl0 d net id) ops)) = d).
  { clear. induction ops as [|o ops IH] using rev_ind; [reflexivity|]. rewrite frun_snoc. destruct (frun (fctl0 d net id) ops) as [c es]. cbn [fst] in IH. destruct (fstep c o) as [c2 e] eqn:E. cbn [fst].
    destruct o; cbn [fstep] in E; repeat match type of E with context [match ?x with _ => _ end] => destruct x end; injection E as <- <-; cbn [f_predef]; exact IH. }
  induction ops as [|o ops IH] using rev_ind; [intros []|]. rewrite frun_snoc. specialize (P ops). destruct (frun (fctl0 d net id) ops) as [c es]. cbn [fst snd] in *. destruct (fstep c o) as [c2 e] eqn:E. cbn [snd]. rewrite concat_app. intros I. apply in_app_or in I as [I|I]; [now apply IH|]. cbn [concat] in I. rewrite app_nil_r in I. clear IH.
  destruct o; cbn [fstep] in E.
  - destruct (f_sim c), created, (relevant c d0); cbn in E; injection E as <- <-; cbn in I; intuition discriminate.
  - destruct (validate_cluster _) as [[]| |] eqn:VC; try (injection E as <- <-; cbn in I; intuition discriminate). destruct (validate_node _) as [[]| |] eqn:VN; injection E as <- <-; cbn in I; destruct I as [I|[]]; try discriminate.
    injection I as _ <-. split; [now apply C44_cluster_accepted_iff_documented|]. split; [now apply C44_node_accepted_iff|]. rewrite P. unfold effective. cbn. repeat split.
    + intros x ->. reflexivity.
    + intros x ->. reflexivity.
    + destruct (d_bufs d); [congruence|reflexivity].
  - destruct (_ <=? _); [injection E as <- <-; cbn in I; intuition discriminate|]. destruct (nonempty _); injection E as <- <-; cbn in I; intuition discriminate.
  - destruct (_ <=? _); injection E as <- <-; cbn in I; intuition discriminate.
  - injection E as <- <-. cbn in I. intuition discriminate.
  - destruct (allow _ _ _); [destruct symbol, wakeup|]; injection E as <- <-; cbn in I; intuition discriminate.
Qed.
Print Assumptions C44_sent_configurations.
Definition ex_cfg : fconfig := mkFconfig ex_cluster ex_node [mkTxbuf ChA 5 0 1 false 77 0].
Definition ex_ops : list fop := [FDiscover true (mkFsvc 9 3 true); FConfigure ex_cfg; FUpdate 0 true [1;2]; FUpdate 1 true []; FReceive 9 4 true true 55; FReceive 8 4 true true 56; FDiscover false (mkFsvc 9 3 true); FDiscover true (mkFsvc 10 3 true); FCommand 1].
Example ex_frun : snd (frun (fctl0 (mkPredef None None []) 3 4) ex_ops) =
  [[]; [ESend (Some 9) (PConfig ex_cfg)]; [ESend (Some 9) (PBufUpdate 0 true [1;2])]; [EThrow]; [ECall false true 55; ECall true true 55]; []; [ELost 9]; []; [ESend (Some 9) (PCommand 1)]].
Proof. vm_compute. reflexivity. Qed.

(** ** C58: the controller and its simulator *)
(** The first simulator of the controller's network found by a prefix of the operations *)
Definition first_sim (net : N) (ops : list fop) : option N :=
  match find (fun o => match o with FDiscover true d => s_link d && (s_network d =? net) | _ => false end) ops with
  | Some (FDiscover _ d) => Some (s_participant d)
  | _ => None
  end.
(** The length of the last accepted buffer list *)
Fixpoint buffers (d : predef) (ops : list fop) (l : list txbuf) : list txbuf :=
  match ops with
  | [] => l
  | FConfigure c :: ops => buffers d ops (match validate_cluster (c_cluster (effective d c)), validate_node (c_node (effective d c)) with Ok _, Ok _ => c_bufs (effective d c) | _, _ => l end)
  | _ :: ops => buffers d ops l
  end.
Lemma buffers_snoc : forall d ops o l, buffers d (ops ++ [o]) l = buffers d [o] (buffers d ops l).
Proof. intros d. induction ops as [|a ops IH]; intros o l; [reflexivity|]. destruct a; cbn [app buffers]; apply IH. Qed.
Lemma find_app : forall A f (l m : list A), find f (l ++ m) = match find f l with Some x => Some x | None => find f m end.
Proof. induction l as [|x l IH]; intros m; [reflexivity|]. cbn. destruct (f x); [reflexivity|apply IH]. Qed.
Lemma first_sim_snoc : forall net ops o, first_sim net (ops ++ [o]) = match first_sim net ops with Some s => Some s | None => first_sim net [o] end.
Proof.
  intros. unfold first_sim. rewrite find_app. destruct (find _ ops) as [x|] eqn:E; [|reflexivity]. apply find_some in E as [_ E]. destruct x as [[] ?| | | | | ]; try discriminate. reflexivity.
Qed.
Lemma first_sim_one : forall net o, first_sim net [o] = match o with FDiscover true d => if s_link d && (s_network d =? net) then Some (s_participant d) else None | _ => None end.
Proof. intros net [[] d| | | | | ]; try reflexivity. unfold first_sim. cbn [find]. destruct (s_link d && (s_network d =? net)); reflexivity. Qed.
Lemma fstate : forall d net id ops, fst (frun (fctl0 d net id) ops) = mkFctl d net id (buffers d ops []) (first_sim net ops).
Proof.
  intros d net id. induction ops as [|o ops IH] using rev_ind; [reflexivity|]. rewrite frun_snoc, buffers_snoc, first_sim_snoc, first_sim_one. destruct (frun (fctl0 d net id) ops) as [c es]. cbn [fst] in IH. subst c.
  destruct o; cbn [fstep buffers f_sim f_predef f_network f_id f_bufs].
  - unfold relevant. cbn [f_network]. destruct (first_sim net ops); [destruct (negb created && _); reflexivity|]. destruct created; cbn [andb]; [|reflexivity]. destruct (s_link d0 && (s_network d0 =? net)); reflexivity.
  - destruct (validate_cluster _); [destruct (validate_node _)| |]; cbn [fst f_bufs]; destruct (first_sim net ops); reflexivity.
  - destruct (_ <=? _); [destruct (first_sim net ops); reflexivity|]. destruct (nonempty _); destruct (first_sim net ops); reflexivity.
  - destruct (_ <=? _); destruct (first_sim net ops); reflexivity.
  - destruct (first_sim net ops); reflexivity.
  - destruct (allow _ _ _); destruct (first_sim net ops); reflexivity.
Qed.

(** Every message goes to the first simulator found (to nobody if there was none yet), and buffer messages refer to buffers of the last
    accepted configuration. *)
Theorem C58_sends_to_the_simulator : forall d net id ops o to p, In (ESend to p) (snd (fstep (fst (frun (fctl0 d net id) ops)) o)) ->
  to = first_sim net ops /\ match p with
  | PBufConfig i _ | PBufUpdate i _ _ => i < N.of_nat (length (buffers d ops []))
  | _ => True
  end.
Proof.
  intros d net id ops o to p I. rewrite fstate in I. destruct o; cbn [fstep f_sim f_predef f_bufs] in I.
  - destruct (first_sim net ops), created, (relevant _ d0); cbn in I; intuition discriminate.
  - destruct (validate_cluster _); [destruct (validate_node _)| |]; cbn in I; destruct I as [I|[]]; try discriminate. injection I as <- <-. auto.
  - destruct (N.leb_spec (N.of_nat (length (buffers d ops []))) idx); [cbn in I; intuition discriminate|]. destruct (nonempty _); cbn in I; [destruct I|]. destruct I as [I|[]]. injection I as <- <-. auto.
  - destruct (N.leb_spec (N.of_nat (length (buffers d ops []))) idx); cbn in I; destruct I as [I|[]]; try discriminate. injection I as <- <-. auto.
  - cbn in I. destruct I as [I|[]]. injection I as <- <-. auto.
  - destruct (allow _ _ _); [destruct symbol, wakeup|]; cbn in I; intuition discriminate.
Qed.
Print Assumptions C58_sends_to_the_simulator.
(** Handlers are called exactly for messages of that simulator addressed to this controller; a wakeup symbol is delivered as wakeup
    event and then as symbol event *)
Theorem C58_receives_from_the_simulator : forall d net id ops o,
  filter (fun e => match e with ECall _ _ _ => true | _ => false end) (snd (fstep (fst (frun (fctl0 d net id) ops)) o)) =
  match o with
  | FReceive p i sy wk m =>
      match first_sim net ops with
      | Some s => if (s =? p) && (id =? i) then (if sy && wk then [ECall false true m; ECall sy wk m] else [ECall sy wk m]) else []
      | None => []
      end
  | _ => []
  end.
Proof.
  intros d net id ops o. rewrite fstate. destruct o; cbn [fstep f_sim f_predef f_bufs].
  - destruct (first_sim net ops), created, (relevant _ d0); reflexivity.
  - destruct (validate_cluster _); [destruct (validate_node _)| |]; reflexivity.
  - destruct (_ <=? _); [reflexivity|]. destruct (nonempty _); reflexivity.
  - destruct (_ <=? _); reflexivity.
  - reflexivity.
  - unfold allow. cbn [f_sim f_id]. destruct (first_sim net ops); [|reflexivity]. destruct ((n =? participant) && (id =? id0)); [|reflexivity]. destruct symbol, wakeup; reflexivity.
Qed.
Print Assumptions C58_receives_from_the_simulator.
(** A buffer index is refused with an exception exactly if it is not configured *)
Theorem C58_refused_buffers : forall d net id ops idx v bytes, snd (fstep (fst (frun (fctl0 d net id) ops)) (FUpdate idx v bytes)) = [EThrow] <-> N.of_nat (length (buffers d ops [])) <= idx.
Proof.
  intros. rewrite fstate. cbn [fstep f_bufs]. destruct (N.leb_spec (N.of_nat (length (buffers d ops []))) idx); cbn; split; intros; try reflexivity; try discriminate; lia.
Qed.
Print Assumptions C58_refused_buffers.
(** Refuted: the simulator in use is one that has not left. After the first simulator left, a second one on the same network is ignored
    and the messages still go to the first; and messages sent before a simulator was found are addressed to nobody. *)
Theorem C58_uses_a_running_simulator_refuted :
  (exists ops p, In (FDiscover false (mkFsvc 9 3 true)) ops /\ In (FDiscover true (mkFsvc 10 3 true)) ops /\ In (ESend (Some 9) p) (snd (fstep (fst (frun (fctl0 (mkPredef None None []) 3 4) ops)) (FCommand 1)))) /\ (exists cfg, snd (fstep (fctl0 (mkPredef None None []) 3 4) (FConfigure cfg)) = [ESend None (PConfig cfg)]).
Proof.
  split.
  - exists [FDiscover true (mkFsvc 9 3 true); FDiscover false (mkFsvc 9 3 true); FDiscover true (mkFsvc 10 3 true)], (PCommand 1). cbn. auto 10.
  - exists ex_cfg. reflexivity.
Qed.
Print Assumptions C58_uses_a_running_simulator_refuted.
Example ex_first_sim : first_sim 3 ex_ops = Some 9 /\ length (buffers (mkPredef None None []) ex_ops []) = 1%nat. Proof. split; vm_compute; reflexivity. Qed.
