From Coq Require Import String Ascii NArith ZArith List Bool Lia.
From Verif Require Import Base TextModel YamlModel YamlProofs YamlCheckModel YamlCheckProofs.
Import ListNotations.
Open Scope string_scope.
Open Scope list_scope.

(** * A document without the elements that the schema does not know *)
Fixpoint prune (p : string) (n : node) : node :=
  match n with
  | NMap l => NMap (flat_map (fun c => if is_schema_path (make_path p (fst c)) then [(fst c, prune (make_path p (fst c)) (snd c))] else []) l)
  | NSeq l => NSeq (map (prune p) l)
  | _ => n
  end.

Lemma lookup_prune : forall p k l, is_schema_path (make_path p k) = true ->
  lookup k (flat_map (fun c => if is_schema_path (make_path p (fst c)) then [(fst c, prune (make_path p (fst c)) (snd c))] else []) l)
  = option_map (prune (make_path p k)) (lookup k l).
Proof.
  intros p k l H. induction l as [|[k' m] l IH]; [reflexivity|]. cbn [flat_map fst snd lookup]. rewrite lookup_app, IH.
  destruct (String.eqb k k') eqn:E.
  - apply String.eqb_eq in E. subst k'. rewrite H. cbn. now rewrite String.eqb_refl.
  - destruct (is_schema_path (make_path p k')); cbn; rewrite ?E; reflexivity.
Qed.

(** [rd] reads at path [p] the same with and without them *)
Definition same {A} (p : string) (rd : node -> A -> res A) : Prop := forall n cur, rd (prune p n) cur = rd n cur.
Definition knows (p : string) (ks : list string) : bool := forallb (fun k => is_schema_path (make_path p k)) ks.
Lemma knows_in : forall p ks k, knows p ks = true -> In k ks -> is_schema_path (make_path p k) = true.
Proof. intros p ks k H I. unfold knows in H. rewrite forallb_forall in H. now apply H. Qed.
Lemma bind_cong : forall A B (e e' : res A) (f g : A -> res B), e = e' -> (forall a, f a = g a) -> bind e f = bind e' g.
Proof. intros A B e e' f g -> H. destruct e'; cbn; auto. Qed.
Lemma child_p : forall p n k, is_schema_path (make_path p k) = true -> child (prune p n) k = match child n k with Ok o => Ok (option_map (prune (make_path p k)) o) | Exn => Exn | UB => UB end.
Proof. intros p [|q s|l|l] k H; cbn [prune child]; try reflexivity. now rewrite lookup_prune. Qed.
Lemma has_key_p : forall p n k, is_schema_path (make_path p k) = true -> has_key (prune p n) k = has_key n k.
Proof. intros p [|q s|l|l] k H; cbn [prune has_key]; try reflexivity. rewrite lookup_prune by exact H. now destruct (lookup k l). Qed.
Lemma opt_read_p : forall A (rd : node -> A -> res A) p n k cur, is_schema_path (make_path p k) = true -> same (make_path p k) rd -> opt_read rd (prune p n) k cur = opt_read rd n k cur.
Proof. intros A rd p n k cur H S. unfold opt_read. rewrite child_p by exact H. destruct (child n k) as [[m|]| |]; cbn; auto. Qed.
Lemma opt_some_p : forall A (rd : node -> A -> res A) d p n k cur, is_schema_path (make_path p k) = true -> same (make_path p k) rd -> opt_some rd d (prune p n) k cur = opt_some rd d n k cur.
Proof. intros A rd d p n k cur H S. unfold opt_some. rewrite child_p by exact H. destruct (child n k) as [[m|]| |]; cbn; auto. now rewrite S. Qed.
Lemma key_read_p : forall A (rd : node -> A -> res A) p n k cur, is_schema_path (make_path p k) = true -> same (make_path p k) rd -> key_read rd (prune p n) k cur = key_read rd n k cur.
Proof. intros A rd p n k cur H S. unfold key_read. rewrite child_p by exact H. destruct (child n k) as [[m|]| |]; cbn; auto. Qed.
Lemma read_checked_p : forall p t n, read_checked t (prune p n) = read_checked t n.
Proof. now intros p t []. Qed.
Lemma opt_int_p : forall t p n k cur, is_schema_path (make_path p k) = true -> opt_int t (prune p n) k cur = opt_int t n k cur.
Proof.
  intros t p n k cur H. destruct n as [|q s|l|l]; cbn [prune opt_int]; try reflexivity. rewrite lookup_prune by exact H. destruct (lookup k l); cbn; [apply read_checked_p|reflexivity].
Qed.
Lemma same_vec : forall A (rd : node -> A -> res A) d p, same p rd -> same p (r_vec rd d).
Proof.
  intros A rd d p S [|q s|l|l] cur; cbn [prune r_vec]; try reflexivity. apply bind_cong; [|reflexivity].
  induction l as [|m l IH]; [reflexivity|]. cbn [map mapM]. rewrite S. apply bind_cong; [reflexivity|]. intros a. now rewrite IH.
Qed.
Lemma opt_deprecated_p : forall A (read1 : node -> string -> A -> res A) p n k old cur,
  (forall o, In o (k :: old) -> is_schema_path (make_path p o) = true) -> (forall o c, In o (k :: old) -> read1 (prune p n) o c = read1 n o c) ->
  opt_deprecated read1 (prune p n) k old cur = opt_deprecated read1 n k old cur.
Proof.
  intros A read1 p n k old cur H R. pose proof (has_key_p p n k (H k (or_introl eq_refl))) as HK. destruct n as [|q s|l|l]; try reflexivity.
  change (prune p (NMap l)) with (NMap (flat_map (fun c => if is_schema_path (make_path p (fst c)) then [(fst c, prune (make_path p (fst c)) (snd c))] else []) l)) in *.
  unfold opt_deprecated. rewrite HK.
  remember (flat_map (fun c => if is_schema_path (make_path p (fst c)) then [(fst c, prune (make_path p (fst c)) (snd c))] else []) l) as l'.
  replace (filter (fun o => match lookup o l' with Some _ => true | None => false end) old) with (filter (fun o => match lookup o l with Some _ => true | None => false end) old).
  - destruct (has_key (NMap l) k && _)%bool; [reflexivity|]. destruct (2 <=? _)%nat; [reflexivity|]. apply bind_cong; [apply R; now left|]. intros v.
    assert (R' : forall o c, In o old -> read1 (NMap l') o c = read1 (NMap l) o c) by (intros; apply R; now right). clear - R'. generalize (Ok v).
    induction old as [|o old IH]; intros r; [reflexivity|]. cbn [fold_left]. rewrite IH by (intros; apply R'; now right). f_equal. apply bind_cong; [reflexivity|]. intros a. apply R'. now left.
  - apply filter_ext_in. intros o I. subst l'. rewrite lookup_prune by (apply H; now right). now destruct (lookup o l).
Qed.
(** scalars and enumerations *)
Lemma is_str_p : forall p n s, is_str (prune p n) s = is_str n s. Proof. intros p n s. now destruct n. Qed.
Ltac scal := let n := fresh in let c := fresh in intros n c; destruct n; reflexivity.
Lemma s_text : forall p, same p r_text. Proof. intros p; scal. Qed.
Lemma s_bool : forall p, same p r_bool. Proof. intros p; scal. Qed.
Lemma s_dbl : forall D p, same p (r_dbl D). Proof. intros D p; scal. Qed.
Lemma s_int : forall t p, same p (r_int t). Proof. intros t p; scal. Qed.
Lemma s_ms : forall p, same p r_ms. Proof. intros p; scal. Qed.
Lemma s_texts : forall p, same p r_texts. Proof. intros p. apply same_vec, s_text. Qed.
Lemma s_level : forall p, same p r_level. Proof. intros p n c. unfold r_level. now rewrite !is_str_p. Qed.
Lemma s_channel : forall p, same p r_channel. Proof. intros p n c. unfold r_channel. now rewrite !is_str_p. Qed.
Lemma s_clock : forall p, same p r_clock. Proof. intros p n c. unfold r_clock. now rewrite !is_str_p. Qed.
Lemma s_txmode : forall p, same p r_txmode. Proof. intros p n c. unfold r_txmode. now rewrite !is_str_p. Qed.
Lemma s_stype : forall p, same p r_stype. Proof. intros p n c. unfold r_stype. now rewrite !is_str_p. Qed.
Lemma s_sformat : forall p, same p r_sformat. Proof. intros p n c. unfold r_sformat. now rewrite !is_str_p. Qed.
Lemma s_mtype : forall p, same p r_mtype. Proof. intros p n c. unfold r_mtype. now rewrite !is_str_p. Qed.
Lemma s_dir : forall p, same p r_dir. Proof. intros p n c. unfold r_dir. now rewrite !is_str_p. Qed.
Lemma s_lkind : forall p, same p r_lkind. Proof. intros p n c. unfold r_lkind. now rewrite !is_str_p. Qed.
Lemma s_tktype : forall p, same p r_tktype. Proof. intros p n c. unfold r_tktype. now rewrite !is_str_p. Qed.
Lemma s_tctype : forall p, same p r_tctype. Proof. intros p n c. unfold r_tctype. now rewrite !is_str_p. Qed.
Lemma s_aggr : forall p, same p r_aggr. Proof. intros p n c. unfold r_aggr. now rewrite !is_str_p. Qed.
Lemma s_topic : forall p, same p r_topic. Proof. intros p; scal. Qed.
Create HintDb same.
Global Hint Resolve s_text s_bool s_dbl s_int s_ms s_texts s_level s_channel s_clock s_txmode s_stype s_sformat s_mtype s_dir s_lkind s_tktype s_tctype s_aggr s_topic same_vec : same.
Ltac known := match goal with H : knows ?p _ = true |- is_schema_path (make_path ?p _) = true => apply (knows_in _ _ _ H); cbn; tauto end.
Ltac known_all := intros ? Hin; cbn in Hin; repeat (destruct Hin as [<-|Hin]; [known|]); destruct Hin.
Ltac st := apply bind_cong; [first [apply opt_read_p; [known|auto with same] | apply opt_some_p; [known|auto with same] | apply key_read_p; [known|auto with same] | apply opt_int_p; known | reflexivity]|intro].
Ltac sts := repeat st; try reflexivity.
Definition mdf_at p := knows p ["ChannelName"; "ChannelPath"; "ChannelSource"; "GroupName"; "GroupPath"; "GroupSource"].
Lemma s_mdf : forall p, mdf_at p = true -> same p r_mdf.
Proof. intros p K n c. unfold mdf_at in K. unfold r_mdf. replace (is_map (prune p n)) with (is_map n) by (now destruct n). destruct (is_map n); [sts|reflexivity]. Qed.
Global Hint Resolve s_mdf : same.
Definition replay_at p := knows p ["UseTraceSource"; "Direction"; "MdfChannel"] && mdf_at (make_path p "MdfChannel").
Lemma s_replay : forall p, replay_at p = true -> same p r_replay.
Proof. intros p K n c. apply andb_true_iff in K as [K M]. unfold r_replay. sts. Qed.
Global Hint Resolve s_replay : same.
Definition ctrl_at p := knows p ["Name"; "Network"; "UseTraceSinks"; "Replay"] && replay_at (make_path p "Replay").
Lemma s_ctrl : forall p, ctrl_at p = true -> same p r_ctrl.
Proof. intros p K n c. apply andb_true_iff in K as [K M]. unfold r_ctrl. sts. Qed.
Global Hint Resolve s_ctrl : same.
Lemma s_member : forall p t n, r_member t (prune p n) = r_member t n.
Proof. intros p [] n; cbn [r_member]; [rewrite s_int|rewrite s_bool|rewrite s_channel|rewrite s_clock|rewrite s_txmode]; reflexivity. Qed.
Lemma members_p : forall ms p n, knows p (map fst ms) = true -> r_members ms (prune p n) = r_members ms n.
Proof.
  unfold r_members. induction ms as [|[k t] ms IH]; intros p n K; [reflexivity|]. cbn [map mapM fst snd] in *.
  unfold knows in K. cbn [forallb] in K. apply andb_true_iff in K as [K1 K2]. apply bind_cong.
  - rewrite child_p by exact K1. destruct (child n k) as [[m|]| |]; cbn; try reflexivity. apply s_member.
  - intros a. rewrite IH by exact K2. reflexivity.
Qed.
Definition cluster_at p := knows p (map fst cluster_members).
Definition node_at p := knows p (map fst node_members) && knows p ["pSecondKeySlotId"; "pTwoKeySlotMode"].
Definition buffer_at p := knows p (map fst buffer_members).
Lemma s_cluster : forall p, cluster_at p = true -> same p r_cluster. Proof. intros p K n c. now apply members_p. Qed.
Lemma s_buffer : forall p, buffer_at p = true -> same p r_buffer. Proof. intros p K n c. now apply members_p. Qed.
Lemma s_nparams : forall p, node_at p = true -> same p r_nparams.
Proof. intros p K n c. apply andb_true_iff in K as [K M]. unfold r_nparams. apply bind_cong; [now apply members_p|]. intros a. clear K. sts. Qed.
Global Hint Resolve s_cluster s_buffer s_nparams : same.
Definition flexray_at p := ctrl_at p && knows p ["ClusterParameters"; "NodeParameters"; "TxBufferConfigurations"] && cluster_at (make_path p "ClusterParameters")
  && node_at (make_path p "NodeParameters") && buffer_at (make_path p "TxBufferConfigurations").
Lemma s_flexray : forall p, flexray_at p = true -> same p r_flexray.
Proof.
  intros p K n c. unfold flexray_at in K. repeat match type of K with (_ && _)%bool = true => let H := fresh in apply andb_true_iff in K as [K H] end. unfold r_flexray. apply bind_cong; [now apply s_ctrl|]. intros a. sts.
Qed.
Global Hint Resolve s_flexray : same.
Definition label_at p := knows p ["Key"; "Value"; "Kind"].
Lemma s_label : forall p, label_at p = true -> same p r_label. Proof. intros p K n c. unfold label_at in K. unfold r_label. sts. Qed.
Global Hint Resolve s_label : same.
Definition pubsub_at (h : bool) p := knows p (if h then ["Name"; "Topic"; "Labels"; "UseTraceSinks"; "Replay"; "History"] else ["Name"; "Topic"; "Labels"; "UseTraceSinks"; "Replay"])
  && label_at (make_path p "Labels") && replay_at (make_path p "Replay").
Lemma s_pubsub : forall h p, pubsub_at h p = true -> same p (r_pubsub h).
Proof.
  intros h p K n c. unfold pubsub_at in K. apply andb_true_iff in K as [K M]. apply andb_true_iff in K as [K L]. unfold r_pubsub. destruct h; sts.
Qed.
Lemma s_pub : forall p, pubsub_at true p = true -> same p r_pub. Proof. intros p. apply s_pubsub. Qed.
Lemma s_sub : forall p, pubsub_at false p = true -> same p r_sub. Proof. intros p. apply s_pubsub. Qed.
Definition rpc_at p := knows p ["Name"; "FunctionName"; "Channel"; "RpcChannel"; "Labels"; "UseTraceSinks"; "Replay"] && label_at (make_path p "Labels") && replay_at (make_path p "Replay").
Lemma s_rpc : forall p, rpc_at p = true -> same p r_rpc.
Proof.
  intros p K n c. unfold rpc_at in K. apply andb_true_iff in K as [K M]. apply andb_true_iff in K as [K L]. unfold r_rpc. st. apply bind_cong; [|intro; sts].
  apply opt_deprecated_p; [known_all|]. intros o c0 I. apply opt_some_p; [revert o I; known_all|auto with same].
Qed.
Global Hint Resolve s_pub s_sub s_rpc : same.
Definition sink_at p := knows p ["Type"; "Level"; "Format"; "Experimental"; "LogName"] && knows (make_path p "Experimental") ["DisabledTopics"; "EnabledTopics"].
Lemma s_sink : forall p, sink_at p = true -> same p r_sink.
Proof.
  intros p K n c. apply andb_true_iff in K as [K M]. unfold r_sink. st. st. st. rewrite child_p by known.
  destruct (child n "Experimental") as [[e|]| |]; cbn [bind option_map]; try reflexivity.
  - st. st. rewrite has_key_p by known. apply bind_cong; [|reflexivity]. destruct (stype_eqb a SFile); [|reflexivity]. destruct (has_key n "LogName"); [|reflexivity]. apply key_read_p; [known|auto with same].
  - rewrite has_key_p by known. apply bind_cong; [|reflexivity]. destruct (stype_eqb a SFile); [|reflexivity]. destruct (has_key n "LogName"); [|reflexivity]. apply key_read_p; [known|auto with same].
Qed.
Global Hint Resolve s_sink : same.
Definition logging_at p := knows p ["LogFromRemotes"; "FlushLevel"; "Sinks"] && sink_at (make_path p "Sinks").
Lemma s_logging : forall p, logging_at p = true -> same p r_logging. Proof. intros p K n c. apply andb_true_iff in K as [K M]. unfold r_logging. sts. Qed.
Definition msink_at p := knows p ["Type"; "Name"].
Lemma s_msink : forall p, msink_at p = true -> same p r_msink. Proof. intros p K n c. unfold msink_at in K. unfold r_msink. sts. Qed.
Global Hint Resolve s_logging s_msink : same.
Definition metrics_at p := knows p ["Sinks"; "CollectFromRemote"; "UpdateInterval"] && msink_at (make_path p "Sinks").
Lemma s_metrics : forall p, metrics_at p = true -> same p r_metrics. Proof. intros p K n c. apply andb_true_iff in K as [K M]. unfold r_metrics. sts. Qed.
Definition health_at p := knows p ["SoftResponseTimeout"; "HardResponseTimeout"].
Lemma s_health : forall p, health_at p = true -> same p r_health. Proof. intros p K n c. unfold health_at in K. unfold r_health. sts. Qed.
Definition tsink_at p := knows p ["Name"; "Type"; "OutputPath"].
Definition tsource_at p := knows p ["Name"; "Type"; "InputPath"].
Lemma s_tsink : forall p, tsink_at p = true -> same p r_tsink. Proof. intros p K n c. unfold tsink_at in K. unfold r_tsink. sts. Qed.
Lemma s_tsource : forall p, tsource_at p = true -> same p r_tsource. Proof. intros p K n c. unfold tsource_at in K. unfold r_tsource. sts. Qed.
Global Hint Resolve s_metrics s_health s_tsink s_tsource : same.
Definition tracing_at p := knows p ["TraceSinks"; "TraceSources"] && tsink_at (make_path p "TraceSinks") && tsource_at (make_path p "TraceSources").
Lemma s_tracing : forall p, tracing_at p = true -> same p r_tracing.
Proof. intros p K n c. unfold tracing_at in K. apply andb_true_iff in K as [K M]. apply andb_true_iff in K as [K L]. unfold r_tracing. sts. Qed.
Definition ext_at p := knows p ["SearchPathHints"].
Lemma s_ext : forall p, ext_at p = true -> same p r_ext. Proof. intros p K n c. unfold ext_at in K. unfold r_ext. apply opt_read_p; [known|auto with same]. Qed.
Definition includes_at p := knows p ["Files"; "SearchPathHints"].
Lemma s_includes : forall p, includes_at p = true -> same p r_includes. Proof. intros p K n c. unfold includes_at in K. unfold r_includes. sts. Qed.
Definition middleware_at p := knows p ["RegistryUri"; "ConnectAttempts"; "TcpNoDelay"; "TcpQuickAck"; "TcpReceiveBufferSize"; "TcpSendBufferSize"; "EnableDomainSockets"; "AcceptorUris";
  "RegistryAsFallbackProxy"; "ExperimentalRemoteParticipantConnection"; "ConnectTimeoutSeconds"].
Lemma s_middleware : forall D p, middleware_at p = true -> same p (r_middleware D). Proof. intros D p K n c. unfold middleware_at in K. unfold r_middleware. sts. Qed.
Definition timesync_at p := knows p ["AnimationFactor"; "EnableMessageAggregation"; "DynamicSimulationStep"].
Lemma s_timesync : forall D p, timesync_at p = true -> same p (r_timesync D). Proof. intros D p K n c. unfold timesync_at in K. unfold r_timesync. sts. Qed.
Global Hint Resolve s_tracing s_ext s_includes s_middleware s_timesync : same.
Definition experimental_at p := knows p ["TimeSynchronization"; "Metrics"] && timesync_at (make_path p "TimeSynchronization") && metrics_at (make_path p "Metrics").
Lemma s_experimental : forall D p, experimental_at p = true -> same p (r_experimental D).
Proof. intros D p K n c. unfold experimental_at in K. apply andb_true_iff in K as [K M]. apply andb_true_iff in K as [K L]. unfold r_experimental. sts. Qed.
Ltac vc := vm_compute; reflexivity.
Lemma knows_root : knows "/" ["schemaVersion"; "SchemaVersion"; "Description"; "ParticipantName"; "CanControllers"; "LinControllers"; "EthernetControllers"; "FlexrayControllers";
  "FlexRayControllers"; "DataPublishers"; "DataSubscribers"; "RpcServers"; "RpcClients"; "Logging"; "HealthCheck"; "Tracing"; "Extensions"; "Middleware"; "Includes"; "Experimental"] = true.
Proof. vc. Qed.
Lemma deserialize_prune : forall D n, deserialize D (prune "/" n) = deserialize D n.
Proof.
  intros D n. unfold deserialize. generalize (pcfg0 D). intros c. pose proof knows_root as K. unfold r_pcfg.
  st. st. st. st.
  apply bind_cong; [apply opt_read_p; [known|apply same_vec, s_ctrl; vc]|intro].
  apply bind_cong; [apply opt_read_p; [known|apply same_vec, s_ctrl; vc]|intro].
  apply bind_cong; [apply opt_read_p; [known|apply same_vec, s_ctrl; vc]|intro].
  apply bind_cong.
  { apply opt_deprecated_p; [known_all|]. intros o c0 I. cbn in I. destruct I as [<-|[<-|[]]]; (apply opt_read_p; [known|apply same_vec, s_flexray; vc]). }
  intro.
  apply bind_cong; [apply opt_read_p; [known|apply same_vec, s_pub; vc]|intro].
  apply bind_cong; [apply opt_read_p; [known|apply same_vec, s_sub; vc]|intro].
  apply bind_cong; [apply opt_read_p; [known|apply same_vec, s_rpc; vc]|intro].
  apply bind_cong; [apply opt_read_p; [known|apply same_vec, s_rpc; vc]|intro].
  apply bind_cong; [apply opt_read_p; [known|apply s_logging; vc]|intro].
  apply bind_cong; [apply opt_read_p; [known|apply s_health; vc]|intro].
  apply bind_cong; [apply opt_read_p; [known|apply s_tracing; vc]|intro].
  apply bind_cong; [apply opt_read_p; [known|apply s_ext; vc]|intro].
  apply bind_cong; [apply opt_read_p; [known|apply s_middleware; vc]|intro].
  apply bind_cong; [apply opt_read_p; [known|apply s_includes; vc]|intro].
  apply bind_cong; [apply opt_read_p; [known|apply s_experimental; vc]|intro]. reflexivity.
Qed.
