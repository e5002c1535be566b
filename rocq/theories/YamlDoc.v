From Coq Require Import String Ascii NArith ZArith List Bool Lia.
From Verif Require Import Base TextModel TextProofs UriProofs YamlModel YamlProofs YamlRound YamlMore.
Import ListNotations.
Open Scope string_scope.
Open Scope list_scope.
Open Scope Z_scope.

(** * Where a setting is in a document *)
(** a key of a map (the first one with that name), or all items of a list *)
Inductive hop := K (k : string) | Each.
Fixpoint walk (n : node) (p : list hop) : list node :=
  match p with
  | [] => [n]
  | K k :: p => match n with NMap l => match lookup k l with Some m => walk m p | None => [] end | _ => [] end
  | Each :: p => match n with NSeq l => flat_map (fun m => walk m p) l | _ => [] end
  end.
Lemma walk_app : forall p q n, walk n (p ++ q) = flat_map (fun m => walk m q) (walk n p).
Proof.
  induction p as [|h p IH]; intros q n; cbn [app walk]; [cbn; now rewrite app_nil_r|]. destruct h as [k|].
  - destruct n; try reflexivity. destruct (lookup k l); [apply IH|reflexivity].
  - destruct n; try reflexivity. induction l as [|m l IHl]; [reflexivity|]. cbn [flat_map]. rewrite flat_map_app, IHl. now rewrite IH.
Qed.
Lemma walk_cons : forall h q n, walk n (h :: q) = flat_map (fun m => walk m q) (walk n [h]).
Proof. intros h q n. apply (walk_app [h] q n). Qed.
(** what is held for a setting that may be there: what the document says, or the default *)
Definition one {A} (ns : list node) (R : node -> A -> Prop) (d v : A) : Prop := match ns with [] => v = d | [n] => R n v | _ => False end.
Definition olist {A} (o : option A) : list A := match o with Some a => [a] | None => [] end.

(** * What a node says *)
Definition says (n : node) (s : string) : Prop := match n with NVal _ t => t = lit s | NNull => s = "" | _ => False end.
Definition text_is (n : node) (v : text) : Prop := forall q t, n = NVal q t -> v = t.
Definition int_is (n : node) (v : Z) : Prop := forall z, n = write_int z -> v = z.
Definition bool_is (n : node) (v : bool) : Prop := forall s, n = plain (lit s) ->
  (In s ["1"; "true"; "True"; "TRUE"] -> v = true) /\ (In s ["0"; "false"; "False"; "FALSE"] -> v = false).
Definition named {A} (tbl : list (string * A)) (n : node) (v : A) : Prop := exists s, In (s, v) tbl /\ says n s.

Lemma lit_inj : forall a b, lit a = lit b -> a = b.
Proof.
  unfold lit. induction a as [|c a IH]; intros [|d b] H; cbn in H; try easy. injection H as H1 H2. f_equal; [|now apply IH].
  rewrite <- (ascii_N_embedding c), <- (ascii_N_embedding d). now rewrite H1.
Qed.
Lemma is_str_iff : forall n s, is_str n s = true <-> says n s.
Proof.
  intros [|q t|l|l] s; cbn; try easy; rewrite text_eqb_eq; [|reflexivity]. split; [|intros ->; reflexivity]. intros H. destruct s; [reflexivity|discriminate].
Qed.
Lemma says_inj : forall n s t, says n s -> says n t -> s = t.
Proof. intros [|q x|l|l] s t H G; cbn in *; try easy; [congruence|]. apply lit_inj. congruence. Qed.
Fixpoint pick {A} (tbl : list (string * A)) (n : node) : res A := match tbl with [] => Exn | (s, a) :: r => if is_str n s then Ok a else pick r n end.
Lemma pick_ok : forall A (tbl : list (string * A)) n, NoDup (map fst tbl) -> forall a, pick tbl n = Ok a <-> named tbl n a.
Proof.
  induction tbl as [|[s b] tbl IH]; intros n ND a; cbn [pick].
  - split; [discriminate|intros (s & [] & _)].
  - inversion ND as [|? ? N ND']; subst. destruct (is_str n s) eqn:E.
    + apply is_str_iff in E. split; [intros [= <-]; exists s; cbn; auto|]. intros (t & [I|I] & H); [congruence|]. pose proof (says_inj _ _ _ E H) as <-. elim N. change s with (fst (s, a)). now apply in_map.
    + rewrite IH by assumption. split; intros (t & I & H); exists t; [cbn; auto|]. destruct I as [I|I]; [|auto]. injection I as <- <-. apply is_str_iff in H. congruence.
Qed.
Lemma pick_exn : forall A (tbl : list (string * A)) n, pick tbl n = Exn <-> forall s a, In (s, a) tbl -> ~ says n s.
Proof.
  induction tbl as [|[s b] tbl IH]; intros n; cbn [pick].
  - split; [intros _ s a []|reflexivity].
  - destruct (is_str n s) eqn:E.
    + split; [discriminate|]. intros H. exfalso. apply (H s b); [now left|now apply is_str_iff].
    + rewrite IH. split; [|intros H t a I; apply (H t a); now right]. intros H t a [I|I]; [|now apply (H t a)]. injection I as <- <-. rewrite <- is_str_iff. congruence.
Qed.

(** * The readers *)
Lemma opt_read_one : forall A (rd : node -> A -> res A) n k cur v, opt_read rd n k cur = Ok v -> one (walk n [K k]) (fun m v => rd m cur = Ok v) cur v.
Proof. intros A rd n k cur v H. unfold opt_read in H. destruct n; cbn in *; try congruence. destruct (lookup k l); cbn; congruence. Qed.
Lemma opt_int_one : forall t n k cur v, opt_int t n k cur = Ok v -> one (walk n [K k]) (fun m v => read_checked t m = Ok v) cur v.
Proof. intros t n k cur v H. unfold opt_int in H. destruct n; cbn in *; try congruence. destruct (lookup k l); cbn; congruence. Qed.
Lemma opt_some_list : forall A (rd : node -> A -> res A) d n k o, opt_some rd d n k None = Ok o -> Forall2 (fun m v => rd m d = Ok v) (walk n [K k]) (olist o).
Proof.
  intros A rd d n k o H. unfold opt_some in H. destruct n; cbn in *; try (injection H as <-; constructor); try discriminate.
  destruct (lookup k l); cbn in H; [|injection H as <-; constructor]. destruct (rd n d) eqn:E; try discriminate. injection H as <-. repeat constructor. exact E.
Qed.
Lemma key_read_one : forall A (rd : node -> A -> res A) n k cur v, key_read rd n k cur = Ok v -> exists m, walk n [K k] = [m] /\ rd m cur = Ok v.
Proof. intros A rd n k cur v H. unfold key_read in H. destruct n; cbn in *; try congruence. destruct (lookup k l) as [m|]; cbn; [|congruence]. now exists m. Qed.
Lemma mapM_Forall2 : forall A B (f : A -> res B) l v, mapM f l = Ok v -> Forall2 (fun a b => f a = Ok b) l v.
Proof. induction l as [|a l IH]; intros v H; cbn in H; [injection H as <-; constructor|]. bk H. injection H as <-. constructor; auto. Qed.
Lemma flat_single : forall A (l : list A), flat_map (fun m => [m]) l = l.
Proof. induction l; cbn; congruence. Qed.
Lemma r_vec_each : forall A (rd : node -> A -> res A) d n v, r_vec rd d n [] = Ok v -> Forall2 (fun m v => rd m d = Ok v) (walk n [Each]) v.
Proof.
  intros A rd d n v H. unfold r_vec in H. destruct n; cbn in *; try discriminate. bk H. injection H as <-. cbn. rewrite flat_single. now apply mapM_Forall2.
Qed.
Lemma Forall2_flat_map : forall A B C D (R : C -> D -> Prop) (f : A -> list C) (g : B -> list D) ms vs,
  Forall2 (fun m v => Forall2 R (f m) (g v)) ms vs -> Forall2 R (flat_map f ms) (flat_map g vs).
Proof. induction 1; cbn; [constructor|]. now apply Forall2_app. Qed.
Lemma Forall2_map_r : forall A B C (R : A -> C -> Prop) (g : B -> C) ms vs, Forall2 (fun m v => R m (g v)) ms vs -> Forall2 R ms (map g vs).
Proof. induction 1; cbn; constructor; auto. Qed.
Lemma Forall2_imp : forall A B (R Q : A -> B -> Prop) ms vs, (forall m v, R m v -> Q m v) -> Forall2 R ms vs -> Forall2 Q ms vs.
Proof. induction 2; constructor; auto. Qed.
Lemma one_imp : forall A (R Q : node -> A -> Prop) ns d v, (forall m v, R m v -> Q m v) -> one ns R d v -> one ns Q d v.
Proof. intros A R Q [|n [|]] d v H; cbn; auto. Qed.
Lemma one_bind : forall A B (g : A -> B) (f : node -> list node) (R : node -> B -> Prop) ns d v,
  one ns (fun m v => one (f m) R (g d) (g v)) d v -> one (flat_map f ns) R (g d) (g v).
Proof. intros A B g f R [|n [|]] d v H; cbn in *; [now subst|now rewrite app_nil_r|destruct H]. Qed.
Lemma one_all : forall A (R : node -> A -> Prop) (f : node -> list node) ns v,
  one ns (fun m v => Forall2 R (f m) v) [] v -> Forall2 R (flat_map f ns) v.
Proof. intros A R f [|n [|]] v H; cbn in *; [subst; constructor|now rewrite app_nil_r|destruct H]. Qed.
Lemma one_list : forall A B (g : A -> list B) (R : node -> B -> Prop) (f : node -> list node) ns d v, g d = [] ->
  one ns (fun m v => Forall2 R (f m) (g v)) d v -> Forall2 R (flat_map f ns) (g v).
Proof. intros A B g R f [|n [|]] d v E H; cbn in *; [subst; rewrite E; constructor|now rewrite app_nil_r|destruct H]. Qed.

Lemma r_text_is : forall n c v, r_text n c = Ok v -> text_is n v.
Proof. intros n c v H q t ->. cbn in H. now injection H. Qed.
Lemma r_bool_is : forall n c v, r_bool n c = Ok v -> bool_is n v.
Proof.
  intros n c v H s ->. split; intros I; cbn [In] in I; repeat (destruct I as [<-|I]; [vm_compute in H; now injection H|]); destruct I.
Qed.
Lemma checked_is : forall t n v, read_checked t n = Ok v -> int_is n v.
Proof. intros t n v H z ->. rewrite read_checked_any in H. destruct (fits t z); cbn in H; [|discriminate]. destruct (_ && _) in H; [discriminate|now injection H]. Qed.
Lemma no_dups_str : forall l : list string, (fix f l := match l with [] => true | a :: r => negb (existsb (String.eqb a) r) && f r end) l = true -> NoDup l.
Proof.
  induction l as [|a r IH]; intros H; [constructor|]. apply andb_true_iff in H as [H1 H2]. constructor; [|auto]. intros I. apply negb_true_iff in H1.
  assert (existsb (String.eqb a) r = true) by (apply existsb_exists; exists a; split; [exact I|apply String.eqb_refl]). congruence.
Qed.

(** * The names of enumerations and what they stand for *)
Definition levels := [("Critical", LCritical); ("Error", LError); ("Warn", LWarn); ("Info", LInfo); ("Debug", LDebug); ("Trace", LTrace); ("Off", LOff)].
Definition channels := [("A", ChA); ("B", ChB); ("AB", ChAB); ("None", ChNone); ("", ChNone)].
Definition clocks := [("12.5ns", T12_5); ("25ns", T25); ("50ns", T50)].
Definition txmodes := [("Continuous", Continuous); ("SingleShot", SingleShot)].
Definition stypes := [("Remote", SRemote); ("", SRemote); ("Stdout", SStdout); ("File", SFile)].
Definition sformats := [("Simple", FSimple); ("", FSimple); ("Json", FJson)].
Definition mtypes := [("Undefined", MUndefined); ("", MUndefined); ("JsonFile", MJsonFile); ("Remote", MRemote)].
Definition dirs := [("Undefined", DUndefined); ("", DUndefined); ("Send", DSend); ("Receive", DReceive); ("Both", DBoth)].
Definition lkinds := [("Mandatory", LkMandatory); ("Optional", LkOptional)].
Definition tktypes := [("Undefined", TkUndefined); ("", TkUndefined); ("Mdf4File", TkMdf4); ("PcapFile", TkPcapFile); ("PcapPipe", TkPcapPipe)].
Definition tctypes := [("Undefined", TcUndefined); ("", TcUndefined); ("Mdf4File", TcMdf4); ("PcapFile", TcPcapFile)].
Definition aggrs := [("Off", AOff); ("", AOff); ("On", AOn); ("Auto", AAuto)].
(** topics, in upper or lower case *)
Definition topics : list (string * N) :=
  [("None", 0); ("User", 1); ("LifeCycle", 2); ("SystemState", 3); ("MessageTracing", 4); ("ServiceDiscovery", 5); ("Asio", 6); ("TimeSync", 7); ("Participant", 8);
   ("TimeConfig", 9); ("RequestReply", 10); ("SystemMonitor", 11); ("Can", 12); ("Ethernet", 13); ("FlexRay", 14); ("Lin", 15); ("Metrics", 16); ("PubSub", 17);
   ("Rpc", 18); ("Tracing", 19); ("Dashboard", 20); ("NetSim", 21); ("Extension", 22)]%N.
Definition same_letters (a b : text) : Prop := map (fun c => if (65 <=? c)%N && (c <=? 90)%N then (c + 32)%N else c) a = map (fun c => if (65 <=? c)%N && (c <=? 90)%N then (c + 32)%N else c) b.

(** * What a document says *)
(** an element that has to be there *)
Definition must {A} (ns : list node) (R : node -> A -> Prop) (v : A) : Prop := exists m, ns = [m] /\ R m v.
Definition topic_is (n : node) (v : N) : Prop := exists q s name, n = NVal q s /\ In (name, v) topics /\ same_letters s (lit name).
Definition dbl_is (D : dbl) (n : node) (v : N) : Prop := exists q s, n = NVal q s /\ d_scan D s = Some v.
(** integers that are not checked *)
Definition wide_is (t : ity) (n : node) (v : Z) : Prop := forall z, n = write_int z -> fits t z = true -> v = z.
Definition member_is (t : mty) (n : node) (v : mval) : Prop :=
  match t with
  | MInt t => exists z, v = VInt z /\ wide_is t n z
  | MBool => exists b, v = VBool b /\ bool_is n b
  | MChan => exists c, v = VChan c /\ named channels n c
  | MClock => exists c, v = VClock c /\ named clocks n c
  | MMode => exists m, v = VMode m /\ named txmodes n m
  end.
Definition params_is (tbl : list (string * mty)) (n : node) (vs : list mval) : Prop := Forall2 (fun kt v => must (walk n [K (fst kt)]) (member_is (snd kt)) v) tbl vs.
Definition nparams_is (n : node) (v : nparams) : Prop :=
  params_is node_members n (np_members v) /\ one (walk n [K "pSecondKeySlotId"]) int_is 0 (np_second v) /\ one (walk n [K "pTwoKeySlotMode"]) int_is 0 (np_two v).
Definition sink_is (n : node) (s : sink) : Prop :=
  one (walk n [K "Type"]) (named stypes) SRemote (s_type s) /\ one (walk n [K "Level"]) (named levels) LInfo (s_level s) /\
  one (walk n [K "Format"]) (named sformats) (match s_type s with SFile => FJson | _ => FSimple end) (s_format s) /\
  Forall2 topic_is (walk n [K "Experimental"; K "DisabledTopics"; Each]) (s_disabled s) /\ Forall2 topic_is (walk n [K "Experimental"; K "EnabledTopics"; Each]) (s_enabled s) /\
  match s_type s with SFile => must (walk n [K "LogName"]) text_is (s_log s) | _ => s_log s = [] end.
Definition logging_is (n : node) (l : logging) : Prop :=
  one (walk n [K "LogFromRemotes"]) bool_is false (lg_remote l) /\ one (walk n [K "FlushLevel"]) (named levels) LOff (lg_flush l) /\ Forall2 sink_is (walk n [K "Sinks"; Each]) (lg_sinks l).
Definition msink_is (n : node) (s : msink) : Prop := must (walk n [K "Type"]) (named mtypes) (m_type s) /\ one (walk n [K "Name"]) text_is [] (m_name s).
Definition metrics_is (n : node) (m : metrics) : Prop :=
  Forall2 msink_is (walk n [K "Sinks"; Each]) (me_sinks m) /\ Forall2 bool_is (walk n [K "CollectFromRemote"]) (olist (me_collect m)) /\ one (walk n [K "UpdateInterval"]) int_is 1 (me_interval m).
Definition mdf_is (n : node) (m : mdf) : Prop :=
  is_map n = true /\ Forall2 text_is (walk n [K "ChannelName"]) (olist (md_name m)) /\ Forall2 text_is (walk n [K "ChannelPath"]) (olist (md_path m)) /\ Forall2 text_is (walk n [K "ChannelSource"]) (olist (md_source m)) /\
  Forall2 text_is (walk n [K "GroupName"]) (olist (md_gname m)) /\ Forall2 text_is (walk n [K "GroupPath"]) (olist (md_gpath m)) /\ Forall2 text_is (walk n [K "GroupSource"]) (olist (md_gsource m)).
Definition replay_is (n : node) (r : replay) : Prop :=
  must (walk n [K "UseTraceSource"]) text_is (rp_source r) /\ one (walk n [K "Direction"]) (named dirs) DUndefined (rp_dir r) /\ one (walk n [K "MdfChannel"]) mdf_is (mkMdf None None None None None None) (rp_mdf r).
Definition no_replay : replay := mkReplay [] DUndefined (mkMdf None None None None None None).
Definition ctrl_is (n : node) (c : ctrl) : Prop :=
  must (walk n [K "Name"]) text_is (ct_name c) /\ Forall2 text_is (walk n [K "Network"]) (olist (ct_net c)) /\ Forall2 text_is (walk n [K "UseTraceSinks"; Each]) (ct_sinks c) /\
  one (walk n [K "Replay"]) replay_is no_replay (ct_replay c).
Definition flexray_is (n : node) (f : flexray) : Prop :=
  ctrl_is n (fr_ctrl f) /\ Forall2 (params_is cluster_members) (walk n [K "ClusterParameters"]) (olist (fr_cluster f)) /\ Forall2 nparams_is (walk n [K "NodeParameters"]) (olist (fr_node f)) /\
  Forall2 (params_is buffer_members) (walk n [K "TxBufferConfigurations"; Each]) (fr_bufs f).
Definition label_is (n : node) (l : label) : Prop :=
  one (walk n [K "Key"]) text_is [] (lb_key l) /\ one (walk n [K "Value"]) text_is [] (lb_value l) /\ one (walk n [K "Kind"]) (named lkinds) LkOptional (lb_kind l).
Definition labels_is (n : node) (o : option (list label)) : Prop := Forall2 (fun m ls => Forall2 label_is (walk m [Each]) ls) (walk n [K "Labels"]) (olist o).
Definition pub_is (hist : bool) (n : node) (s : svc) : Prop :=
  must (walk n [K "Name"]) text_is (sv_name s) /\ Forall2 text_is (walk n [K "Topic"]) (olist (sv_topic s)) /\ labels_is n (sv_labels s) /\
  Forall2 (wide_is U64) (if hist then walk n [K "History"] else []) (olist (sv_history s)) /\ Forall2 text_is (walk n [K "UseTraceSinks"; Each]) (sv_sinks s) /\ one (walk n [K "Replay"]) replay_is no_replay (sv_replay s).
(** the name of the function has two older names; at most one of the three may be used *)
Definition rpc_is (n : node) (s : svc) : Prop :=
  must (walk n [K "Name"]) text_is (sv_name s) /\ Forall2 text_is (walk n [K "FunctionName"] ++ walk n [K "Channel"] ++ walk n [K "RpcChannel"]) (olist (sv_topic s)) /\ labels_is n (sv_labels s) /\
  sv_history s = None /\ Forall2 text_is (walk n [K "UseTraceSinks"; Each]) (sv_sinks s) /\ one (walk n [K "Replay"]) replay_is no_replay (sv_replay s).
Definition health_is (n : node) (h : health) : Prop := Forall2 int_is (walk n [K "SoftResponseTimeout"]) (olist (h_soft h)) /\ Forall2 int_is (walk n [K "HardResponseTimeout"]) (olist (h_hard h)).
Definition tsink_is (n : node) (s : tsink) : Prop := must (walk n [K "Name"]) text_is (tk_name s) /\ must (walk n [K "Type"]) (named tktypes) (tk_type s) /\ must (walk n [K "OutputPath"]) text_is (tk_path s).
Definition tsource_is (n : node) (s : tsource) : Prop := must (walk n [K "Name"]) text_is (tc_name s) /\ must (walk n [K "Type"]) (named tctypes) (tc_type s) /\ must (walk n [K "InputPath"]) text_is (tc_path s).
Definition tracing_is (n : node) (t : tracing) : Prop := Forall2 tsink_is (walk n [K "TraceSinks"; Each]) (tr_sinks t) /\ Forall2 tsource_is (walk n [K "TraceSources"; Each]) (tr_sources t).
Definition includes_is (n : node) (i : includes) : Prop := Forall2 text_is (walk n [K "Files"; Each]) (in_files i) /\ Forall2 text_is (walk n [K "SearchPathHints"; Each]) (in_hints i).
Definition middleware_is (D : dbl) (n : node) (m : middleware) : Prop :=
  one (walk n [K "RegistryUri"]) text_is [] (mw_uri m) /\ one (walk n [K "ConnectAttempts"]) int_is 1 (mw_attempts m) /\ one (walk n [K "TcpNoDelay"]) bool_is true (mw_nodelay m) /\
  one (walk n [K "TcpQuickAck"]) bool_is false (mw_quickack m) /\ one (walk n [K "TcpReceiveBufferSize"]) int_is (-1) (mw_rcvbuf m) /\ one (walk n [K "TcpSendBufferSize"]) int_is (-1) (mw_sndbuf m) /\
  one (walk n [K "EnableDomainSockets"]) bool_is true (mw_domain m) /\ Forall2 text_is (walk n [K "AcceptorUris"; Each]) (mw_acceptors m) /\ one (walk n [K "RegistryAsFallbackProxy"]) bool_is true (mw_proxy m) /\
  one (walk n [K "ExperimentalRemoteParticipantConnection"]) bool_is true (mw_remote m) /\ one (walk n [K "ConnectTimeoutSeconds"]) (dbl_is D) (d_five D) (mw_timeout m).
Definition timesync_is (D : dbl) (n : node) (t : timesync) : Prop :=
  one (walk n [K "AnimationFactor"]) (dbl_is D) (d_zero D) (ts_factor t) /\ one (walk n [K "EnableMessageAggregation"]) (named aggrs) AOff (ts_aggr t) /\ Forall2 bool_is (walk n [K "DynamicSimulationStep"]) (olist (ts_dynamic t)).
Definition experimental_is (D : dbl) (n : node) (e : experimental) : Prop :=
  one (walk n [K "TimeSynchronization"]) (timesync_is D) (mkTs (d_zero D) AOff None) (ex_time e) /\ one (walk n [K "Metrics"]) metrics_is (mkMetrics [] None 1) (ex_metrics e).
Definition document_is (D : dbl) (n : node) (c : pcfg) : Prop :=
  (exists old, one (walk n [K "schemaVersion"]) text_is [] old /\ one (walk n [K "SchemaVersion"]) text_is old (p_schema c)) /\
  one (walk n [K "Description"]) text_is [] (p_description c) /\ one (walk n [K "ParticipantName"]) text_is [] (p_name c) /\ p_file c = [] /\
  Forall2 ctrl_is (walk n [K "CanControllers"; Each]) (p_can c) /\ Forall2 ctrl_is (walk n [K "LinControllers"; Each]) (p_lin c) /\ Forall2 ctrl_is (walk n [K "EthernetControllers"; Each]) (p_eth c) /\
  (** one of the two names *)
  Forall2 flexray_is (walk n [K "FlexrayControllers"; Each] ++ walk n [K "FlexRayControllers"; Each]) (p_flexray c) /\ (walk n [K "FlexrayControllers"] = [] \/ walk n [K "FlexRayControllers"] = []) /\
  Forall2 (pub_is true) (walk n [K "DataPublishers"; Each]) (p_pubs c) /\ Forall2 (pub_is false) (walk n [K "DataSubscribers"; Each]) (p_subs c) /\
  Forall2 rpc_is (walk n [K "RpcServers"; Each]) (p_servers c) /\ Forall2 rpc_is (walk n [K "RpcClients"; Each]) (p_clients c) /\
  one (walk n [K "Logging"]) logging_is (mkLog false LOff []) (p_logging c) /\ one (walk n [K "HealthCheck"]) health_is (mkHealth None None) (p_health c) /\
  one (walk n [K "Tracing"]) tracing_is (mkTracing [] []) (p_tracing c) /\ Forall2 text_is (walk n [K "Extensions"; K "SearchPathHints"; Each]) (p_ext c) /\
  one (walk n [K "Middleware"]) (middleware_is D) (mkMw [] 1 (-1) (-1) true false true [] true true (d_five D)) (p_middleware c) /\
  one (walk n [K "Includes"]) includes_is (mkInc [] []) (p_includes c) /\
  one (walk n [K "Experimental"]) (experimental_is D) (mkExp (mkTs (d_zero D) AOff None) (mkMetrics [] None 1)) (p_exp c).
(** the registry's; nothing remote is allowed *)
Definition registry_is (n : node) (c : rcfg) : Prop :=
  one (walk n [K "SchemaVersion"]) text_is [] (rc_schema c) /\ one (walk n [K "Description"]) text_is [] (rc_description c) /\ Forall2 text_is (walk n [K "ListenUri"]) (olist (rc_listen c)) /\
  Forall2 bool_is (walk n [K "EnableDomainSockets"]) (olist (rc_domain c)) /\ Forall2 text_is (walk n [K "DashboardUri"]) (olist (rc_dashboard c)) /\
  one (walk n [K "Logging"]) logging_is (mkLog false LOff []) (rc_logging c) /\ one (walk n [K "Experimental"; K "Metrics"]) metrics_is (mkMetrics [] None 1) (rc_metrics c) /\
  lg_remote (rc_logging c) = false /\ Forall (fun s => s_type s <> SRemote) (lg_sinks (rc_logging c)) /\ Forall (fun s => m_type s <> MRemote) (me_sinks (rc_metrics c)).

(** * Proofs *)
Lemma L_one : forall A (rd : node -> A -> res A) (R : node -> A -> Prop) n k cur v, opt_read rd n k cur = Ok v -> (forall m v, rd m cur = Ok v -> R m v) -> one (walk n [K k]) R cur v.
Proof. intros. eapply one_imp; [|eapply opt_read_one; eassumption]. auto. Qed.
Lemma L_int : forall t n k cur v, opt_int t n k cur = Ok v -> one (walk n [K k]) int_is cur v.
Proof. intros t n k cur v H. eapply one_imp; [|eapply opt_int_one; exact H]. intros m w E. exact (checked_is _ _ _ E). Qed.
Lemma L_some : forall A (rd : node -> A -> res A) (R : node -> A -> Prop) d n k o, opt_some rd d n k None = Ok o -> (forall m v, rd m d = Ok v -> R m v) -> Forall2 R (walk n [K k]) (olist o).
Proof. intros. eapply Forall2_imp; [|eapply opt_some_list; eassumption]. auto. Qed.
Lemma L_must : forall A (rd : node -> A -> res A) (R : node -> A -> Prop) n k cur v, key_read rd n k cur = Ok v -> (forall m v, rd m cur = Ok v -> R m v) -> must (walk n [K k]) R v.
Proof. intros A rd R n k cur v H HR. apply key_read_one in H as (m & W & H). exists m. auto. Qed.
Lemma L_each : forall A (rd : node -> A -> res A) (R : node -> A -> Prop) d n v, r_vec rd d n [] = Ok v -> (forall m v, rd m d = Ok v -> R m v) -> Forall2 R (walk n [Each]) v.
Proof. intros. eapply Forall2_imp; [|eapply r_vec_each; eassumption]. auto. Qed.
Lemma L_list : forall A (rd : node -> A -> res A) (R : node -> A -> Prop) d n k v, opt_read (r_vec rd d) n k [] = Ok v -> (forall m v, rd m d = Ok v -> R m v) -> Forall2 R (walk n [K k; Each]) v.
Proof. intros A rd R d n k v H HR. rewrite walk_cons. apply one_all. eapply one_imp; [|apply opt_read_one; exact H]. cbn. intros. eapply L_each; eassumption. Qed.
Lemma enum_level : forall n c v, r_level n c = Ok v -> named levels n v.
Proof. intros n c v H. apply (pick_ok _ levels n); [apply no_dups_str; vm_compute; reflexivity|]. rewrite <- H. unfold r_level. cbn [pick levels]. reflexivity. Qed.
Ltac enum tbl := let n := fresh in let c := fresh in let v := fresh in let H := fresh in
  intros n c v H; apply (pick_ok _ tbl n); [apply no_dups_str; vm_compute; reflexivity|]; rewrite <- H;
  unfold r_level, r_channel, r_clock, r_txmode, r_stype, r_sformat, r_mtype, r_dir, r_lkind, r_tktype, r_tctype, r_aggr; cbn [pick tbl];
  repeat match goal with |- context [is_str n ?s] => destruct (is_str n s); cbn [orb]; try reflexivity end.
Lemma enum_channel : forall n c v, r_channel n c = Ok v -> named channels n v. Proof. enum channels. Qed.
Lemma enum_clock : forall n c v, r_clock n c = Ok v -> named clocks n v. Proof. enum clocks. Qed.
Lemma enum_txmode : forall n c v, r_txmode n c = Ok v -> named txmodes n v. Proof. enum txmodes. Qed.
Lemma enum_stype : forall n c v, r_stype n c = Ok v -> named stypes n v. Proof. enum stypes. Qed.
Lemma enum_sformat : forall n c v, r_sformat n c = Ok v -> named sformats n v. Proof. enum sformats. Qed.
Lemma enum_mtype : forall n c v, r_mtype n c = Ok v -> named mtypes n v. Proof. enum mtypes. Qed.
Lemma enum_dir : forall n c v, r_dir n c = Ok v -> named dirs n v. Proof. enum dirs. Qed.
Lemma enum_lkind : forall n c v, r_lkind n c = Ok v -> named lkinds n v. Proof. enum lkinds. Qed.
Lemma enum_tktype : forall n c v, r_tktype n c = Ok v -> named tktypes n v. Proof. enum tktypes. Qed.
Lemma enum_tctype : forall n c v, r_tctype n c = Ok v -> named tctypes n v. Proof. enum tctypes. Qed.
Lemma enum_aggr : forall n c v, r_aggr n c = Ok v -> named aggrs n v. Proof. enum aggrs. Qed.
Lemma topic_iff : forall q s cur v, r_topic (NVal q s) cur = Ok v <-> exists name, In (name, v) topics /\ same_letters s (lit name).
Proof.
  intros q s cur v. unfold r_topic, same_letters. fold (lower s). split.
  - destruct (find _ _) as [[k w]|] eqn:E; [|discriminate]. intros [= <-]. apply find_some in E as [I E]. cbn [fst snd] in *. apply text_eqb_eq in E. rewrite E.
    cbn [topic_names In] in I. repeat (destruct I as [[= <- <-]|I]; [eexists; split; [cbn [topics In]; eauto 30|vm_compute; reflexivity]|]). destruct I.
  - intros (name & I & E). fold (lower (lit name)) in E. rewrite E. clear E. cbn [topics In] in I. repeat (destruct I as [[= <- <-]|I]; [vm_compute; reflexivity|]). destruct I.
Qed.
Lemma r_topic_is : forall n c v, r_topic n c = Ok v -> topic_is n v.
Proof. intros [|q s|l|l] c v H; try discriminate. apply topic_iff in H as (name & I & S). exists q, s, name. auto. Qed.
Lemma r_dbl_is : forall D n c v, r_dbl D n c = Ok v -> dbl_is D n v.
Proof. intros D n c v H. unfold r_dbl, read_dbl in H. destruct n as [|q [|x s]|l|l]; try discriminate. destruct (d_scan D (x :: s)) eqn:E; [|discriminate]. injection H as <-. now exists q, (x :: s). Qed.
Lemma fits_int : forall t z, fits t z = true -> read_int t (write_int z) = Ok z \/ read_int t (write_int z) = UB.
Proof.
  intros t z F. rewrite read_int_any. unfold fits, lo, hi in *. destruct (signed t).
  - destruct (_ <? _); auto.
  - left. replace (z <? 0) with false by lia. rewrite Z.mod_small by lia. reflexivity.
Qed.
Lemma r_int_is : forall t n c v, r_int t n c = Ok v -> wide_is t n v.
Proof. intros t n c v H z -> F. unfold r_int in H. destruct (fits_int t z F) as [E|E]; rewrite E in H; [now injection H|discriminate]. Qed.
Lemma r_ms_is : forall n c v, r_ms n c = Ok v -> int_is n v.
Proof. intros n c v H. unfold r_ms in H. eapply checked_is; eassumption. Qed.
Lemma r_member_is : forall t n v, r_member t n = Ok v -> member_is t n v.
Proof.
  intros [t| | | |] n v H; cbn in H |- *; apply bind_ok in H as (a & E & H); injection H as <-; exists a; (split; [reflexivity|]).
  - eapply r_int_is; eassumption.
  - eapply r_bool_is; eassumption.
  - eapply enum_channel; eassumption.
  - eapply enum_clock; eassumption.
  - eapply enum_txmode; eassumption.
Qed.
Lemma r_members_is : forall tbl n vs, r_members tbl n = Ok vs -> params_is tbl n vs.
Proof.
  intros tbl n vs H. apply mapM_Forall2 in H. eapply Forall2_imp; [|exact H]. clear. cbn. intros [k t] v H. cbn [fst snd] in *. apply bind_ok in H as (c & E & H). destruct c as [m|]; [|discriminate].
  exists m. split; [|now apply r_member_is]. destruct n; cbn in *; try congruence. injection E as ->. reflexivity.
Qed.
Create HintDb rd.
Global Hint Resolve r_text_is r_bool_is r_topic_is r_dbl_is r_int_is r_ms_is r_members_is enum_level enum_channel enum_clock enum_txmode enum_stype enum_sformat enum_mtype enum_dir enum_lkind enum_tktype enum_tctype enum_aggr : rd.
Ltac leaf := intros; eauto 2 with rd.
Ltac one_step :=
  lazymatch goal with
  | |- one (walk _ [K _]) int_is _ _ => eapply L_int; eassumption
  | |- one (walk _ [K _]) _ _ _ => eapply L_one; [eassumption|leaf]
  | |- must _ _ _ => eapply L_must; [eassumption|leaf]
  | |- Forall2 _ (walk _ [K _; Each]) _ => eapply L_list; [eassumption|leaf]
  | |- Forall2 _ (walk _ [K _]) (olist _) => eapply L_some; [eassumption|leaf]
  end.
Ltac conjs := lazymatch goal with |- _ /\ _ => split; [|conjs] | _ => idtac end.
Ltac go H := bk H; apply Ok_inj in H; subst; cbn [np_members np_second np_two s_format s_type s_level s_log s_disabled s_enabled lg_remote lg_flush lg_sinks m_type m_name me_sinks me_collect me_interval md_name md_source md_path md_gname md_gsource md_gpath rp_source rp_dir rp_mdf ct_name ct_net ct_sinks ct_replay fr_ctrl fr_cluster fr_node fr_bufs lb_key lb_value lb_kind sv_name sv_topic sv_labels sv_history sv_sinks sv_replay h_soft h_hard tk_type tk_name tk_path tc_type tc_name tc_path tr_sinks tr_sources in_hints in_files mw_uri mw_attempts mw_rcvbuf mw_sndbuf mw_nodelay mw_quickack mw_domain mw_acceptors mw_proxy mw_remote mw_timeout ts_factor ts_aggr ts_dynamic ex_time ex_metrics p_schema p_description p_file p_name p_can p_lin p_eth p_flexray p_pubs p_subs p_servers p_clients p_logging p_health p_tracing p_ext p_includes p_middleware p_exp rc_description rc_schema rc_listen rc_domain rc_dashboard rc_logging rc_metrics]; conjs; try one_step.
Lemma r_nparams_is : forall n v, r_nparams n (mkNp [] 0 0) = Ok v -> nparams_is n v.
Proof. intros n v H. unfold r_nparams in H. unfold nparams_is. go H. leaf. Qed.
Lemma r_msink_is : forall n v, r_msink n (mkMs MUndefined []) = Ok v -> msink_is n v.
Proof. intros n v H. unfold r_msink in H. unfold msink_is. go H. Qed.
Global Hint Resolve r_msink_is r_nparams_is : rd.
Lemma r_metrics_is : forall n v, r_metrics n metrics0 = Ok v -> metrics_is n v.
Proof. intros n v H. unfold r_metrics in H. unfold metrics_is. go H. Qed.
Lemma r_mdf_is : forall n v, r_mdf n mdf0 = Ok v -> mdf_is n v.
Proof. intros n v H. unfold r_mdf in H. unfold mdf_is. destruct (is_map n) eqn:M; [|discriminate]. go H. reflexivity. Qed.
Global Hint Resolve r_metrics_is r_mdf_is : rd.
Lemma r_replay_is : forall n v, r_replay n replay0 = Ok v -> replay_is n v.
Proof. intros n v H. unfold r_replay in H. unfold replay_is. go H. Qed.
Global Hint Resolve r_replay_is : rd.
Lemma r_ctrl_is : forall n v, r_ctrl n ctrl0 = Ok v -> ctrl_is n v.
Proof. intros n v H. unfold r_ctrl in H. unfold ctrl_is. go H. Qed.
Global Hint Resolve r_ctrl_is : rd.
Lemma r_flexray_is : forall n v, r_flexray n flexray0 = Ok v -> flexray_is n v.
Proof. intros n v H. unfold r_flexray in H. unfold flexray_is. go H. leaf. Qed.
Lemma r_label_is : forall n v, r_label n label0 = Ok v -> label_is n v.
Proof. intros n v H. unfold r_label in H. unfold label_is. go H. Qed.
Lemma r_tsink_is : forall n v, r_tsink n (mkTsink TkUndefined [] []) = Ok v -> tsink_is n v.
Proof. intros n v H. unfold r_tsink in H. unfold tsink_is. go H. Qed.
Lemma r_tsource_is : forall n v, r_tsource n (mkTsource TcUndefined [] []) = Ok v -> tsource_is n v.
Proof. intros n v H. unfold r_tsource in H. unfold tsource_is. go H. Qed.
Global Hint Resolve r_flexray_is r_label_is r_tsink_is r_tsource_is : rd.
Lemma r_tracing_is : forall n v, r_tracing n tracing0 = Ok v -> tracing_is n v.
Proof. intros n v H. unfold r_tracing in H. unfold tracing_is. go H. Qed.
Lemma r_health_is : forall n v, r_health n health0 = Ok v -> health_is n v.
Proof. intros n v H. unfold r_health in H. unfold health_is. go H. Qed.
Lemma r_includes_is : forall n v, r_includes n includes0 = Ok v -> includes_is n v.
Proof. intros n v H. unfold r_includes in H. unfold includes_is. go H. Qed.
Lemma r_middleware_is : forall D n v, r_middleware D n (middleware0 D) = Ok v -> middleware_is D n v.
Proof. intros D n v H. unfold r_middleware in H. unfold middleware_is. go H. Qed.
Lemma r_timesync_is : forall D n v, r_timesync D n (timesync0 D) = Ok v -> timesync_is D n v.
Proof. intros D n v H. unfold r_timesync in H. unfold timesync_is. go H. Qed.
Global Hint Resolve r_tracing_is r_health_is r_includes_is r_middleware_is r_timesync_is : rd.
Lemma r_experimental_is : forall D n v, r_experimental D n (experimental0 D) = Ok v -> experimental_is D n v.
Proof. intros D n v H. unfold r_experimental in H. unfold experimental_is. go H. Qed.
Global Hint Resolve r_experimental_is : rd.
Lemma r_sink_is : forall n v, r_sink n sink0 = Ok v -> sink_is n v.
Proof.
  intros n v H. unfold r_sink in H. unfold sink_is. cbv zeta in H. bk H. apply Ok_inj in H. subst v. cbn [s_format s_type s_level s_log s_disabled s_enabled].
  conjs; try one_step.
  - replace (match a with SFile => FJson | _ => FSimple end) with (if stype_eqb a SFile then FJson else s_format sink0) by (destruct a; reflexivity). one_step.
  - rewrite walk_cons. destruct n as [|q t|l|l]; try (cbn in E2; discriminate); try (cbn in E2; injection E2 as <-; cbn in E3; injection E3 as <-; constructor).
    cbn in E2. injection E2 as <-. change (walk (NMap l) [K "Experimental"]) with (match lookup "Experimental" l with Some m => [m] | None => [] end). destruct (lookup "Experimental" l) as [m|]; cbn [flat_map]; [|injection E3 as <-; constructor]. rewrite app_nil_r. one_step.
  - rewrite walk_cons. destruct n as [|q t|l|l]; try (cbn in E2; discriminate); try (cbn in E2; injection E2 as <-; cbn in E4; injection E4 as <-; constructor).
    cbn in E2. injection E2 as <-. change (walk (NMap l) [K "Experimental"]) with (match lookup "Experimental" l with Some m => [m] | None => [] end). destruct (lookup "Experimental" l) as [m|]; cbn [flat_map]; [|injection E4 as <-; constructor]. rewrite app_nil_r. one_step.
  - destruct a; cbn [stype_eqb] in E5; try (now injection E5 as <-). destruct (has_key n "LogName"); [one_step|discriminate].
Qed.
Global Hint Resolve r_sink_is : rd.
Lemma r_logging_is : forall n v, r_logging n logging0 = Ok v -> logging_is n v.
Proof. intros n v H. unfold r_logging in H. unfold logging_is. go H. Qed.
Lemma r_labels_is : forall n o, opt_some (r_vec r_label label0) [] n "Labels" None = Ok o -> labels_is n o.
Proof. intros n o H. unfold labels_is. eapply L_some; [exact H|]. intros m v G. eapply L_each; [exact G|leaf]. Qed.
Global Hint Resolve r_logging_is r_labels_is : rd.
Lemma r_pubsub_is : forall h n v, r_pubsub h n svc0 = Ok v -> pub_is h n v.
Proof.
  intros h n v H. unfold r_pubsub in H. unfold pub_is. go H.
  - now apply r_labels_is.
  - destruct h; [one_step|]. injection E2 as <-. constructor.
Qed.
(** the older names *)
Lemma old_name_none : forall A (rd : node -> A -> res A) d n k cur, walk n [K k] = [] -> opt_some rd d n k cur = Ok cur \/ exists l, n = NSeq l.
Proof. intros A rd d [|q t|l|l] k cur H; cbn in *; auto; [right; now exists l|]. unfold opt_some. cbn. destruct (lookup k l); [discriminate|auto]. Qed.
Lemma r_function_is : forall n o, opt_deprecated (opt_some r_text []) n "FunctionName" ["Channel"; "RpcChannel"] None = Ok o ->
  Forall2 text_is (walk n [K "FunctionName"] ++ walk n [K "Channel"] ++ walk n [K "RpcChannel"]) (olist o).
Proof.
  intros n o H. unfold opt_deprecated in H. destruct n as [|q t|l|l]; try discriminate; try (injection H as <-; constructor).
  cbn [has_key walk] in *. unfold opt_some in H. cbn [child bind fold_left filter] in H.
  destruct (lookup "FunctionName" l) as [a|]; destruct (lookup "Channel" l) as [b|]; destruct (lookup "RpcChannel" l) as [c|]; cbn [app length Nat.leb andb bind] in *; try discriminate;
    try (injection H as <-; constructor).
  all: match type of H with context [r_text ?m []] => destruct (r_text m []) as [x| |] eqn:E; cbn [bind] in H; try discriminate; injection H as <-; repeat constructor; eapply r_text_is; exact E end.
Qed.
Lemma r_rpc_is : forall n v, r_rpc n svc0 = Ok v -> rpc_is n v.
Proof.
  intros n v H. unfold r_rpc in H. unfold rpc_is. go H.
  - now apply r_function_is.
  - now apply r_labels_is.
  - reflexivity.
Qed.
Lemma r_flexrays_is : forall n v, opt_deprecated (opt_read (r_vec r_flexray flexray0)) n "FlexrayControllers" ["FlexRayControllers"] [] = Ok v ->
  Forall2 flexray_is (walk n [K "FlexrayControllers"; Each] ++ walk n [K "FlexRayControllers"; Each]) v /\ (walk n [K "FlexrayControllers"] = [] \/ walk n [K "FlexRayControllers"] = []).
Proof.
  intros n v H. unfold opt_deprecated in H. destruct n as [|q t|l|l]; try discriminate; try (injection H as <-; split; [constructor|now left]).
  cbn [has_key] in H. cbn [fold_left filter] in H.
  assert (NE : forall k, lookup k l = None -> walk (NMap l) [K k; Each] = [] /\ walk (NMap l) [K k] = []) by (intros k L; cbn; now rewrite L).
  assert (NO : forall k (c : list flexray), lookup k l = None -> opt_read (r_vec r_flexray flexray0) (NMap l) k c = Ok c) by (intros k c L; unfold opt_read; cbn; now rewrite L).
  destruct (lookup "FlexrayControllers" l) as [a|] eqn:LA; destruct (lookup "FlexRayControllers" l) as [b|] eqn:LB; cbn [length Nat.leb andb] in H; try discriminate.
  - destruct (NE _ LB) as [-> ->]. split; [|now right]. rewrite app_nil_r. apply bind_ok in H as (w & E & H). cbn [bind] in H. rewrite NO in H by exact LB. injection H as <-.
    eapply L_list; [exact E|leaf].
  - destruct (NE _ LA) as [-> ->]. split; [|now left]. cbn [app]. rewrite NO in H by exact LA. cbn [bind] in H. eapply L_list; [exact H|leaf].
  - destruct (NE _ LA) as [-> ->], (NE _ LB) as [-> ->]. split; [|now left]. rewrite NO in H by exact LA. cbn [bind] in H. rewrite NO in H by exact LB. injection H as <-. constructor.
Qed.
Lemma r_pub_is : forall n v, r_pub n svc0 = Ok v -> pub_is true n v. Proof. exact (r_pubsub_is true). Qed.
Lemma r_sub_is : forall n v, r_sub n svc0 = Ok v -> pub_is false n v. Proof. exact (r_pubsub_is false). Qed.
Global Hint Resolve r_pub_is r_sub_is r_rpc_is : rd.
Lemma r_ext_is : forall n v, opt_read r_ext n "Extensions" [] = Ok v -> Forall2 text_is (walk n [K "Extensions"; K "SearchPathHints"; Each]) v.
Proof.
  intros n v H. rewrite walk_cons. apply one_all. eapply one_imp; [|eapply opt_read_one; exact H]. cbn beta. intros m w E. unfold r_ext in E. eapply L_list; [exact E|leaf].
Qed.
Theorem deserialize_is : forall D n c, deserialize D n = Ok c -> document_is D n c.
Proof.
  intros D n c H. unfold deserialize, r_pcfg, pcfg0 in H. unfold document_is. go H.
  - exists a. split; [one_step|]. eapply L_one; [exact E0|leaf].
  - reflexivity.
  - now apply r_flexrays_is.
  - now apply r_flexrays_is in E6.
  - now apply r_ext_is.
Qed.
Theorem registry_read_is : forall n c, r_rcfg n rcfg0 = Ok c -> registry_is n c.
Proof.
  intros n c H. unfold r_rcfg, rcfg0 in H. cbn [rc_description rc_schema rc_listen rc_domain rc_dashboard rc_logging rc_metrics] in H. bk H.
  destruct (lg_remote a4) eqn:LR; [discriminate|]. destruct (existsb _ (lg_sinks a4)) eqn:LS; [discriminate|]. apply Ok_inj in H. subst c. unfold registry_is.
  cbn [rc_description rc_schema rc_listen rc_domain rc_dashboard rc_logging rc_metrics]. conjs; try one_step.
  - rewrite walk_cons. apply (one_bind metrics metrics (fun m => m)). eapply one_imp; [|eapply opt_read_one; exact E5]. cbn beta. intros m w G. unfold r_rexp in G. apply bind_ok in G as (x & G & F).
    destruct (existsb _ _) in F; [discriminate|]. injection F as <-. eapply L_one; [exact G|leaf].
  - exact LR.
  - apply Forall_forall. intros s I T. assert (existsb (fun s => stype_eqb (s_type s) SRemote) (lg_sinks a4) = true) by (apply existsb_exists; exists s; split; [exact I|now rewrite T]). congruence.
  - apply opt_read_one in E5. destruct (walk n [K "Experimental"]) as [|m [|]] eqn:W; cbn in E5; [subst; constructor| |destruct E5].
    unfold r_rexp in E5. apply bind_ok in E5 as (x & _ & F). destruct (existsb _ _) eqn:X in F; [discriminate|]. injection F as ->. apply Forall_forall. intros s I T.
    assert (existsb (fun s => mtype_eqb (m_type s) MRemote) (me_sinks a5) = true) by (apply existsb_exists; exists s; split; [exact I|now rewrite T]). congruence.
Qed.
