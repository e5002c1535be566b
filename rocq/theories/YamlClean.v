From Coq Require Import String Ascii NArith ZArith List Bool Lia.
From Verif Require Import Base TextModel YamlModel YamlProofs YamlCheckModel YamlCheckProofs.
Import ListNotations.
Open Scope string_scope.
Open Scope list_scope.

(** * What is written passes the check without a warning *)
(** [n] stands at path [p], under a key or as an item of a sequence *)
Definition clean (p : string) (key : option string) (n : node) : Prop := report p key n = [].
(** [l] is part of a map at path [p] whose keys are among [ks] in that order *)
Inductive among : list string -> list string -> Prop :=
| among_nil : forall ks, among ks []
| among_skip : forall k ks l, among ks l -> among (k :: ks) l
| among_take : forall k ks l, among ks l -> among (k :: ks) (k :: l).
Lemma among_app : forall a x b y, among a x -> among b y -> among (a ++ b) (x ++ y).
Proof.
  intros a x b y H K. induction H as [ks|k ks l H IH|k ks l H IH]; cbn.
  - induction ks; cbn; [exact K|now constructor].
  - now constructor.
  - now constructor.
Qed.
Lemma among_in : forall ks l, among ks l -> forall k, In k l -> In k ks.
Proof. intros ks l H. induction H; intros x I; cbn in *; [destruct I|right; auto|]. destruct I; auto. Qed.
Lemma among_nodup : forall ks l, among ks l -> NoDup ks -> NoDup l.
Proof.
  intros ks l H. induction H as [ks|k ks l H IH|k ks l H IH]; intros N; [constructor| |]; inversion N as [|? ? A B]; subst; [now apply IH|].
  constructor; [|now apply IH]. intros I. apply A. now apply (among_in _ _ H).
Qed.
Definition part (p : string) (ks : list string) (l : list (string * node)) : Prop := among ks (map fst l) /\ Forall (fun c => clean p (Some (fst c)) (snd c)) l.
Lemma part_nil : forall p ks, part p ks []. Proof. intros. split; constructor. Qed.
Lemma part_app : forall p a b x y, part p a x -> part p b y -> part p (a ++ b) (x ++ y).
Proof. intros p a b x y [H1 H2] [K1 K2]. split; [rewrite map_app; now apply among_app|]. apply Forall_app. auto. Qed.
Lemma part_kv : forall p k n, clean p (Some k) n -> part p [k] (kv k n).
Proof. intros p k n H. split; [apply among_take, among_nil|]. constructor; [exact H|constructor]. Qed.
Lemma part_opt : forall p A (w : A -> node) o k, (forall a, o = Some a -> clean p (Some k) (w a)) -> part p [k] (w_opt w o k).
Proof. intros p A w [a|] k H; cbn; [apply part_kv; auto|apply part_nil]. Qed.
Lemma part_nd : forall p A e (w : A -> node) v k d, clean p (Some k) (w v) -> part p [k] (w_nd e w v k d).
Proof. intros p A e w v k d H. unfold w_nd. destruct (e v d); [apply part_nil|now apply part_kv]. Qed.
Lemma part_str : forall p s k, clean p (Some k) (plain s) -> part p [k] (w_str s k).
Proof. intros p [|c s] k H; [apply part_nil|]. now apply part_kv. Qed.
Lemma part_list : forall p A (w : A -> node) l k, clean p (Some k) (w_vec w l) -> part p [k] (w_list w l k).
Proof. intros p A w [|a l] k H; [apply part_nil|]. now apply part_kv. Qed.

Lemma report_app : forall p key n, report p key n = [] <-> here p key n = [] /\ dup_warnings p n = [] /\
  match n with NMap l => Forall (fun c => clean (below p key) (Some (fst c)) (snd c)) l | NSeq l => Forall (fun c => clean (below p key) None c) l | _ => True end.
Proof.
  assert (F : forall A (f : A -> list warning) l, flat_map f l = [] <-> Forall (fun a => f a = []) l).
  { intros A f l. induction l as [|a l IH]; cbn; [split; auto|]. split; [intros E; apply app_eq_nil in E as [E1 E2]; constructor; [exact E1|now apply IH]|].
    intros H. inversion H as [|? ? H1 H2]; subst. rewrite H1. now apply IH. }
  intros p key n. split.
  - intros E. destruct n; cbn [report] in E; apply app_eq_nil in E as [E1 E2]; apply app_eq_nil in E2 as [E2 E3]; repeat split; auto; now apply F.
  - intros (E1 & E2 & E3). destruct n; cbn [report]; rewrite E1, E2; cbn [app]; try reflexivity; now apply F.
Qed.
Lemma clean_val : forall p k q s, is_schema_path (make_path p k) = true -> clean p (Some k) (NVal q s).
Proof. intros p k q s H. apply report_app. cbn [here dup_warnings]. now rewrite H. Qed.
Lemma clean_item : forall p q s, is_schema_path p = true -> clean p None (NVal q s).
Proof. intros p q s H. apply report_app. cbn [here dup_warnings]. now rewrite H. Qed.
(** a map under a key, or as an item *)
Lemma clean_map : forall p key ks l, match key with Some k => is_schema_path (make_path p k) = true | None => True end -> NoDup ks -> part (below p key) ks l -> clean p key (NMap l).
Proof.
  intros p key ks l H N [A F]. apply report_app. split; [|split; [|exact F]].
  - unfold here. destruct key; [now rewrite H|reflexivity].
  - unfold dup_warnings. replace (dups [] (map fst l)) with (@nil string); [reflexivity|]. symmetry. apply no_dups. now apply (among_nodup _ _ A).
Qed.
Lemma clean_vec : forall A (w : A -> node) p k l, is_schema_path (make_path p k) = true -> (forall a, In a l -> clean (make_path p k) None (w a)) -> clean p (Some k) (w_vec w l).
Proof.
  intros A w p k l H F. apply report_app. cbn [here dup_warnings w_vec below]. rewrite H. repeat split. apply Forall_forall. intros n I. apply in_map_iff in I as (a & <- & I). now apply F.
Qed.
Ltac vc := vm_compute; reflexivity.
Ltac nodup := apply no_dups; vm_compute; reflexivity.
Lemma clean_texts : forall p k l, is_schema_path (make_path p k) = true -> clean p (Some k) (w_vec plain l).
Proof. intros p k l H. apply clean_vec; [exact H|]. intros a _. now apply clean_item. Qed.
Lemma part_replay : forall p r, (forall r', clean p (Some "Replay") (w_replay r')) -> part p ["Replay"] (w_replay_opt r "Replay").
Proof. intros p r H. unfold w_replay_opt. destruct (rp_source r); [apply part_nil|apply part_kv, H]. Qed.
(** the keys that are allowed below [p] *)
Definition allows (p : string) (ks : list string) : Prop := forall k, In k ks -> is_schema_path (make_path p k) = true.
Definition allowsb (p : string) (ks : list string) : bool := forallb (fun k => is_schema_path (make_path p k)) ks.
Lemma allows_b : forall p ks, allowsb p ks = true -> allows p ks.
Proof. intros p ks H k I. unfold allowsb in H. rewrite forallb_forall in H. now apply H. Qed.
Ltac al := match goal with H : allows ?p _ |- is_schema_path (make_path ?p _) = true => apply H; cbn; tauto end.
(** the parts of a map one after the other *)
Ltac one := first [ apply part_kv | apply part_opt; intros ? _ | apply part_nd | apply part_str | apply part_list ].
Ltac leaf := first [ apply clean_val; al | apply clean_texts; al ].
Ltac parts := repeat (first [ refine (part_app _ [_] _ _ _ _ _); [one; try leaf|] | one; try leaf ]).

Lemma clean_mdf : forall p m, is_schema_path (make_path p "MdfChannel") = true ->
  allows (make_path p "MdfChannel") ["ChannelName"; "ChannelPath"; "ChannelSource"; "GroupName"; "GroupPath"; "GroupSource"] -> clean p (Some "MdfChannel") (w_mdf m).
Proof. intros p m H A. unfold w_mdf. eapply clean_map; [exact H| |parts]; nodup. Qed.
Definition replay_paths (p : string) : bool :=
  allowsb p ["Replay"] && allowsb (make_path p "Replay") ["UseTraceSource"; "Direction"; "MdfChannel"]
  && allowsb (make_path (make_path p "Replay") "MdfChannel") ["ChannelName"; "ChannelPath"; "ChannelSource"; "GroupName"; "GroupPath"; "GroupSource"].
Lemma clean_replay : forall p r, replay_paths p = true -> clean p (Some "Replay") (w_replay r).
Proof.
  intros p r H. unfold replay_paths in H. apply andb_true_iff in H as [H H3]. apply andb_true_iff in H as [H1 H2]. apply allows_b in H1, H2, H3.
  unfold w_replay. eapply clean_map; [al| |cbn [below]; parts]; [nodup|]. apply clean_mdf; [al|exact H3].
Qed.
Definition ctrl_paths (p : string) : bool := allowsb p ["Name"; "Network"; "UseTraceSinks"] && replay_paths p.
Lemma clean_ctrl : forall p c, ctrl_paths p = true -> clean p None (w_ctrl c).
Proof.
  intros p c H. apply andb_true_iff in H as [H R]. apply allows_b in H. unfold w_ctrl. eapply clean_map; [exact I| |cbn [below]; parts].
  2:{ apply part_replay. intros r. now apply clean_replay. }
  nodup.
Qed.
Lemma part_members : forall p ks vs, allows p ks -> part p ks (w_members ks vs).
Proof.
  intros p. unfold w_members. induction ks as [|k ks IH]; intros vs H; [apply part_nil|]. destruct vs as [|v vs]; [apply part_nil|]. cbn [map combine].
  apply (part_app p [k] ks [(k, w_member v)]); [|apply IH; intros x I; apply H; now right].
  apply part_kv. assert (E : exists s, w_member v = NVal false s) by (destruct v; eexists; reflexivity). destruct E as [s ->]. apply clean_val, H. now left.
Qed.
Definition flexray_paths (p : string) : bool :=
  ctrl_paths p && allowsb p ["ClusterParameters"; "NodeParameters"; "TxBufferConfigurations"] && allowsb (make_path p "ClusterParameters") cluster_keys
  && allowsb (make_path p "NodeParameters") (node_keys ++ ["pSecondKeySlotId"; "pTwoKeySlotMode"]) && allowsb (make_path p "TxBufferConfigurations") buffer_keys.
Lemma clean_flexray : forall p f, flexray_paths p = true -> clean p None (w_flexray f).
Proof.
  intros p f H. unfold flexray_paths in H. apply andb_true_iff in H as [H H5]. apply andb_true_iff in H as [H H4]. apply andb_true_iff in H as [H H3]. apply andb_true_iff in H as [H H2].
  apply andb_true_iff in H as [H R]. apply allows_b in H, H2, H3, H4, H5.
  assert (C : forall a, clean p (Some "ClusterParameters") (w_cluster a)).
  { intros a. unfold w_cluster. eapply clean_map; [al| |apply part_members; exact H3]. nodup. }
  assert (N : forall a, clean p (Some "NodeParameters") (w_nparams a)).
  { intros a. unfold w_nparams. eapply clean_map; [al| |cbn [below]; apply part_app; [apply part_members; intros k I; apply H4, in_or_app; now left|parts]]. cbn [app node_keys]; nodup. }
  assert (B : forall a, In a (fr_bufs f) -> clean (make_path p "TxBufferConfigurations") None (w_buffer a)).
  { intros a _. unfold w_buffer. eapply clean_map; [exact I| |apply part_members; exact H5]. nodup. }
  unfold w_flexray. eapply clean_map; [exact I| |cbn [below]; parts]; auto.
  3:{ apply part_replay. intros r. now apply clean_replay. }
  - nodup.
  - apply clean_vec; [al|exact B].
Qed.
Definition label_paths (p : string) : bool := allowsb p ["Labels"] && allowsb (make_path p "Labels") ["Key"; "Value"; "Kind"].
Lemma clean_labels : forall p l, label_paths p = true -> clean p (Some "Labels") (w_vec w_label l).
Proof.
  intros p l H. apply andb_true_iff in H as [H1 H2]. apply allows_b in H1, H2. apply clean_vec; [al|]. intros a _. unfold w_label. eapply clean_map; [exact I| |cbn [below]; parts]. nodup.
Qed.
Definition svc_paths (topic : string) (hist : bool) (p : string) : bool :=
  allowsb p ["Name"; topic; "UseTraceSinks"] && (if hist then allowsb p ["History"] else true) && label_paths p && replay_paths p
  && negb (existsb (String.eqb topic) ["Name"; "Labels"; "History"; "UseTraceSinks"; "Replay"]).
Lemma clean_svc : forall topic hist p s, svc_paths topic hist p = true -> clean p None (w_svc topic hist s).
Proof.
  intros topic hist p s H. unfold svc_paths in H. apply andb_true_iff in H as [H T]. apply andb_true_iff in H as [H R]. apply andb_true_iff in H as [H L]. apply andb_true_iff in H as [H K].
  apply allows_b in H. apply negb_true_iff in T.
  assert (N : ~ In topic ["Name"; "Labels"; "History"; "UseTraceSinks"; "Replay"]).
  { intros J. assert (existsb (String.eqb topic) ["Name"; "Labels"; "History"; "UseTraceSinks"; "Replay"] = true); [|congruence]. apply existsb_exists. exists topic. split; [exact J|apply String.eqb_refl]. }
  assert (P : part p (["Name"] ++ [topic] ++ ["Labels"] ++ ["History"] ++ ["UseTraceSinks"] ++ ["Replay"])
                (kv "Name" (plain (sv_name s)) ++ w_opt plain (sv_topic s) topic ++ w_opt (w_vec w_label) (sv_labels s) "Labels"
        ++ (if hist then w_opt write_int (sv_history s) "History" else []) ++ w_texts (sv_sinks s) "UseTraceSinks" ++ w_replay_opt (sv_replay s) "Replay")).
  { apply part_app; [one; leaf|]. apply part_app; [one; leaf|]. apply part_app; [one; now apply clean_labels|].
    apply part_app; [destruct hist; [one; apply allows_b in K; apply clean_val; al|apply part_nil]|]. apply part_app; [one; leaf|].
    apply part_replay. intros r. now apply clean_replay. }
  unfold w_svc. eapply clean_map; [exact I| |exact P]. cbn [app].
  constructor; [cbn in *; intuition (try discriminate); subst; tauto|]. constructor; [cbn in *; intuition (try discriminate)|]. nodup.
Qed.
Lemma clean_logging : forall l, clean "/" (Some "Logging") (w_logging l).
Proof.
  intros l. assert (A : allows "/Logging" ["LogFromRemotes"; "FlushLevel"; "Sinks"]) by (apply allows_b; vc). assert (B : allows "/Logging/Sinks" ["Type"; "Level"; "LogName"]) by (apply allows_b; vc).
  unfold w_logging. eapply clean_map; [vc| |change (below "/" (Some "Logging")) with "/Logging"; parts]; [nodup|].
  apply clean_vec; [al|]. intros s _. change (make_path "/Logging" "Sinks") with "/Logging/Sinks". unfold w_sink. eapply clean_map; [exact I| |cbn [below]; parts]. nodup.
Qed.
Lemma clean_health : forall h, clean "/" (Some "HealthCheck") (w_health h).
Proof.
  intros h. assert (A : allows "/HealthCheck" ["SoftResponseTimeout"; "HardResponseTimeout"]) by (apply allows_b; vc).
  unfold w_health. eapply clean_map; [vc| |change (below "/" (Some "HealthCheck")) with "/HealthCheck"; parts]. nodup.
Qed.
Lemma clean_tracing : forall t, clean "/" (Some "Tracing") (w_tracing t).
Proof.
  intros t. assert (A : allows "/Tracing" ["TraceSinks"; "TraceSources"]) by (apply allows_b; vc).
  assert (B : allows "/Tracing/TraceSinks" ["Name"; "Type"; "OutputPath"]) by (apply allows_b; vc). assert (C : allows "/Tracing/TraceSources" ["Name"; "Type"; "InputPath"]) by (apply allows_b; vc).
  unfold w_tracing. eapply clean_map; [vc| |change (below "/" (Some "Tracing")) with "/Tracing"; parts]; [nodup| |].
  - apply clean_vec; [al|]. intros s _. change (make_path "/Tracing" "TraceSinks") with "/Tracing/TraceSinks". unfold w_tsink. eapply clean_map; [exact I| |cbn [below]; parts]. nodup.
  - apply clean_vec; [al|]. intros s _. change (make_path "/Tracing" "TraceSources") with "/Tracing/TraceSources". unfold w_tsource. eapply clean_map; [exact I| |cbn [below]; parts]. nodup.
Qed.
Lemma clean_ext : forall e, clean "/" (Some "Extensions") (w_ext e).
Proof.
  intros e. assert (A : allows "/Extensions" ["SearchPathHints"]) by (apply allows_b; vc).
  unfold w_ext. eapply clean_map; [vc| |change (below "/" (Some "Extensions")) with "/Extensions"; parts]. nodup.
Qed.
Lemma clean_includes : forall i, clean "/" (Some "Includes") (w_includes i).
Proof.
  intros i. assert (A : allows "/Includes" ["Files"; "SearchPathHints"]) by (apply allows_b; vc).
  unfold w_includes, w_texts. eapply clean_map; [vc| |change (below "/" (Some "Includes")) with "/Includes"; parts]. nodup.
Qed.
Lemma clean_middleware : forall D m, clean "/" (Some "Middleware") (w_middleware D m).
Proof.
  intros D m. assert (A : allows "/Middleware" ["RegistryUri"; "ConnectAttempts"; "TcpNoDelay"; "TcpQuickAck"; "TcpReceiveBufferSize"; "TcpSendBufferSize"; "EnableDomainSockets"; "AcceptorUris";
    "RegistryAsFallbackProxy"; "ExperimentalRemoteParticipantConnection"; "ConnectTimeoutSeconds"]) by (apply allows_b; vc).
  unfold w_middleware. cbv zeta. eapply clean_map; [vc| |change (below "/" (Some "Middleware")) with "/Middleware"; parts]. nodup.
Qed.
Lemma clean_experimental : forall D e, clean "/" (Some "Experimental") (w_experimental D e).
Proof.
  intros D e. assert (A : allows "/Experimental" ["TimeSynchronization"; "Metrics"]) by (apply allows_b; vc).
  assert (B : allows "/Experimental/TimeSynchronization" ["AnimationFactor"; "EnableMessageAggregation"; "DynamicSimulationStep"]) by (apply allows_b; vc).
  assert (C : allows "/Experimental/Metrics" ["Sinks"; "CollectFromRemote"; "UpdateInterval"]) by (apply allows_b; vc).
  assert (E : allows "/Experimental/Metrics/Sinks" ["Type"; "Name"]) by (apply allows_b; vc).
  unfold w_experimental. eapply clean_map; [vc| |change (below "/" (Some "Experimental")) with "/Experimental"; parts]; [nodup| |].
  - unfold w_timesync. eapply clean_map; [al| |change (below "/Experimental" (Some "TimeSynchronization")) with "/Experimental/TimeSynchronization"; parts]. nodup.
  - unfold w_metrics. eapply clean_map; [al| |change (below "/Experimental" (Some "Metrics")) with "/Experimental/Metrics"; parts]; [nodup|].
    apply clean_vec; [al|]. intros s _. change (make_path "/Experimental/Metrics" "Sinks") with "/Experimental/Metrics/Sinks". unfold w_msink. eapply clean_map; [exact I| |cbn [below]; parts]. nodup.
Qed.
Lemma clean_serialize : forall D c, clean "/" None (serialize D c).
Proof.
  intros D c. assert (A : allows "/" ["SchemaVersion"; "Description"; "ParticipantName"; "CanControllers"; "LinControllers"; "EthernetControllers"; "FlexrayControllers";
    "DataPublishers"; "DataSubscribers"; "RpcServers"; "RpcClients"]) by (apply allows_b; vc).
  unfold serialize, w_pcfg. eapply clean_map; [exact I| |cbn [below]; parts].
  all: lazymatch goal with
    | |- NoDup _ => nodup
    | |- clean _ _ (w_logging _) => apply clean_logging
    | |- clean _ _ (w_health _) => apply clean_health
    | |- clean _ _ (w_tracing _) => apply clean_tracing
    | |- clean _ _ (w_ext _) => apply clean_ext
    | |- clean _ _ (w_middleware _ _) => apply clean_middleware
    | |- clean _ _ (w_includes _) => apply clean_includes
    | |- clean _ _ (w_experimental _ _) => apply clean_experimental
    | |- clean _ _ (w_vec w_ctrl _) => apply clean_vec; [al|intros a _; apply clean_ctrl; vc]
    | |- clean _ _ (w_vec w_flexray _) => apply clean_vec; [al|intros a _; apply clean_flexray; vc]
    | |- clean _ _ (w_vec _ _) => apply clean_vec; [al|intros a _; apply clean_svc; vc]
    end.
Qed.
