From Coq Require Import String Ascii NArith ZArith List Bool Lia.
From Verif Require Import Base TextModel TextProofs UriProofs YamlModel YamlProofs YamlRound YamlWhole YamlMore YamlCheckModel YamlCheckProofs YamlPrune YamlClean.
Import ListNotations.
Open Scope string_scope.
Open Scope list_scope.
Open Scope Z_scope.

(** * C67: a configuration that is written can be read again *)
(** numbers for the examples: printed in decimal *)
Definition exD : dbl := mkDbl decimal magnitude N.eqb 0 5.
Definition ex_replay := mkReplay (lit "Src") DSend (mkMdf (Some (lit "Chn")) None None None None (Some (lit "G/P"))).
Definition ex_cfg : pcfg :=
  mkPc (lit "1") (lit "Example") [] (lit "P1") [mkCtrl (lit "CAN1") (Some (lit "Net")) [lit "Sink1"] ex_replay] [mkCtrl (lit "LIN1") None [] replay0] []
    [mkFr (mkCtrl (lit "FR1") None [] replay0) None None [[VChan ChA; VInt 3; VInt 0; VInt 1; VBool true; VInt 0; VMode Continuous]]]
    [mkSvc (lit "Pub") (Some (lit "T")) (Some [mkLabel (lit "k") (lit "v") LkMandatory]) (Some 1) [] replay0] [] [mkSvc (lit "Srv") (Some (lit "Fn")) None None [] ex_replay]
    [mkSvc (lit "Cli") (Some (lit "Fn")) None None [] replay0]
    (mkLog true LWarn [mkSink FSimple SStdout LTrace [] [] []; mkSink FJson SFile LDebug (lit "log") [] []]) (mkHealth (Some 500) None)
    (mkTracing [mkTsink TkPcapFile (lit "Sink1") (lit "o.pcap")] []) [lit "hint"] (mkInc [] [lit "a.yaml"])
    (mkMw (lit "silkit://localhost:1234") 7 (-1) 4096 false true false [lit "tcp://0.0.0.0:0"] false true 12) (mkExp (mkTs 2 AAuto (Some true)) (mkMetrics [mkMs MJsonFile (lit "m")] (Some true) 3)).
Ltac holds_tac := unfold holds; cbn; lia.
Lemma ex_dbl : forall v, dbl_ok exD v.
Proof. intros v. split; [apply magnitude_decimal|apply decimal_nonempty]. Qed.
Lemma ex_wf : wf exD ex_cfg.
Proof.
  constructor; cbn; repeat constructor; try exact I; try holds_tac; try (apply ex_dbl); try (apply decimal_nonempty).
Qed.
Lemma ex_sinks : sinks_ok ex_cfg.
Proof. repeat constructor; cbn; discriminate. Qed.

(** What is read after writing is the configuration without what is not written ([kept]: the format and the topics of log sinks, the log name of
    sinks that are not files, replays without a source, metrics without sinks and CollectFromRemote, numbers that compare equal to the default). *)
Theorem C67_written_reads_back : forall D c, wf D c -> sinks_ok c -> deserialize D (serialize D c) = Ok (kept D c).
Proof. exact deserialize_serialize. Qed.
Print Assumptions C67_written_reads_back.
Example C67_written_reads_back_ex : wf exD ex_cfg /\ sinks_ok ex_cfg /\ deserialize exD (serialize exD ex_cfg) = Ok ex_cfg.
Proof. split; [exact ex_wf|]. split; [exact ex_sinks|]. vm_compute. reflexivity. Qed.
(** Nothing is lost exactly for the configurations that have none of these. *)
Theorem C67_exact_iff_lossless : forall D c, wf D c -> sinks_ok c -> (deserialize D (serialize D c) = Ok c <-> lossless D c).
Proof. intros D c W S. rewrite deserialize_serialize by assumption. rewrite <- kept_fix. split; [intros H; now injection H|congruence]. Qed.
Print Assumptions C67_exact_iff_lossless.
Example C67_exact_iff_lossless_ex : lossless exD ex_cfg.
Proof. apply (C67_exact_iff_lossless exD ex_cfg ex_wf ex_sinks). vm_compute. reflexivity. Qed.
(** Writing and reading again changes nothing more. *)
Theorem C67_second_trip_stable : forall D c c', dbl_ok D (d_zero D) -> dbl_ok D (d_five D) -> wf D c ->
  deserialize D (serialize D c) = Ok c' -> deserialize D (serialize D c') = Ok c'.
Proof.
  intros D c c' Z0 F0 W H. assert (S : sinks_ok c).
  { unfold sinks_ok. apply Forall_forall. intros s I. destruct (sink_dec s) as [S|[S1 S2]]; [exact S|]. exfalso.
    rewrite deserialize_nameless in H; [discriminate|exact W|]. intros F. unfold sinks_ok in F. rewrite Forall_forall in F. now apply (F s I S1). }
  rewrite deserialize_serialize in H by assumption. injection H as <-. rewrite deserialize_serialize; [now rewrite kept_idem|now apply kept_wf|now apply kept_sinks_ok].
Qed.
Print Assumptions C67_second_trip_stable.
Example C67_second_trip_stable_ex : exists c', deserialize exD (serialize exD (mkPc [] [] (lit "f.yaml") (lit "P") [] [] [] [] [] [] [] []
    (mkLog false LOff [mkSink FSimple SFile LInfo (lit "x") [1%N] []]) health0 tracing0 [] includes0 (middleware0 exD) (experimental0 exD))) = Ok c'
  /\ c' <> pcfg0 exD /\ deserialize exD (serialize exD c') = Ok c'.
Proof. eexists. split; [vm_compute; reflexivity|]. split; [discriminate|]. vm_compute. reflexivity. Qed.
(** The only configurations that cannot be read again are those with a log file without a name. *)
Theorem C67_unreadable_iff_nameless_file : forall D c, wf D c ->
  (deserialize D (serialize D c) = Exn <-> exists s, In s (lg_sinks (p_logging c)) /\ s_type s = SFile /\ s_log s = []).
Proof.
  intros D c W. split.
  - intros H. assert (N : ~ sinks_ok c) by (intros S; rewrite deserialize_serialize in H by assumption; discriminate).
    unfold sinks_ok in N. induction (lg_sinks (p_logging c)) as [|s l IH]; [elim N; constructor|]. destruct (sink_dec s) as [S|[S1 S2]]; [|exists s; cbn; auto].
    destruct IH as (s' & I & S'); [|exists s'; cbn; auto]. intros F. apply N. now constructor.
  - intros (s & I & S1 & S2). apply deserialize_nameless; [exact W|]. intros F. unfold sinks_ok in F. rewrite Forall_forall in F. now apply (F s I S1).
Qed.
Print Assumptions C67_unreadable_iff_nameless_file.
Definition nameless : pcfg := mkPc (lit "1") [] [] [] [] [] [] [] [] [] [] [] (mkLog false LOff [mkSink FJson SFile LInfo [] [] []]) health0 tracing0 [] includes0 (middleware0 exD) (experimental0 exD).
(** Such a configuration can be loaded: the name is given, but empty. *)
Theorem C67_loaded_is_readable_again_refuted : exists n c, load exD n = Ok c /\ load exD (serialize exD c) = Exn.
Proof.
  exists (NMap [("SchemaVersion", plain (lit "1")); ("Logging", NMap [("Sinks", NSeq [NMap [("Type", plain (lit "File")); ("LogName", NVal true [])]])])]), nameless.
  split; [vm_compute; reflexivity|vm_compute; reflexivity].
Qed.
Print Assumptions C67_loaded_is_readable_again_refuted.
(** A log file in the simple format becomes one in the Json format. *)
Theorem C67_format_survives_refuted : exists n c c', load exD n = Ok c /\ load exD (serialize exD c) = Ok c' /\
  map s_format (lg_sinks (p_logging c)) = [FSimple] /\ map s_format (lg_sinks (p_logging c')) = [FJson].
Proof.
  eexists (NMap [("Logging", NMap [("Sinks", NSeq [NMap [("Type", plain (lit "File")); ("LogName", plain (lit "x")); ("Format", plain (lit "Simple"))]])])]), _, _.
  split; [vm_compute; reflexivity|]. split; [vm_compute; reflexivity|]. split; reflexivity.
Qed.
Print Assumptions C67_format_survives_refuted.
(** Enabled and disabled topics are lost. *)
Theorem C67_topics_survive_refuted : exists n c c', load exD n = Ok c /\ load exD (serialize exD c) = Ok c' /\
  map s_disabled (lg_sinks (p_logging c)) = [[12%N]] /\ map s_disabled (lg_sinks (p_logging c')) = [[]].
Proof.
  eexists (NMap [("Logging", NMap [("Sinks", NSeq [NMap [("Type", plain (lit "Stdout")); ("Experimental", NMap [("DisabledTopics", NSeq [plain (lit "Can")])])]])])]), _, _.
  split; [vm_compute; reflexivity|]. split; [vm_compute; reflexivity|]. split; reflexivity.
Qed.
Print Assumptions C67_topics_survive_refuted.
(** The update interval of the metrics is lost if nothing else is set. *)
Theorem C67_interval_survives_refuted : exists n c c', load exD n = Ok c /\ load exD (serialize exD c) = Ok c' /\
  me_interval (ex_metrics (p_exp c)) = 30 /\ me_interval (ex_metrics (p_exp c')) = 1.
Proof.
  eexists (NMap [("Experimental", NMap [("Metrics", NMap [("UpdateInterval", plain (lit "30"))])])]), _, _.
  split; [vm_compute; reflexivity|]. split; [vm_compute; reflexivity|]. split; reflexivity.
Qed.
Print Assumptions C67_interval_survives_refuted.
(** The registry's configuration. *)
Theorem C67_registry_written_reads_back : forall c n, Forall sink_ok (lg_sinks (rc_logging c)) -> lg_remote (rc_logging c) = false ->
  Forall (fun s => s_type s <> SRemote) (lg_sinks (rc_logging c)) -> w_rcfg c = Ok n -> r_rcfg n rcfg0 = Ok (kept_rcfg c).
Proof. exact r_rcfg_w. Qed.
Print Assumptions C67_registry_written_reads_back.
Definition ex_rcfg : rcfg := mkRc (lit "d") (lit "1") (Some (lit "silkit://0.0.0.0:8500")) (Some false) None (mkLog false LInfo [mkSink FSimple SStdout LWarn [] [] []]) metrics0.
Example C67_registry_written_reads_back_ex : exists n, w_rcfg ex_rcfg = Ok n /\ r_rcfg n rcfg0 = Ok ex_rcfg.
Proof. eexists. split; [vm_compute; reflexivity|]. vm_compute. reflexivity. Qed.
(** With metrics it cannot be written at all. *)
Theorem C67_registry_written_iff_no_metrics : forall c,
  ((exists n, w_rcfg c = Ok n) <-> me_sinks (rc_metrics c) = [] /\ me_collect (rc_metrics c) = None) /\
  (w_rcfg c = Exn <-> ~ (me_sinks (rc_metrics c) = [] /\ me_collect (rc_metrics c) = None)).
Proof.
  intros c. split; [symmetry; apply w_rcfg_ok|]. split; [|apply w_rcfg_exn]. intros H N. apply w_rcfg_ok in N as [n N]. congruence.
Qed.
Print Assumptions C67_registry_written_iff_no_metrics.
Theorem C67_registry_configuration_can_be_written_refuted : exists n c, r_rcfg n rcfg0 = Ok c /\ w_rcfg c = Exn.
Proof.
  eexists (NMap [("Experimental", NMap [("Metrics", NMap [("Sinks", NSeq [NMap [("Type", plain (lit "JsonFile")); ("Name", plain (lit "m"))]])])])]), _.
  split; [vm_compute; reflexivity|vm_compute; reflexivity].
Qed.
Print Assumptions C67_registry_configuration_can_be_written_refuted.
(** A map in place of a text is read as the empty text. *)
Theorem C67_wrong_kind_rejected_refuted : exists n c, load exD n = Ok c /\ n = NMap [("ParticipantName", NMap [])] /\ p_name c = [].
Proof. eexists (NMap [("ParticipantName", NMap [])]), _. split; [vm_compute; reflexivity|]. split; reflexivity. Qed.
Print Assumptions C67_wrong_kind_rejected_refuted.

(** * C68: the check against the known elements *)
Definition scalar (n : node) : Prop := match n with NMap _ | NSeq _ => False | _ => True end.
(** the name after the last slash is that of some known element *)
Definition reserved_name (path : string) : Prop := exists s, In s schema /\ In (element_name path) (split s).
(** A document is accepted exactly if no known name stands where it is not known, no list holds a value where none is known, and no map has a key twice. *)
Theorem C68_accepted_iff : forall root, fst (validate root) = true <->
  scalar root \/
  ((forall ks k m, place root ks (Some k) m -> In (pathname (ks ++ [k])) schema \/ ~ reserved_name (pathname (ks ++ [k]))) /\
   (forall ks m, place root ks None m -> scalar m -> In (pathname ks) schema) /\
   (forall ks key l, place root ks key (NMap l) -> NoDup (map fst l))).
Proof.
  intros root. assert (V : ~ scalar root -> fst (validate root) = no_error (report "/" None root)).
  { intros H. destruct root; cbn in H; try now elim H. all: unfold validate; rewrite visit_root; reflexivity. }
  assert (SC : scalar root \/ ~ scalar root) by (destruct root; cbn; tauto). destruct SC as [SC|SC].
  { split; [now left|]. intros _. destruct root; cbn in SC; try contradiction; reflexivity. }
  rewrite V by exact SC. rewrite no_error_iff. split.
  - intros H. right. split; [|split].
    + intros ks k m P. destruct (is_schema_path (pathname (ks ++ [k]))) eqn:E; [left; now apply schema_path_iff|]. right. intros R. apply reserved_iff in R.
      assert (W : In (WNotValid, k, pathname ks) (report "/" None root)).
      { apply report_iff. exists ks, (Some k), m. split; [exact P|]. cbn [here]. rewrite make_path_snoc, E, R. now left. }
      apply H in W. discriminate.
    + intros ks m P S. apply schema_path_iff. destruct (is_schema_path (pathname ks)) eqn:E; [reflexivity|].
      assert (W : In (WValue, "", pathname ks) (report "/" None root)).
      { apply report_iff. exists ks, None, m. split; [exact P|]. destruct m; cbn in S; try contradiction; cbn [here]; rewrite E; now left. }
      apply H in W. discriminate.
    + intros ks key l P. apply no_dups. destruct (dups [] (map fst l)) as [|d r] eqn:E; [reflexivity|].
      assert (W : In (WDuplicate, d, pathname ks) (report "/" None root)).
      { apply report_iff. exists ks, key, (NMap l). split; [exact P|]. apply in_or_app. right. cbn [dup_warnings]. rewrite E. now left. }
      apply H in W. discriminate.
  - intros [S|(H1 & H2 & H3)]; [contradiction|]. intros w I. apply report_iff in I as (ks & key & n & P & I). apply in_app_or in I as [I|I].
    + destruct key as [k|]; cbn [here] in I.
      * rewrite make_path_snoc in I. destruct (is_schema_path (pathname (ks ++ [k]))) eqn:E; [destruct I|]. destruct (is_reserved (pathname (ks ++ [k]))) eqn:R.
        -- destruct (H1 _ _ _ P) as [J|J]; [apply schema_path_iff in J; congruence|]. elim J. now apply reserved_iff.
        -- destruct I as [<-|[]]. reflexivity.
      * assert (S : scalar n \/ ~ scalar n) by (destruct n; cbn; tauto). destruct S as [S|S].
        -- specialize (H2 _ _ P S). apply schema_path_iff in H2. destruct n; cbn in S; try contradiction; rewrite H2 in I; destruct I.
        -- destruct n; cbn in S; try tauto; destruct I.
    + destruct n; cbn [dup_warnings] in I; try now elim I. specialize (H3 _ _ _ P). apply no_dups in H3. rewrite H3 in I. destruct I.
Qed.
Print Assumptions C68_accepted_iff.
Definition ex_doc : node := NMap [("ParticipantName", plain (lit "P")); ("CanControllers", NSeq [NMap [("Name", plain (lit "CAN1")); ("Comment", plain (lit "x"))]]); ("Middleware", NMap [("Network", NNull)])].
Example C68_accepted_iff_ex : validate ex_doc = (false, [(WIgnored, "Comment", "/CanControllers"); (WNotValid, "Network", "/Middleware")]).
Proof. vm_compute. reflexivity. Qed.
(** The ignored elements are reported, and only those; a document is refused exactly if something else is reported. *)
Theorem C68_ignored_reported : forall root k p, In (WIgnored, k, p) (snd (validate root)) <->
  exists ks m, place root ks (Some k) m /\ p = pathname ks /\ ~ In (pathname (ks ++ [k])) schema /\ ~ reserved_name (pathname (ks ++ [k])).
Proof.
  intros root k p. assert (SC : scalar root \/ ~ scalar root) by (destruct root; cbn; tauto). destruct SC as [SC|SC].
  { replace (snd (validate root)) with (@nil warning) by (destruct root; cbn in SC; try contradiction; reflexivity). split; [intros []|].
    intros (ks & m & P & _). assert (G : forall ks key n, place root ks key n -> key = None /\ scalar n).
    { intros ks' key n Q. induction Q as [|? ? ? ? ? ? [_ IH]|? ? ? ? ? [_ IH]]; [auto|destruct IH|destruct IH]. }
    apply G in P as [P _]. discriminate. }
  replace (snd (validate root)) with (report "/" None root) by (destruct root; cbn in SC; try tauto; unfold validate; rewrite visit_root; reflexivity).
  rewrite report_iff. split.
  - intros (ks & key & n & P & I). apply in_app_or in I as [I|I].
    + destruct key as [k'|]; cbn [here] in I.
      * rewrite make_path_snoc in I. destruct (is_schema_path (pathname (ks ++ [k']))) eqn:E; [destruct I|]. destruct (is_reserved (pathname (ks ++ [k']))) eqn:R; destruct I as [I|[]]; [discriminate|].
        injection I as <- <-. exists ks, n. repeat split; [exact P|intros J; apply schema_path_iff in J; congruence|intros J; apply reserved_iff in J; congruence].
      * destruct n; cbn [In] in I; try contradiction; destruct (is_schema_path _) in I; cbn [In] in I; try contradiction; destruct I as [I|[]]; discriminate.
    + destruct n; try now elim I. cbn [dup_warnings] in I. apply in_map_iff in I as (? & I & _). discriminate.
  - intros (ks & m & P & -> & N & R). exists ks, (Some k), m. split; [exact P|]. apply in_or_app. left. cbn [here]. rewrite make_path_snoc.
    destruct (is_schema_path (pathname (ks ++ [k]))) eqn:E; [elim N; now apply schema_path_iff|]. destruct (is_reserved (pathname (ks ++ [k]))) eqn:F; [elim R; now apply reserved_iff|]. now left.
Qed.
Print Assumptions C68_ignored_reported.
Theorem C68_refused_iff_error_reported : forall root, fst (validate root) = false <-> exists w, In w (snd (validate root)) /\ fst (fst w) <> WIgnored.
Proof.
  intros root. assert (E : fst (validate root) = no_error (snd (validate root))) by (destruct root; try reflexivity; unfold validate; rewrite visit_root; reflexivity).
  rewrite E. clear E. generalize (snd (validate root)). intros ws. induction ws as [|w ws IH]; cbn.
  - split; [discriminate|intros (w & [] & _)].
  - rewrite andb_false_iff, IH. unfold is_error. destruct w as [[[] a] b]; cbn; split; try (intros; eexists; split; [left; reflexivity|discriminate]); auto.
    + intros [H|(w & I & H)]; [discriminate|eauto].
    + intros (w & [<-|I] & H); [now elim H|right; eauto].
Qed.
Print Assumptions C68_refused_iff_error_reported.
Example C68_ignored_reported_ex : In (WIgnored, "Comment", "/CanControllers") (snd (validate ex_doc)) /\ fst (validate ex_doc) = false.
Proof. split; vm_compute; auto. Qed.
(** The visitor ends where it began and never takes the last of an empty stack. *)
Theorem C68_visitor_balanced : forall root, let s := visit None root v_init in v_cur s = "/" /\ v_paths s = ["/"] /\ v_ub s = false.
Proof. intros root. cbv zeta. rewrite visit_root. auto. Qed.
Print Assumptions C68_visitor_balanced.
(** Elements that are not known have no effect on the configuration that is read. *)
Theorem C68_unknown_has_no_effect : forall D n, deserialize D (prune "/" n) = deserialize D n.
Proof. exact deserialize_prune. Qed.
Print Assumptions C68_unknown_has_no_effect.
Example C68_unknown_has_no_effect_ex : prune "/" ex_doc <> ex_doc /\
  prune "/" ex_doc = NMap [("ParticipantName", plain (lit "P")); ("CanControllers", NSeq [NMap [("Name", plain (lit "CAN1"))]]); ("Middleware", NMap [])] /\
  match deserialize exD ex_doc with Ok c => map ct_name (p_can c) = [lit "CAN1"] | _ => False end.
Proof. split; [discriminate|]. split; vm_compute; reflexivity. Qed.
(** What [prune] leaves away are exactly the elements at paths that are not known. *)
Theorem C68_pruned_is_known : forall n ks k m, place (prune "/" n) ks (Some k) m -> In (pathname (ks ++ [k])) schema.
Proof.
  intros n. assert (G : forall ks key m, place (prune "/" n) ks key m -> (exists m', m = prune (pathname (ks ++ match key with Some x => [x] | None => [] end)) m') /\
    match key with Some k => In (pathname (ks ++ [k])) schema | None => True end).
  { intros ks key m P. induction P as [|ks key l k m P [[m' E] IH] I|ks key l m P [[m' E] IH] I].
    - split; [exists n; reflexivity|exact Logic.I].
    - destruct m' as [| | |l']; try discriminate. cbn [prune] in E. injection E as ->. apply in_flat_map in I as ([k' c] & _ & I). cbn [fst snd] in I.
      destruct (is_schema_path (make_path _ k')) eqn:S in I; [|destruct I]. destruct I as [I|[]]. injection I as -> <-. rewrite make_path_snoc in *. split; [now exists c|now apply schema_path_iff].
    - destruct m' as [| |l'|]; try discriminate. cbn [prune] in E. injection E as ->. apply in_map_iff in I as (c & <- & _). rewrite app_nil_r. split; [now exists c|exact Logic.I]. }
  intros ks k m P. now apply G in P as [_ P].
Qed.
Print Assumptions C68_pruned_is_known.
(** What is written is accepted without any report. *)
Theorem C68_written_is_accepted : forall D c, validate (serialize D c) = (true, []).
Proof. intros D c. pose proof (clean_serialize D c) as H. unfold clean in H. unfold validate. change (serialize D c) with (w_pcfg D c) in *. unfold w_pcfg at 1. rewrite visit_root, H. reflexivity. Qed.
Print Assumptions C68_written_is_accepted.
Theorem C68_written_loads : forall D c, wf D c -> sinks_ok c -> load D (serialize D c) = Ok (kept D c).
Proof. intros D c W S. unfold load. rewrite C68_written_is_accepted. now apply deserialize_serialize. Qed.
Print Assumptions C68_written_loads.
Example C68_written_is_accepted_ex : validate (serialize exD ex_cfg) = (true, []) /\ load exD (serialize exD ex_cfg) = Ok ex_cfg.
Proof. split; vm_compute; reflexivity. Qed.
(** An unknown element is not always ignored: a list of values under it is an error. *)
Theorem C68_unknown_is_ignored_refuted : exists k, In k ["Comment"] /\ ~ reserved_name (pathname [k]) /\
  fst (validate (NMap [(k, plain (lit "1"))])) = true /\ fst (validate (NMap [(k, NSeq [plain (lit "1")])])) = false.
Proof.
  exists "Comment". split; [now left|]. split; [|split; vm_compute; reflexivity]. intros H. apply reserved_iff in H. vm_compute in H. discriminate.
Qed.
Print Assumptions C68_unknown_is_ignored_refuted.
(** A key with a slash is taken for a path: it is neither reported nor read. *)
Theorem C68_unread_is_reported_refuted : exists n, validate n = (true, []) /\ deserialize exD n = deserialize exD (NMap []) /\ n = NMap [("Middleware/RegistryUri", plain (lit "silkit://a"))].
Proof. exists (NMap [("Middleware/RegistryUri", plain (lit "silkit://a"))]). split; [vm_compute; reflexivity|]. split; [vm_compute; reflexivity|reflexivity]. Qed.
Print Assumptions C68_unread_is_reported_refuted.
(** A key that is there twice is reported for the map around the one it is in. *)
Theorem C68_duplicate_path_refuted : exists n, n = NMap [("Logging", NMap [("FlushLevel", NNull); ("FlushLevel", NNull)])] /\ snd (validate n) = [(WDuplicate, "FlushLevel", "/")].
Proof. exists (NMap [("Logging", NMap [("FlushLevel", NNull); ("FlushLevel", NNull)])]). split; [reflexivity|]. vm_compute. reflexivity. Qed.
Print Assumptions C68_duplicate_path_refuted.

(** * C69: labels on the wire *)
(** Labels can be written exactly if all kinds are Optional (1) or Mandatory (2), and are then read as they were. *)
Theorem C69_labels_arrive : forall l, Forall (fun x => ml_kind x = 1 \/ ml_kind x = 2) l -> exists n, w_mlabels l = Ok n /\ r_mlabels n = Ok l.
Proof. intros l H. destruct (w_mlabels_ok l H) as [n E]. exists n. split; [exact E|now apply r_mlabels_w]. Qed.
Print Assumptions C69_labels_arrive.
Example C69_labels_arrive_ex : exists n, w_mlabels [mkMl (lit "k") (lit "v") 2; mkMl (lit "k2") [] 1] = Ok n /\ r_mlabels n = Ok [mkMl (lit "k") (lit "v") 2; mkMl (lit "k2") [] 1].
Proof. eexists. split; [vm_compute; reflexivity|vm_compute; reflexivity]. Qed.
Theorem C69_other_kinds_not_sent : forall l, ~ Forall (fun x => ml_kind x = 1 \/ ml_kind x = 2) l -> w_mlabels l = Exn.
Proof. exact w_mlabels_exn. Qed.
Print Assumptions C69_other_kinds_not_sent.
Example C69_other_kinds_not_sent_ex : w_mlabels [mkMl (lit "k") (lit "v") 2; mkMl (lit "k") (lit "v") 0] = Exn.
Proof. reflexivity. Qed.
(** Labels of the configuration and those of the API are the same. *)
Theorem C69_configured_labels_convert : forall l, from_public (to_public l) = Ok l /\ (ml_kind (to_public l) = 1 \/ ml_kind (to_public l) = 2).
Proof. intros [k v []]; cbn; auto. Qed.
Print Assumptions C69_configured_labels_convert.
Theorem C69_api_labels_convert : forall l, match from_public l with Ok c => to_public c = l | Exn => ml_kind l <> 1 /\ ml_kind l <> 2 | UB => False end.
Proof. intros [k v d]. unfold from_public. cbn. destruct (d =? 2) eqn:E; [apply Z.eqb_eq in E; now subst|]. destruct (d =? 1) eqn:F; [apply Z.eqb_eq in F; now subst|]. lia. Qed.
Print Assumptions C69_api_labels_convert.
Example C69_convert_ex : from_public (mkMl (lit "k") (lit "v") 2) = Ok (mkLabel (lit "k") (lit "v") LkMandatory) /\ from_public (mkMl [] [] 3) = Exn.
Proof. split; reflexivity. Qed.
(** A peer's label of any other kind is refused, unless the number wraps. *)
Theorem C69_received_kinds : forall z, 0 <= z -> forall k v,
  r_mlabels (NSeq [NMap [("key", plain k); ("value", plain v); ("kind", write_int z)]]) =
  if (z mod 2 ^ 32 =? 1) || (z mod 2 ^ 32 =? 2) then Ok [mkMl k v (z mod 2 ^ 32)] else Exn.
Proof.
  intros z H k v. unfold r_mlabels, r_vec. cbn [mapM]. unfold r_mlabel. cbn [ml_key ml_value ml_kind].
  rewrite (opt_read_slot _ _ _ _ _ k) by reflexivity. cbn [bind]. unfold opt_read at 1. cbn [child bind lookup]. change (String.eqb "kind" "key") with false. change (String.eqb "kind" "value") with false.
  change (String.eqb "kind" "kind") with true. cbn [bind]. unfold r_mkind. rewrite read_int_any. cbn [signed bits]. replace (z <? 0) with false by lia. cbn [bind].
  destruct (z mod 2 ^ 32 =? 2) eqn:E2.
  - cbn [bind]. rewrite (opt_read_slot _ _ _ _ _ v) by reflexivity. cbn [bind app]. replace (z mod 2 ^ 32 =? 1) with false by lia. cbn [orb]. apply Z.eqb_eq in E2. now rewrite E2.
  - destruct (z mod 2 ^ 32 =? 1) eqn:E1; [|reflexivity]. cbn [bind]. rewrite (opt_read_slot _ _ _ _ _ v) by reflexivity. cbn [bind app orb]. apply Z.eqb_eq in E1. now rewrite E1.
Qed.
Print Assumptions C69_received_kinds.
Theorem C69_unknown_kind_refused_refuted : exists n l, r_mlabels n = Ok l /\ n = NSeq [NMap [("key", plain (lit "k")); ("value", plain (lit "v")); ("kind", write_int 4294967298)]] /\ l = [mkMl (lit "k") (lit "v") 2].
Proof. eexists (NSeq [NMap [("key", plain (lit "k")); ("value", plain (lit "v")); ("kind", write_int 4294967298)]]), _. split; [vm_compute; reflexivity|]. split; reflexivity. Qed.
Print Assumptions C69_unknown_kind_refused_refuted.

(** ** Quoted numbers are refused, except if they begin with 0 or are bytes *)
Theorem C70_quoted_numbers : forall t s, t <> U8 -> hd 0%N s <> 48%N -> read_int t (NVal true s) = Exn.
Proof. intros t [|c r] T H; [destruct t; reflexivity|]. unfold read_int, arith. cbn [hd] in H. apply N.eqb_neq in H. rewrite H. destruct t; try reflexivity; contradiction. Qed.
Print Assumptions C70_quoted_numbers.
Example quoted_numbers_case : hd 0%N (lit "12") <> 48%N /\ read_int I32 (plain (lit "12")) = Ok 12.
Proof. split; [discriminate|reflexivity]. Qed.
Theorem C70_quoted_numbers_refuted : ~ (forall t s, read_int t (NVal true s) = Exn).
Proof. intros H. specialize (H I32 (lit "0x7")). vm_compute in H. discriminate. Qed.
Print Assumptions C70_quoted_numbers_refuted.

(** * C70: integers in a document *)
(** An integer that is read with a check gives exactly that number if it fits the type, otherwise an exception; the least number of a signed type is an overflow inside the library. *)
Theorem C70_checked_exact : forall t z, read_checked t (write_int z) = if negb (fits t z) then Exn else if signed t && (z =? lo t) then UB else Ok z.
Proof. exact read_checked_any. Qed.
Print Assumptions C70_checked_exact.
Example C70_checked_exact_ex : read_checked I32 (write_int 2147483647) = Ok 2147483647 /\ read_checked I32 (write_int 2147483648) = Exn /\ read_checked U16 (write_int (-1)) = Exn.
Proof. repeat split; vm_compute; reflexivity. Qed.
(** The numbers of the middleware, the health check and the metrics are those in the document, and they fit. *)
Theorem C70_numbers_are_those_in_the_document : forall D l c, deserialize D (NMap l) = Ok c ->
  (forall m, lookup "Middleware" l = Some (NMap m) ->
     (forall z, lookup "ConnectAttempts" m = Some (write_int z) -> mw_attempts (p_middleware c) = z /\ fits I32 z = true) /\
     (forall z, lookup "TcpReceiveBufferSize" m = Some (write_int z) -> mw_rcvbuf (p_middleware c) = z /\ fits I32 z = true) /\
     (forall z, lookup "TcpSendBufferSize" m = Some (write_int z) -> mw_sndbuf (p_middleware c) = z /\ fits I32 z = true)) /\
  (forall m, lookup "HealthCheck" l = Some (NMap m) ->
     (forall z, lookup "SoftResponseTimeout" m = Some (write_int z) -> h_soft (p_health c) = Some z /\ fits I64 z = true) /\
     (forall z, lookup "HardResponseTimeout" m = Some (write_int z) -> h_hard (p_health c) = Some z /\ fits I64 z = true)) /\
  (forall m m', lookup "Experimental" l = Some (NMap m) -> lookup "Metrics" m = Some (NMap m') ->
     forall z, lookup "UpdateInterval" m' = Some (write_int z) -> me_interval (ex_metrics (p_exp c)) = z /\ fits I64 z = true).
Proof. exact numbers_read. Qed.
Print Assumptions C70_numbers_are_those_in_the_document.
Example C70_numbers_are_those_in_the_document_ex :
  (exists c, deserialize exD (NMap [("Middleware", NMap [("ConnectAttempts", write_int 77)])]) = Ok c /\ mw_attempts (p_middleware c) = 77) /\
  deserialize exD (NMap [("Middleware", NMap [("ConnectAttempts", write_int 5000000000)])]) = Exn.
Proof. split; [eexists; split; [vm_compute; reflexivity|vm_compute; reflexivity]|vm_compute; reflexivity]. Qed.
(** An integer that is read without a check wraps if the type is unsigned, and is undefined if it is signed and does not fit. *)
Theorem C70_unchecked_wraps : forall t z, read_int t (write_int z) =
  if signed t then (if hi t <? Z.abs z then UB else Ok z) else if z <? 0 then Exn else Ok (z mod 2 ^ bits t).
Proof. exact read_int_any. Qed.
Print Assumptions C70_unchecked_wraps.
Example C70_unchecked_wraps_ex : read_int U8 (write_int 300) = Ok 44 /\ read_int U64 (write_int 18446744073709551616) = Ok 0 /\ read_int U16 (write_int (-1)) = Exn.
Proof. repeat split; vm_compute; reflexivity. Qed.
(** So a history that is too large is taken for another one, and likewise the parameters of FlexRay. *)
Theorem C70_history_range_refuted : exists n c, load exD n = Ok c /\
  n = NMap [("DataPublishers", NSeq [NMap [("Name", plain (lit "P")); ("History", write_int 18446744073709551617)]])] /\ map sv_history (p_pubs c) = [Some 1].
Proof. eexists (NMap [("DataPublishers", NSeq [NMap [("Name", plain (lit "P")); ("History", write_int 18446744073709551617)]])]), _. split; [vm_compute; reflexivity|]. split; reflexivity. Qed.
Print Assumptions C70_history_range_refuted.
Definition ex_buffer (slot : Z) : node :=
  NMap [("channels", plain (lit "A")); ("slotId", write_int slot); ("offset", plain (lit "0")); ("repetition", plain (lit "1")); ("PPindicator", plain (lit "false")); ("headerCrc", plain (lit "0")); ("transmissionMode", plain (lit "SingleShot"))].
Definition ex_flexray (slot : Z) : node := NMap [("FlexrayControllers", NSeq [NMap [("Name", plain (lit "F")); ("TxBufferConfigurations", NSeq [ex_buffer slot])]])].
Theorem C70_flexray_range_refuted : exists c, load exD (ex_flexray 65546) = Ok c /\ map fr_bufs (p_flexray c) = [[[VChan ChA; VInt 10; VInt 0; VInt 1; VBool false; VInt 0; VMode SingleShot]]].
Proof. eexists. split; [vm_compute; reflexivity|reflexivity]. Qed.
Print Assumptions C70_flexray_range_refuted.
(** A boolean may be undefined as well: it is read as an int. *)
Theorem C70_document_defined_refuted : exists n, load exD n = UB /\ n = NMap [("Logging", NMap [("LogFromRemotes", plain (lit "2147483648"))])].
Proof. exists (NMap [("Logging", NMap [("LogFromRemotes", plain (lit "2147483648"))])]). split; [vm_compute; reflexivity|reflexivity]. Qed.
Print Assumptions C70_document_defined_refuted.
(** The least number of a signed type is written, but reading it is an overflow. *)
Theorem C70_least_number_refuted : exists c, load exD (serialize exD c) = UB /\ fits I32 (mw_attempts (p_middleware c)) = true.
Proof.
  exists (mkPc [] [] [] [] [] [] [] [] [] [] [] [] logging0 health0 tracing0 [] includes0 (mkMw [] (-2147483648) (-1) (-1) true true false [] false true 5) (experimental0 exD)).
  split; [vm_compute; reflexivity|reflexivity].
Qed.
Print Assumptions C70_least_number_refuted.
