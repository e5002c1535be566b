(** C76: Logging *)
From Coq Require Import String Ascii NArith ZArith List Arith Bool Lia Permutation.
From Verif Require Import Base TextModel TextSpec TextProofs YamlModel LoggerModel MetricsText LoggerSpec LoggerProofs LoggerText.
From Verif Require MessageBufferSpec SerdesModel SerdesSpec SerdesFraming.
Import ListNotations.
Open Scope string_scope.
Open Scope N_scope.
Open Scope list_scope.

Definition s_all : sink := mkSink FJson SFile LTrace (lit "all") [] [].
Definition s_some : sink := mkSink FSimple SStdout LInfo [] [6] [].
Definition s_far : sink := mkSink FSimple SRemote LWarn [] [] [].
Definition demo : list sink := [s_all; s_far; s_some].
Definition demo_ops : list op :=
  [Log 5000 2 1 (lit "hi"); Register 7;
   Message 3 7 [SetText (lit "slow"); AddKv (lit "a") (lit "1"); SetKv (lit "a") (lit "2"); Dispatch 9000];
   Message 1 6 [SetText (lit "quiet"); Dispatch 9500]; Log 9900 5 6 (lit "down")].

(** ** Every local sink has exactly the lines it is configured for, in order, each once *)
Theorem C76_sink_lines : forall ord name sinks i s ops,
  (forall l, Permutation l (ord l)) -> nth_error sinks i = Some s -> s_type s <> SRemote -> Forall regular ops ->
  lines i (run (make ord name sinks) ops) = flat_map (lines_of name s) ops.
Proof.
  intros ord name sinks i s ops P I R F. rewrite <- shape_none. apply run_lines; auto. unfold is_remote. destruct (s_type s); auto; contradiction.
Qed.
Print Assumptions C76_sink_lines.
Example sink_lines_case : Forall regular demo_ops /\
  map (fun i => map (fun o => length (o_payload o)) (lines i (run (make (@rev _) (lit "P") demo) demo_ops))) [0; 2]%nat = [[28; 51; 31; 30]; [9; 21]]%nat.
Proof. split; [|vm_compute; reflexivity]. repeat (constructor; cbn; try lia; try tauto). Qed.

(** ** A remote sink gives exactly its messages to the registered handler *)
Theorem C76_remote_messages : forall ord name sinks i s ops,
  (forall l, Permutation l (ord l)) -> nth_error sinks i = Some s -> s_type s = SRemote -> Forall regular ops ->
  sent i (run (make ord name sinks) ops) = sent_of name s None ops.
Proof.
  intros ord name sinks i s ops P I R F. rewrite <- shape_none. apply run_sent; auto. unfold is_remote. now rewrite R.
Qed.
Print Assumptions C76_remote_messages.
Example remote_messages_case : map (fun x => (fst x, lm_level (snd x))) (sent 1 (run (make (@rev _) (lit "P") demo) demo_ops)) = [(7, 3); (7, 5)].
Proof. vm_compute. reflexivity. Qed.

(** ** The level of the logger is the least level of its sinks, at most Critical *)
Theorem C76_log_level : forall ord name sinks, (forall l, Permutation l (ord l)) ->
  let v := get_level (make ord name sinks) in
  v <= 5 /\ (forall s, In s sinks -> v <= num (s_level s)) /\ (v = 5 \/ exists s, In s sinks /\ num (s_level s) = v).
Proof.
  intros ord name sinks P v. destruct (get_level_spec (make ord name sinks)) as (H1 & H2 & H3).
  assert (M : forall s, In s (all_sinks (make ord name sinks)) <-> In s sinks).
  { intros s. assert (Q : In s sinks <-> exists x, In x (ord (number 0 sinks)) /\ snd x = s).
    { split.
      - intros I. apply In_nth_error in I as [i I]. exists (i, s). split; [|reflexivity]. eapply Permutation_in; [apply P|]. apply (number_nth sinks 0 i s I).
      - intros (x & I & <-). apply (Permutation_in _ (Permutation_sym (P _))) in I. clear - I. revert I. generalize 0%nat. induction sinks as [|y l IH]; intros k I; [destruct I|].
        destruct I as [<-|I]; [now left|right; eauto]. }
    rewrite Q. unfold all_sinks, make. cbn. rewrite map_map. cbn. rewrite in_app_iff, !in_map_iff. split.
    - intros [(x & <- & I)|(x & <- & I)]; apply filter_In in I as [I _]; eauto.
    - intros (x & I & <-). destruct (is_remote (snd x)) eqn:E; [right|left]; exists x; (split; [reflexivity|]); apply filter_In; rewrite ?E; auto. }
  repeat split; [assumption| |].
  - intros s I. apply H2, M, I.
  - destruct H3 as [H3|(s & I & E)]; [now left|]. right. exists s. split; [now apply M|assumption].
Qed.
Print Assumptions C76_log_level.
Example log_level_case : get_level (make (fun l => l) (lit "P") [s_far; s_some]) = 2 /\ get_level (make (fun l => l) (lit "P") []) = 5.
Proof. vm_compute. auto. Qed.

(** ** The file of a Json sink can be read back *)
Theorem C76_json_file_reads_back : forall strict ord name sinks i s ops,
  (forall l, Permutation l (ord l)) -> nth_error sinks i = Some s -> s_type s <> SRemote -> s_format s = FJson ->
  Forall plain_char name -> Forall regular ops -> Forall (readable strict) ops ->
  let file := flat_map json_line (lines i (run (make ord name sinks) ops)) in
  read_entries (length file) strict file = Some (flat_map (entries_of name s) ops).
Proof.
  intros strict ord name sinks i s ops P I R J N F C file. unfold file. clear file. rewrite (C76_sink_lines ord name sinks i s ops P I R F).
  destruct (file_reads strict name s ops J N F C) as (es & E1 & E2 & E3). rewrite <- E1, <- E2.
  rewrite <- (flat_map_fst json_line es) at 2. apply read_many; [assumption|]. rewrite <- (map_length fst es). apply lines_length.
Qed.
Print Assumptions C76_json_file_reads_back.
Example json_file_case : Forall plain_char (lit "P") /\ Forall (readable true) demo_ops /\
  map (fun e => (e_ts e, e_msg e, e_kvs e)) (flat_map (entries_of (lit "P") s_all) demo_ops) =
  [(lit "5", lit "hi", []); (lit "9", lit "slow", [(lit "a", lit "2")]); (lit "9", lit "quiet", []); (lit "9", lit "down", [])].
Proof.
  split; [apply forallb_plain; reflexivity|]. split; [|vm_compute; reflexivity].
  assert (K : forall s, forallb (fun c => 32 <=? c) s = true -> clean true s).
  { intros s H _. rewrite forallb_forall in H. apply Forall_forall. intros c I [L _]. specialize (H c I). lia. }
  unfold demo_ops. repeat apply Forall_cons; try apply Forall_nil; cbn [readable]; [split; [lia|apply K; reflexivity]|exact Logic.I| | |split; [lia|apply K; reflexivity]];
    cbn [dispatched m_level m_topic m_text m_kvs put]; repeat apply Forall_cons; try apply Forall_nil; cbn [fst snd m_text m_kvs]; (split; [lia|]); (split; [apply K; reflexivity|]).
  - split; [repeat constructor; discriminate|]. repeat apply Forall_cons; try apply Forall_nil. split; apply K; reflexivity.
  - split; apply Forall_nil.
Qed.

(** ** One message is one line *)
Theorem C76_one_line_per_message : forall t name n topic m l, Forall plain_char name -> no_raw l ->
  exists a, json_line (mkOut t name n (render topic m l FJson)) = a ++ [10] /\ ~ In 10 a.
Proof.
  intros t name n topic m l N R. rewrite line_parts. cbn [render]. rewrite json_message_parts. eexists. split; [rewrite !app_assoc; reflexivity|].
  pose proof (plain_no_newline _ N). pose proof (plain_no_newline _ (epoch_plain t)). pose proof (plain_no_newline _ (level_plain n)).
  pose proof (escape_no_newline m). pose proof (pairs_no_newline l R). pose proof (escape_no_newline (topic_to_string topic)).
  assert (A : forall a b, ~ In 10 a -> ~ In 10 b -> ~ In 10 (a ++ b)) by (intros a b X Y Z; apply in_app_iff in Z as [Z|Z]; contradiction).
  assert (B : forall a, existsb (N.eqb 10) a = false -> ~ In 10 a).
  { intros a X Y. assert (Z : existsb (N.eqb 10) a = true) by (apply existsb_exists; exists 10; auto). congruence. }
  assert (C : ~ In 10 (topic_part (if topic =? 0 then None else Some (topic_to_string topic)))).
  { destruct (topic =? 0); cbn [topic_part]; [intros []|]. repeat apply A; try assumption; apply B; reflexivity. }
  assert (D : ~ In 10 (kv_part l)). { unfold kv_part. destruct l; [intros []|]. repeat apply A; try assumption; apply B; reflexivity. }
  unfold head, msg_part. repeat apply A; try assumption; apply B; reflexivity.
Qed.
Print Assumptions C76_one_line_per_message.
Example one_line_case : In 10 (lit "a" ++ [10]) /\ Forall plain_char (lit "P") /\ no_raw [(lit "k", [10])].
Proof. split; [cbn; auto|]. split; [apply forallb_plain; reflexivity|]. repeat constructor. discriminate. Qed.

(** ** Names are not escaped: the file of a participant whose name has a quotation mark cannot be read *)
Theorem C76_name_escaped_refuted : ~ (forall name o, read_entry false (json_line (mkOut 0 name 2 (render 0 o [] FJson))) = Some (entry_for 0 name 2 0 o [], [])).
Proof. intros H. specialize (H [34] (lit "m")). vm_compute in H. discriminate. Qed.
Print Assumptions C76_name_escaped_refuted.
(** ** The value of the key "Raw" is written as it is *)
Theorem C76_raw_value_quoted_refuted : ~ (forall v, exists a, json_line (mkOut 0 (lit "P") 2 (render 0 (lit "m") [(lit "Raw", v)] FJson)) = a ++ [10] /\ ~ In 10 a).
Proof. intros H. destruct (H [10]) as (a & E & N). apply N. assert (A : a = removelast (a ++ [10])) by (symmetry; apply removelast_last). rewrite A, <- E. vm_compute. auto 70. Qed.
Print Assumptions C76_raw_value_quoted_refuted.

(** ** The log written for a remote participant is the log that participant writes *)
Definition structured (name : text) (o : op) : Prop :=
  match o with
  | Message l t c => known l /\ Forall keeps_level c /\
      Forall (fun x => SerdesSpec.wf_LogMsg (mkLogMsg name l (fst x) no_source (m_text (snd x)) (m_kvs (snd x)) (m_topic (snd x)))) (dispatched (mkMsg l t [] []) c)
  | _ => False
  end.
Lemma epoch_us : forall t, epoch (SerdesSpec.to_us t) = epoch t.
Proof. intros t. unfold epoch, SerdesSpec.to_us. cbv zeta. rewrite Z.quot_mul by lia. reflexivity. Qed.
Lemma us_line : forall t name n p, json_line (mkOut (SerdesSpec.to_us t) name n p) = json_line (mkOut t name n p).
Proof. intros. unfold json_line. cbn [o_time o_name o_level o_payload]. now rewrite epoch_us. Qed.
Theorem C76_remote_log_is_local_log : forall ord ord' name name' sinks sinks' i s k u j v h ops,
  (forall l, Permutation l (ord l)) -> (forall l, Permutation l (ord' l)) ->
  nth_error sinks i = Some s -> s_type s = SRemote ->
  nth_error sinks k = Some u -> s_type u <> SRemote -> s_format u = FJson -> s_level u = s_level s -> s_enabled u = s_enabled s -> s_disabled u = s_disabled s ->
  nth_error sinks' j = Some v -> s_type v <> SRemote -> s_format v = FJson -> num (s_level v) <= num (s_level s) ->
  Forall (structured name) ops ->
  exists arrived,
    Forall2 (fun m m' => MessageBufferSpec.roundtrips_ne (SerdesModel.ser_LogMsg m) SerdesModel.des_LogMsg m')
      (map snd (sent i (run (make ord name sinks) (Register h :: ops)))) arrived /\
    flat_map json_line (lines j (run (make ord' name' sinks') (map Received arrived))) =
    flat_map json_line (lines k (run (make ord name sinks) (Register h :: ops))).
Proof.
  intros ord ord' name name' sinks sinks' i s k u j v h ops P P' I R K RU JU L1 L2 L3 J RV JV LV F.
  assert (G : Forall regular (Register h :: ops)).
  { constructor; [exact Logic.I|]. eapply Forall_impl; [|exact F]. intros [] H; cbn in *; tauto. }
  rewrite (C76_remote_messages ord name sinks i s _ P I R G). rewrite (C76_sink_lines ord name sinks k u _ P K RU G). cbn [sent_of flat_map lines_of app].
  exists (map SerdesSpec.lm_to_us (map snd (sent_of name s (Some h) ops))).
  assert (W : forall l t, wants u l t = wants s l t) by (intros; unfold wants; now rewrite L1, L2, L3).
  assert (Q : Forall2 (fun m m' => MessageBufferSpec.roundtrips_ne (SerdesModel.ser_LogMsg m) SerdesModel.des_LogMsg m')
      (map snd (sent_of name s (Some h) ops)) (map SerdesSpec.lm_to_us (map snd (sent_of name s (Some h) ops))) /\
    Forall (fun m => known (lm_level m) /\ num (s_level s) <= lm_level m) (map SerdesSpec.lm_to_us (map snd (sent_of name s (Some h) ops))) /\
    flat_map json_line (flat_map (lines_of name' v) (map Received (map SerdesSpec.lm_to_us (map snd (sent_of name s (Some h) ops))))) =
    flat_map json_line (flat_map (lines_of name u) ops)).
  { clear G. induction ops as [|o ops IH]; [repeat split; constructor|]. inversion F as [|? ? F1 F2]; subst. specialize (IH F2) as (A1 & A2 & A3).
    destruct o as [| l t c | | |]; try contradiction. destruct F1 as (KL & _ & F1). cbn [sent_of].
    cbn [flat_map lines_of]. rewrite !map_app, !flat_map_app, A3.
    assert (B : let x := flat_map (fun x : Z * lmsg => if wants s l (m_topic (snd x)) then [(h, mkLogMsg name l (fst x) no_source (m_text (snd x)) (m_kvs (snd x)) (m_topic (snd x)))] else []) (dispatched (mkMsg l t [] []) c) in
      Forall2 (fun m m' => MessageBufferSpec.roundtrips_ne (SerdesModel.ser_LogMsg m) SerdesModel.des_LogMsg m') (map snd x) (map SerdesSpec.lm_to_us (map snd x)) /\
      Forall (fun m => known (lm_level m) /\ num (s_level s) <= lm_level m) (map SerdesSpec.lm_to_us (map snd x)) /\
      flat_map json_line (flat_map (lines_of name' v) (map Received (map SerdesSpec.lm_to_us (map snd x)))) =
      flat_map json_line (flat_map (fun x => if wants u l (m_topic (snd x)) then [mkOut (fst x) name (rank l) (render (m_topic (snd x)) (m_text (snd x)) (m_kvs (snd x)) (s_format u))] else []) (dispatched (mkMsg l t [] []) c))).
    { induction (dispatched (mkMsg l t [] []) c) as [|x r IH]; [repeat split; constructor|]. inversion F1 as [|? ? W1 W2]; subst. specialize (IH W2) as (B1 & B2 & B3). cbv zeta in *.
      cbn [flat_map]. rewrite W. destruct (wants s l (m_topic (snd x))) eqn:E; [|auto]. cbn [app map snd flat_map].
      pose proof (wants_level _ _ _ E) as LE. repeat split.
      - constructor; [|assumption]. apply SerdesFraming.rtne_LogMsg. exact W1.
      - constructor; [|assumption]. split; assumption.
      - cbn [lines_of]. rewrite flat_map_app, B3. f_equal. unfold SerdesSpec.lm_to_us.
        cbn [SerdesModel.lm_level SerdesModel.lm_time SerdesModel.lm_loggerName SerdesModel.lm_topic SerdesModel.lm_payload SerdesModel.lm_keyValues].
        replace (num (s_level v) <=? l) with true by lia. cbn [flat_map]. rewrite app_nil_r, JV, JU. apply us_line. }
    cbv zeta in B. destruct B as (B1 & B2 & B3). repeat split.
    - apply Forall2_app; assumption.
    - apply Forall_app. split; assumption.
    - now rewrite B3. }
  destruct Q as (Q1 & Q2 & Q3). split; [exact Q1|].
  rewrite (C76_sink_lines ord' name' sinks' j v _ P' J RV); [exact Q3|]. apply Forall_map. eapply Forall_impl; [|exact Q2]. intros m [X _]. exact X.
Qed.
Print Assumptions C76_remote_log_is_local_log.
Definition talk : op := Message 3 7 [SetText (lit "slow"); AddKv (lit "a") (lit "1"); Dispatch 9123].
Definition s_near : sink := mkSink FJson SFile LWarn (lit "near") [] [].
Example remote_log_case : structured (lit "P") talk /\ s_level s_near = s_level s_far /\
  map snd (sent 0 (run (make (fun l => l) (lit "P") [s_far; s_near]) [Register 1; talk])) <> [] /\
  flat_map json_line (lines 1 (run (make (fun l => l) (lit "P") [s_far; s_near]) [Register 1; talk])) <> [].
Proof.
  split; [|split; [reflexivity|split; vm_compute; discriminate]]. split; [cbn; tauto|]. split; [repeat constructor|].
  cbn [talk dispatched m_level m_topic m_text m_kvs app]. apply Forall_cons; [|apply Forall_nil]. cbn [fst snd m_text m_kvs m_topic].
  constructor; cbn [SerdesModel.lm_level SerdesModel.lm_time SerdesModel.lm_loggerName SerdesModel.lm_topic SerdesModel.lm_payload SerdesModel.lm_keyValues SerdesModel.lm_source].
  - vm_compute. reflexivity.
  - vm_compute. reflexivity.
  - split; vm_compute; [discriminate|reflexivity].
  - constructor; vm_compute; reflexivity.
  - vm_compute. reflexivity.
  - split; [vm_compute; reflexivity|]. apply Forall_cons; [|apply Forall_nil]. split; vm_compute; reflexivity.
  - left. lia.
Qed.

(** ** With a change of level in between the checks of the builder are visible *)
Theorem C76_level_change_refuted : ~ (forall g m c, known (m_level m) -> fst (build g m c) = flat_map (fun x => fst (process g (fst x) (snd x))) (dispatched m c)).
Proof.
  intros H. specialize (H (make (fun l => l) (lit "P") [s_some]) (mkMsg 1 7 [] []) [SetText (lit "late"); SetLevel 3; Dispatch 5] ltac:(cbn; tauto)).
  vm_compute in H. discriminate.
Qed.
Print Assumptions C76_level_change_refuted.
(** The one place that changes the level (services/orchestration/TimeSyncService.cpp:588-597) sets the text again. *)
Theorem C76_complete_simulation_step_warning : forall g a b t1 t2,
  build g (mkMsg 1 7 [] []) [SetText a; Dispatch t1; SetLevel 3; SetText b; Dispatch t2] =
  (fst (process g t1 (mkMsg 1 7 a [])) ++ fst (process g t2 (mkMsg 3 7 b [])), false).
Proof.
  intros g a b t1 t2.
  assert (E : build g (mkMsg 1 7 [] []) [SetText a; Dispatch t1; SetLevel 3; SetText b; Dispatch t2] =
    andthen (build g (mkMsg 1 7 [] []) [SetText a; Dispatch t1])
      (build g (mkMsg 3 7 (if get_level g <=? 1 then a else []) []) [SetText b; Dispatch t2])).
  { cbn [build apply_cmd]. unfold guarded. cbn [m_level m_topic m_text m_kvs]. destruct (get_level g <=? 1) eqn:L; cbn [m_level m_topic m_text m_kvs].
    - rewrite L. rewrite process_known by (cbn; tauto). cbn. rewrite app_nil_r. reflexivity.
    - rewrite L. reflexivity. }
  rewrite E. rewrite !build_known by (cbn; try tauto; repeat constructor). rewrite andthen_false. cbn [fst snd dispatched events_of flat_map]. rewrite !app_nil_r.
  rewrite !process_known by (cbn; tauto). reflexivity.
Qed.
Print Assumptions C76_complete_simulation_step_warning.
Example complete_simulation_step_case :
  map (fun e => match e with EOut _ o => o_payload o | _ => [] end)
    (fst (build (make (fun l => l) (lit "P") [s_some]) (mkMsg 1 7 [] []) [SetText (lit "a"); Dispatch 1; SetLevel 3; SetText (lit "b"); Dispatch 2])) = [lit "[TimeSync] b"].
Proof. vm_compute. reflexivity. Qed.

(** ** Unknown levels: no local line; an exception exactly if a local sink would have taken the message *)
Theorem C76_unknown_level : forall ord name sinks now l t msg i, ~ known l ->
  let r := log_text (make ord name sinks) now l t msg in
  lines i (fst r) = [] /\ snd r = existsb (fun x => wants (snd x) l t) (g_local (make ord name sinks)) /\ (snd r = true -> fst r = []).
Proof.
  intros ord name sinks now l t msg i K r. unfold r, log_text. rewrite to_locals_unknown by assumption.
  destruct (existsb (fun x => wants (snd x) l t) (g_local (make ord name sinks))); cbn [andthen fst snd]; [auto|].
  rewrite (to_remotes_eq t (mkLogMsg (g_name (make ord name sinks)) l now no_source (render_text t msg FSimple) [] t)). cbn [fst snd app].
  repeat split; [apply (lines_remotes i)|discriminate].
Qed.
Print Assumptions C76_unknown_level.
Example unknown_level_case : ~ known 6 /\ snd (log_text (make (fun l => l) (lit "P") demo) 1 6 1 (lit "m")) = true /\ snd (log_text (make (fun l => l) (lit "P") [s_far]) 1 6 1 (lit "m")) = false.
Proof. split; [cbn; intuition discriminate|]. vm_compute. auto. Qed.
(** a message with an unknown level that arrives from another participant ends in an exception *)
Theorem C76_received_unknown_level : forall m x r, ~ known (lm_level m) -> received m (x :: r) = ([], true).
Proof. intros m [i s] r K. cbn [received]. now rewrite (unknown_none _ K). Qed.
Print Assumptions C76_received_unknown_level.
Example received_unknown_level_case : ~ known (lm_level (mkLogMsg (lit "Q") 77 0 no_source [] [] 0)).
Proof. cbn. intuition discriminate. Qed.

(** ** The topics of a sink do not hold for messages of other participants *)
Theorem C76_received_topics_refuted : ~ (forall ord name sinks i s m, (forall l, Permutation l (ord l)) -> nth_error sinks i = Some s -> s_type s <> SRemote -> known (lm_level m) ->
  wants s (lm_level m) (lm_topic m) = false -> lines i (run (make ord name sinks) [Received m]) = []).
Proof.
  intros H. specialize (H (fun l => l) (lit "P") [s_some] 0%nat s_some (mkLogMsg (lit "Q") 3 5 no_source (lit "m") [] 6)
    ltac:(intros; apply Permutation_refl) eq_refl ltac:(discriminate) ltac:(cbn; tauto) eq_refl). vm_compute in H. discriminate.
Qed.
Print Assumptions C76_received_topics_refuted.
(** ** A text logged by the user arrives with its topic written twice *)
Theorem C76_remote_text_refuted : ~ (forall name now l t msg,
  render t (lm_payload (mkLogMsg name l now no_source (render_text t msg FSimple) [] t)) [] FSimple = render_text t msg FSimple).
Proof. intros H. specialize (H (lit "P") 0%Z 2 1 (lit "hi")). vm_compute in H. discriminate. Qed.
Print Assumptions C76_remote_text_refuted.
Theorem C76_remote_text_topic_twice : forall ord name sinks i s j v ord' name' sinks' h now l t msg,
  (forall l, Permutation l (ord l)) -> (forall l, Permutation l (ord' l)) -> nth_error sinks i = Some s -> s_type s = SRemote -> known l -> t <> 0 -> wants s l t = true ->
  nth_error sinks' j = Some v -> s_type v <> SRemote -> s_format v = FSimple -> num (s_level v) <= l ->
  exists m, sent i (run (make ord name sinks) [Register h; Log now l t msg]) = [(h, m)] /\
    map o_payload (lines j (run (make ord' name' sinks') [Received m])) =
    [lit "[" ++ topic_to_string t ++ lit "] [" ++ topic_to_string t ++ lit "] " ++ msg].
Proof.
  intros ord name sinks i s j v ord' name' sinks' h now l t msg P P' I R K T W J RV FV LV. eexists. split.
  - rewrite (C76_remote_messages ord name sinks i s _ P I R) by (apply Forall_cons; [exact Logic.I|apply Forall_cons; [exact K|apply Forall_nil]]). cbn [sent_of]. rewrite W. reflexivity.
  - rewrite (C76_sink_lines ord' name' sinks' j v _ P' J RV) by (apply Forall_cons; [exact K|apply Forall_nil]). cbn [flat_map lines_of SerdesModel.lm_level].
    replace (num (s_level v) <=? l) with true by lia. rewrite FV. unfold render, simple_message.
    cbn [SerdesModel.lm_topic SerdesModel.lm_payload SerdesModel.lm_keyValues has_kv app map o_payload]. rewrite andb_false_r. replace (t =? 0) with false by lia. cbn [negb map o_payload render_text].
    reflexivity.
Qed.
Print Assumptions C76_remote_text_topic_twice.
Example remote_text_case : wants s_far 3 1 = true /\ known 3.
Proof. split; [reflexivity|cbn; tauto]. Qed.

(** ** A sink with level Off takes messages with level Off *)
Definition s_off : sink := mkSink FSimple SStdout LOff [] [] [].
Theorem C76_off_is_silent_refuted : ~ (forall ord name sinks i s ops, (forall l, Permutation l (ord l)) -> nth_error sinks i = Some s -> s_type s <> SRemote -> s_level s = LOff ->
  Forall regular ops -> lines i (run (make ord name sinks) ops) = []).
Proof.
  intros H. assert (F : Forall regular [Log 0 (num LOff) 1 (lit "m")]) by (apply Forall_cons; [exact (num_known LOff)|apply Forall_nil]).
  specialize (H (fun l => l) (lit "P") [s_off] 0%nat s_off _ (fun l => Permutation_refl l) eq_refl ltac:(discriminate) eq_refl F). vm_compute in H. discriminate.
Qed.
Print Assumptions C76_off_is_silent_refuted.
Theorem C76_off_takes_nothing_else : forall ord name sinks i s ops, (forall l, Permutation l (ord l)) -> nth_error sinks i = Some s -> s_type s <> SRemote -> s_level s = LOff ->
  Forall regular ops -> Forall (fun o => match o with Log _ l _ _ | Message l _ _ => l <= 5 | Received m => lm_level m <= 5 | _ => True end) ops ->
  lines i (run (make ord name sinks) ops) = [].
Proof.
  intros ord name sinks i s ops P I R O F B. rewrite (C76_sink_lines ord name sinks i s ops P I R F). apply flat_map_nil. intros o J. rewrite Forall_forall in B. specialize (B o J).
  destruct o as [now l t msg|l t c|m| |]; cbn [lines_of]; try reflexivity; unfold wants; rewrite O; cbn [num].
  - replace (4294967295 <=? l) with false by lia. reflexivity.
  - apply flat_map_nil. intros x _. replace (4294967295 <=? l) with false by lia. reflexivity.
  - replace (4294967295 <=? lm_level m) with false by lia. reflexivity.
Qed.
Print Assumptions C76_off_takes_nothing_else.
Example off_case : Forall regular demo_ops /\ lines 0 (run (make (fun l => l) (lit "P") [s_off]) demo_ops) = [].
Proof. split; [apply sink_lines_case|vm_compute; reflexivity]. Qed.

(** ** Traces of messages *)
(** reading the level first does not lose a trace *)
Theorem C76_trace_not_lost : forall g own txt descriptor msg extra stamp raw now,
  trace_message g own txt descriptor msg extra stamp raw now =
  snd (step g (Message 0 (if own =? 0 then 4 else own) (trace_cmds txt descriptor msg extra stamp raw now))).
Proof.
  intros. unfold trace_message. destruct (N.eqb_spec (get_level g) 0) as [E|E]; [reflexivity|]. cbn [step snd]. symmetry. apply build_below; [|cbn; lia].
  unfold trace_cmds. apply Forall_cons; [exact Logic.I|]. apply Forall_app. split; [apply Forall_map, Forall_forall; intros; exact Logic.I|]. apply Forall_cons; [exact Logic.I|].
  apply Forall_app. split; [destruct extra as [[[|] [|]]|]; repeat constructor|]. apply Forall_app. split; [destruct stamp; repeat constructor|]. apply Forall_app. split; [destruct raw; repeat constructor|repeat constructor].
Qed.
Print Assumptions C76_trace_not_lost.
Example trace_case : length (fst (trace_message (make (fun l => l) (lit "P") demo) 12 (lit "Send message") [(lit "a", lit "b")] (lit "m") None (Some 5) None 1)) = 1%nat.
Proof. vm_compute. reflexivity. Qed.
(** the virtual time of a message is not in its trace: whatever it is, the same is logged *)
Theorem C76_trace_without_time : forall g own txt descriptor msg extra a b raw now,
  trace_message g own txt descriptor msg extra (Some a) raw now = trace_message g own txt descriptor msg extra (Some b) raw now.
Proof. reflexivity. Qed.
Print Assumptions C76_trace_without_time.
Theorem C76_trace_time_refuted : ~ (forall a b, a <> b ->
  trace_message (make (fun l => l) (lit "P") [s_all]) 12 (lit "Send message") [] (lit "m") None (Some a) None 1 <>
  trace_message (make (fun l => l) (lit "P") [s_all]) 12 (lit "Send message") [] (lit "m") None (Some b) None 1).
Proof. intros H. apply (H 1 2); [discriminate|reflexivity]. Qed.
Print Assumptions C76_trace_time_refuted.

(** ** A message that is logged once *)
Theorem C76_logged_once : forall g l now msg rest, known l ->
  run_once g false ((now, msg) :: rest) l = fst (log_text g now l 0 msg) /\ run_once g true rest l = [].
Proof.
  intros g l now msg rest K.
  assert (N : run_once g true rest l = []). { induction rest as [|[n m] rest IH]; [reflexivity|]. cbn [run_once log_once was_called]. exact IH. }
  split; [|exact N]. cbn [run_once log_once was_called]. rewrite N, app_nil_r.
  destruct (N.leb_spec (get_level g) l) as [L|L]; [reflexivity|]. rewrite log_text_known by assumption. cbn [fst]. symmetry.
  rewrite !flat_map_nil; [reflexivity| |].
  - intros r I. unfold remote_events. rewrite (below_level g _ L); [now destruct (r_handler r)|]. apply in_app_iff. right. now apply in_map.
  - intros x I. unfold local_events. rewrite (below_level g _ L); [reflexivity|]. apply in_app_iff. left. now apply in_map.
Qed.
Print Assumptions C76_logged_once.
Example logged_once_case : length (run_once (make (fun l => l) (lit "P") demo) false [(1%Z, lit "a"); (2%Z, lit "a"); (3%Z, lit "a")] 3) = 2%nat.
Proof. vm_compute. reflexivity. Qed.

(** ** File names *)
Theorem C76_file_names_refuted : ~ (forall s s' a b stamp, s_format s = s_format s' -> file_name s a stamp = file_name s' b stamp -> a = b).
Proof.
  intros H. specialize (H (mkSink FSimple SFile LInfo (lit "a") [] []) (mkSink FSimple SFile LInfo (lit "a_b") [] []) (lit "b_c") (lit "c") (lit "T") eq_refl ltac:(vm_compute; reflexivity)).
  discriminate.
Qed.
Print Assumptions C76_file_names_refuted.
(** within one configuration the sinks of one participant that have different names write different files *)
Theorem C76_file_names_of_a_participant : forall s s' name stamp, s_format s = s_format s' -> file_name s name stamp = file_name s' name stamp -> s_log s = s_log s'.
Proof.
  intros s s' name stamp F E. unfold file_name in E. rewrite F in E. apply app_inv_tail in E. exact E.
Qed.
Print Assumptions C76_file_names_of_a_participant.
Example file_name_case : file_name (mkSink FJson SFile LInfo (lit "L") [] []) (lit "A B") (lit "T") = lit "L_A20B_T.jsonl".
Proof. vm_compute. reflexivity. Qed.
