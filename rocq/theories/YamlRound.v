From Coq Require Import String Ascii NArith ZArith List Bool Lia.
From Verif Require Import Base TextModel TextProofs UriProofs YamlModel YamlProofs.
Import ListNotations.
Open Scope string_scope.
Open Scope list_scope.
Open Scope Z_scope.

(** * What survives writing and reading a configuration *)
(** Topics and format of a sink are not written, the log name is only read for a file. *)
Definition kept_sink (s : sink) : sink :=
  mkSink (match s_type s with SFile => FJson | _ => FSimple end) (s_type s) (s_level s) (match s_type s with SFile => s_log s | _ => [] end) [] [].
Definition kept_logging (l : logging) : logging := mkLog (lg_remote l) (lg_flush l) (map kept_sink (lg_sinks l)).
(** A replay without a trace source is not written. *)
Definition kept_replay (r : replay) : replay := match rp_source r with [] => replay0 | _ => r end.
Definition kept_ctrl (c : ctrl) : ctrl := mkCtrl (ct_name c) (ct_net c) (ct_sinks c) (kept_replay (ct_replay c)).
Definition kept_flexray (f : flexray) : flexray := mkFr (kept_ctrl (fr_ctrl f)) (fr_cluster f) (fr_node f) (fr_bufs f).
Definition kept_svc (s : svc) : svc := mkSvc (sv_name s) (sv_topic s) (sv_labels s) (sv_history s) (sv_sinks s) (kept_replay (sv_replay s)).
(** Metrics without sinks and without CollectFromRemote are not written. *)
Definition kept_metrics (m : metrics) : metrics := match me_sinks m, me_collect m with [], None => metrics0 | _, _ => m end.
(** A number that compares equal to the default is not written. *)
Definition kept_dbl (D : dbl) (v d : N) : N := if d_eqb D v d then d else v.
Definition kept_middleware (D : dbl) (m : middleware) : middleware :=
  mkMw (mw_uri m) (mw_attempts m) (mw_rcvbuf m) (mw_sndbuf m) (mw_nodelay m) (mw_quickack m) (mw_domain m) (mw_acceptors m) (mw_proxy m) (mw_remote m)
       (kept_dbl D (mw_timeout m) (d_five D)).
Definition kept_experimental (D : dbl) (e : experimental) : experimental :=
  mkExp (mkTs (kept_dbl D (ts_factor (ex_time e)) (d_zero D)) (ts_aggr (ex_time e)) (ts_dynamic (ex_time e))) (kept_metrics (ex_metrics e)).
Definition kept (D : dbl) (c : pcfg) : pcfg :=
  mkPc (lit "1") (p_description c) [] (p_name c) (map kept_ctrl (p_can c)) (map kept_ctrl (p_lin c)) (map kept_ctrl (p_eth c)) (map kept_flexray (p_flexray c))
       (map kept_svc (p_pubs c)) (map kept_svc (p_subs c)) (map kept_svc (p_servers c)) (map kept_svc (p_clients c))
       (kept_logging (p_logging c)) (p_health c) (p_tracing c) (p_ext c) (p_includes c) (kept_middleware D (p_middleware c)) (kept_experimental D (p_exp c)).

(** * Values the C++ structs can hold; a file sink has a name *)
Definition sink_ok (s : sink) : Prop := s_type s = SFile -> s_log s <> [].
(** the signed types without their least number, see [C70_least_number_refuted] *)
Definition member_ok (t : mty) (v : mval) : Prop :=
  match t, v with
  | MInt t, VInt z => holds t z
  | MBool, VBool _ | MChan, VChan _ | MClock, VClock _ | MMode, VMode _ => True
  | _, _ => False
  end.
Definition members_ok (ms : list (string * mty)) (vs : list mval) : Prop := Forall2 (fun m v => member_ok (snd m) v) ms vs.
Definition nparams_ok (p : nparams) : Prop := members_ok node_members (np_members p) /\ holds U16 (np_second p) /\ holds U8 (np_two p).
Definition opt_ok {A} (P : A -> Prop) (o : option A) : Prop := match o with Some a => P a | None => True end.
Definition flexray_ok (f : flexray) : Prop :=
  opt_ok (members_ok cluster_members) (fr_cluster f) /\ opt_ok nparams_ok (fr_node f) /\ Forall (members_ok buffer_members) (fr_bufs f).
Definition dbl_ok (D : dbl) (v : N) : Prop := d_scan D (d_print D v) = Some v /\ d_print D v <> [].
Definition middleware_ok (D : dbl) (m : middleware) : Prop :=
  holds I32 (mw_attempts m) /\ holds I32 (mw_rcvbuf m) /\ holds I32 (mw_sndbuf m) /\ dbl_ok D (mw_timeout m).
Definition health_ok (h : health) : Prop := opt_ok (holds I64) (h_soft h) /\ opt_ok (holds I64) (h_hard h).
(** all but the publishers have no history *)
Definition pub_ok (s : svc) : Prop := opt_ok (holds U64) (sv_history s).
Definition svc_ok (s : svc) : Prop := sv_history s = None.
Record wf (D : dbl) (c : pcfg) : Prop := {
  wf_flexray : Forall flexray_ok (p_flexray c);
  wf_pubs : Forall pub_ok (p_pubs c);
  wf_subs : Forall svc_ok (p_subs c);
  wf_servers : Forall svc_ok (p_servers c);
  wf_clients : Forall svc_ok (p_clients c);
  wf_health : health_ok (p_health c);
  wf_mw : middleware_ok D (p_middleware c);
  wf_factor : dbl_ok D (ts_factor (ex_time (p_exp c)));
  wf_interval : holds I64 (me_interval (ex_metrics (p_exp c))) }.
Definition sinks_ok (c : pcfg) : Prop := Forall sink_ok (lg_sinks (p_logging c)).

(** * The parts *)
Ltac rd1 v := erewrite (opt_read_slot _ _ _ _ _ v); [cbn [bind]|lk].
Lemma r_sink_w : forall s, sink_ok s -> r_sink (w_sink s) sink0 = Ok (kept_sink s).
Proof.
  intros s H. unfold r_sink, w_sink.
  rewrite (opt_read_slot _ _ _ _ _ (s_type s)) by (lk; apply r_stype_w). cbn [bind].
  rewrite (opt_read_slot _ _ _ _ _ (s_level s)) by (lk; apply slot_nd; [apply level_eqb_eq|intros; apply r_level_w]). cbn [bind].
  erewrite (opt_read_slot _ r_sformat _ "Format"); [|lk; cbn [slot]; reflexivity]. cbn [bind child].
  lk. cbn [bind]. unfold has_key. lk. cbn [s_log sink0].
  unfold kept_sink, sink_ok in *. destruct (s_type s) eqn:T; cbn [stype_eqb bind]; try reflexivity.
  destruct (text_eqb (s_log s) []) eqn:E; [apply text_eqb_eq in E; now elim H|].
  erewrite key_read_slot; [|lk; rewrite E; reflexivity|reflexivity]. reflexivity.
Qed.
Lemma r_sink_nameless : forall s, s_type s = SFile -> s_log s = [] -> r_sink (w_sink s) sink0 = Exn.
Proof.
  intros s T L. unfold r_sink, w_sink.
  rewrite (opt_read_slot _ _ _ _ _ (s_type s)) by (lk; apply r_stype_w). cbn [bind].
  rewrite (opt_read_slot _ _ _ _ _ (s_level s)) by (lk; apply slot_nd; [apply level_eqb_eq|intros; apply r_level_w]). cbn [bind].
  erewrite (opt_read_slot _ r_sformat _ "Format"); [|lk; cbn [slot]; reflexivity]. cbn [bind child].
  lk. cbn [bind]. unfold has_key. lk. rewrite L, T. reflexivity.
Qed.
Lemma r_logging_w : forall l, Forall sink_ok (lg_sinks l) -> r_logging (w_logging l) logging0 = Ok (kept_logging l).
Proof.
  intros l H. unfold r_logging, w_logging.
  rewrite (opt_read_slot _ _ _ _ _ (lg_remote l)) by (lk; apply slot_nd; [apply booleqb_eq|intros; apply r_bool_w]). cbn [bind].
  rewrite (opt_read_slot _ _ _ _ _ (lg_flush l)) by (lk; apply slot_nd; [apply level_eqb_eq|intros; apply r_level_w]). cbn [bind].
  rewrite (opt_read_slot _ _ _ _ _ (map kept_sink (lg_sinks l))).
  - reflexivity.
  - lk. apply r_vec_map. eapply Forall_impl; [|exact H]. intros s. apply r_sink_w.
Qed.
Lemma r_msink_w : forall s, r_msink (w_msink s) (mkMs MUndefined []) = Ok s.
Proof.
  intros [t n]. unfold r_msink, w_msink. erewrite key_read_slot; [|lk; reflexivity|apply r_mtype_w]. cbn [bind m_type m_name].
  rewrite (opt_read_slot _ _ _ _ _ n); [reflexivity|]. lk. destruct n; reflexivity.
Qed.
Lemma r_metrics_w : forall m, holds I64 (me_interval m) -> r_metrics (w_metrics m) metrics0 = Ok m.
Proof.
  intros [s c i] H. unfold r_metrics, w_metrics. cbn [me_sinks me_collect me_interval metrics0] in *.
  rewrite (opt_read_slot _ _ _ _ _ s). 2:{ lk. pose proof (slot_vec _ r_msink (mkMs MUndefined []) w_msink (fun x => x) s) as V. rewrite map_id in V. apply V. apply Forall_forall. intros. apply r_msink_w. }
  cbn [bind]. rewrite (opt_some_slot _ _ _ _ _ c). 2:{ lk. pose proof (slotS_opt _ _ write_bool r_bool false c (fun x => x)) as V. rewrite option_map_id in V. apply V. intros. apply r_bool_w. }
  cbn [bind]. rewrite (opt_int_slot _ _ _ _ i); [reflexivity|]. lk. apply slot_nd; [apply zeqb_eq|]. intros. now apply read_checked_w.
Qed.
Lemma slotS_text : forall o, slotS r_text [] (match o with Some a => Some (plain a) | None => None end) o.
Proof. intros [a|]; cbn; [|reflexivity]. now exists a. Qed.
Lemma r_mdf_w : forall m, r_mdf (w_mdf m) mdf0 = Ok m.
Proof.
  intros [a b c d e f]. unfold r_mdf, w_mdf. cbn [is_map md_name md_source md_path md_gname md_gsource md_gpath mdf0].
  rewrite (opt_some_slot _ _ _ _ _ a) by (lk; apply slotS_text). cbn [bind].
  rewrite (opt_some_slot _ _ _ _ _ c) by (lk; apply slotS_text). cbn [bind].
  rewrite (opt_some_slot _ _ _ _ _ b) by (lk; apply slotS_text). cbn [bind].
  rewrite (opt_some_slot _ _ _ _ _ d) by (lk; apply slotS_text). cbn [bind].
  rewrite (opt_some_slot _ _ _ _ _ f) by (lk; apply slotS_text). cbn [bind].
  rewrite (opt_some_slot _ _ _ _ _ e) by (lk; apply slotS_text). reflexivity.
Qed.
Lemma r_replay_w : forall r, r_replay (w_replay r) replay0 = Ok r.
Proof.
  intros [s d m]. unfold r_replay, w_replay. erewrite key_read_slot; [|lk; reflexivity|reflexivity]. cbn [bind rp_source rp_dir rp_mdf replay0].
  rewrite (opt_read_slot _ _ _ _ _ d) by (lk; apply slot_nd; [apply dir_eqb_eq|intros; apply r_dir_w]). cbn [bind].
  rewrite (opt_read_slot _ _ _ _ _ m) by (lk; apply slot_nd; [apply mdf_eqb_eq|intros; apply r_mdf_w]). reflexivity.
Qed.
Lemma slot_replay : forall r, slot r_replay replay0 (match rp_source r with [] => None | _ => Some (w_replay r) end) (kept_replay r).
Proof. intros r. unfold kept_replay. destruct (rp_source r) eqn:E; cbn; [reflexivity|]. apply r_replay_w. Qed.
(** the four members of a controller, wherever they are among the others *)
Lemma r_ctrl_l : forall l c, lookup "Name" l = Some (plain (ct_name c)) ->
  lookup "Network" l = match ct_net c with Some a => Some (plain a) | None => None end ->
  lookup "UseTraceSinks" l = match ct_sinks c with [] => None | _ => Some (w_vec plain (ct_sinks c)) end ->
  lookup "Replay" l = match rp_source (ct_replay c) with [] => None | _ => Some (w_replay (ct_replay c)) end ->
  r_ctrl (NMap l) ctrl0 = Ok (kept_ctrl c).
Proof.
  intros l c H1 H2 H3 H4. unfold r_ctrl. erewrite key_read_slot; [|exact H1|reflexivity]. cbn [bind].
  rewrite (opt_some_slot _ _ _ _ _ (ct_net c)) by (rewrite H2; apply slotS_text). cbn [bind].
  rewrite (opt_read_slot _ _ _ _ _ (ct_sinks c)) by (rewrite H3; apply slot_texts). cbn [bind].
  rewrite (opt_read_slot _ _ _ _ _ (kept_replay (ct_replay c))) by (rewrite H4; apply slot_replay). reflexivity.
Qed.
Lemma r_ctrl_w : forall c, r_ctrl (w_ctrl c) ctrl0 = Ok (kept_ctrl c).
Proof. intros c. apply r_ctrl_l; unfold w_ctrl; lk; reflexivity. Qed.

Lemma lookup_combine : forall ks vs k n i, NoDup ks -> nth_error ks i = Some k -> nth_error vs i = Some n -> lookup k (combine ks vs) = Some n.
Proof.
  induction ks as [|k0 ks IH]; intros [|v vs] k n [|i] ND H1 H2; try discriminate; cbn in *.
  - injection H1 as <-. injection H2 as <-. now rewrite String.eqb_refl.
  - inversion ND as [|? ? NI ND']; subst. destruct (String.eqb k k0) eqn:E; [|now apply (IH vs k n i)].
    apply String.eqb_eq in E. subst k0. elim NI. now apply nth_error_In in H1.
Qed.
Lemma r_member_w : forall t v, member_ok t v -> r_member t (w_member v) = Ok v.
Proof.
  intros [t| | | |] [z|b|c|c|m] H; cbn in H; try contradiction; cbn [r_member w_member bind].
  - unfold r_int. now rewrite read_int_w.
  - now rewrite r_bool_w.
  - now rewrite r_channel_w.
  - now rewrite r_clock_w.
  - now rewrite r_txmode_w.
Qed.
Lemma r_members_gen : forall ms vs l, Forall2 (fun m v => lookup (fst m) l = Some (w_member v) /\ member_ok (snd m) v) ms vs -> r_members ms (NMap l) = Ok vs.
Proof.
  intros ms vs l F. unfold r_members. induction F as [|m v ms vs [H K] F IH]; [reflexivity|]. cbn [mapM child bind]. rewrite H. rewrite r_member_w by exact K.
  cbn [bind]. cbn [child bind] in IH. now rewrite IH.
Qed.
Lemma r_members_w : forall ms ks vs rest, ks = map fst ms -> NoDup ks -> members_ok ms vs -> r_members ms (NMap (w_members ks vs ++ rest)) = Ok vs.
Proof.
  intros ms ks vs rest -> ND H. apply r_members_gen.
  assert (G : forall i m v, nth_error ms i = Some m -> nth_error vs i = Some v -> lookup (fst m) (w_members (map fst ms) vs ++ rest) = Some (w_member v)).
  { intros i m v H1 H2. rewrite lookup_app. unfold w_members. rewrite (lookup_combine _ _ _ (w_member v) i); [reflexivity|exact ND| |].
    - now rewrite nth_error_map, H1.
    - now rewrite nth_error_map, H2. }
  clear ND. revert G. generalize (w_members (map fst ms) vs ++ rest). intros l G.
  induction H as [|m v ms vs H F IH]; constructor.
  - split; [now apply (G 0%nat)|exact H].
  - apply IH. intros i m' v' H1 H2. now apply (G (Datatypes.S i)).
Qed.
Ltac nodup := repeat (constructor; [cbn; intuition discriminate|]); constructor.
Lemma cluster_keys_ok : cluster_keys = map fst cluster_members /\ NoDup cluster_keys. Proof. split; [reflexivity|nodup]. Qed.
Lemma node_keys_ok : node_keys = map fst node_members /\ NoDup node_keys. Proof. split; [reflexivity|nodup]. Qed.
Lemma buffer_keys_ok : buffer_keys = map fst buffer_members /\ NoDup buffer_keys. Proof. split; [reflexivity|nodup]. Qed.
Lemma r_cluster_w : forall c d, members_ok cluster_members c -> r_cluster (w_cluster c) d = Ok c.
Proof. intros c d H. unfold r_cluster, w_cluster. rewrite <- (app_nil_r (w_members _ _)). now apply r_members_w; [apply cluster_keys_ok|apply cluster_keys_ok|]. Qed.
Lemma r_buffer_w : forall c d, members_ok buffer_members c -> r_buffer (w_buffer c) d = Ok c.
Proof. intros c d H. unfold r_buffer, w_buffer. rewrite <- (app_nil_r (w_members _ _)). now apply r_members_w; [apply buffer_keys_ok|apply buffer_keys_ok|]. Qed.
Lemma lookup_combine_none : forall k ks vs, ~ In k ks -> lookup k (combine ks vs) = None.
Proof.
  intros k. induction ks as [|k0 ks IH]; intros [|v vs] H; try reflexivity. cbn. destruct (String.eqb k k0) eqn:E; [|apply IH; intros I; apply H; now right].
  apply String.eqb_eq in E. subst. elim H. now left.
Qed.
Lemma r_nparams_w : forall p, nparams_ok p -> r_nparams (w_nparams p) (mkNp [] 0 0) = Ok p.
Proof.
  intros [ms a b] (H1 & H2 & H3). unfold r_nparams, w_nparams. cbn [np_members np_second np_two] in *.
  rewrite r_members_w by (try apply node_keys_ok; exact H1). cbn [bind].
  rewrite (opt_int_slot _ _ _ _ a).
  - cbn [bind]. rewrite (opt_int_slot _ _ _ _ b); [reflexivity|].
    rewrite lookup_app. unfold w_members. rewrite lookup_combine_none by (cbn; intuition discriminate). lk. destruct (a =? 0); (apply slot_nd; [apply zeqb_eq|]; intros; now apply read_checked_w).
  - rewrite lookup_app. unfold w_members. rewrite lookup_combine_none by (cbn; intuition discriminate). lk. apply slot_nd; [apply zeqb_eq|]. intros. now apply read_checked_w.
Qed.
Lemma slotS_id : forall A (w : A -> node) (rd : node -> A -> res A) d o, opt_ok (fun a => rd (w a) d = Ok a) o -> slotS rd d (match o with Some a => Some (w a) | None => None end) o.
Proof. intros A w rd d [a|] H; cbn in *; [|reflexivity]. now exists a. Qed.
Lemma opt_ok_impl : forall A (P Q : A -> Prop) o, (forall a, P a -> Q a) -> opt_ok P o -> opt_ok Q o.
Proof. intros A P Q [a|] H; cbn; auto. Qed.
Lemma r_flexray_w : forall f, flexray_ok f -> r_flexray (w_flexray f) flexray0 = Ok (kept_flexray f).
Proof.
  intros f (H1 & H2 & H3). unfold r_flexray, w_flexray. cbn [fr_ctrl fr_cluster fr_node fr_bufs flexray0].
  rewrite (r_ctrl_l _ (fr_ctrl f)) by (lk; reflexivity). cbn [bind].
  rewrite (opt_some_slot _ _ _ _ _ (fr_cluster f)) by (lk; apply slotS_id; eapply opt_ok_impl; [|exact H1]; intros; now apply r_cluster_w). cbn [bind].
  rewrite (opt_some_slot _ _ _ _ _ (fr_node f)) by (lk; apply slotS_id; eapply opt_ok_impl; [|exact H2]; intros; now apply r_nparams_w). cbn [bind].
  rewrite (opt_read_slot _ _ _ _ _ (fr_bufs f)); [reflexivity|]. lk.
  pose proof (slot_vec _ r_buffer [] w_buffer (fun x => x) (fr_bufs f)) as V. rewrite map_id in V. apply V. eapply Forall_impl; [|exact H3]. intros. now apply r_buffer_w.
Qed.
Lemma r_label_w : forall l, r_label (w_label l) label0 = Ok l.
Proof.
  intros [k v d]. unfold r_label, w_label. cbn [lb_key lb_value lb_kind label0].
  rewrite (opt_read_slot _ _ _ _ _ k) by (lk; reflexivity). cbn [bind]. rewrite (opt_read_slot _ _ _ _ _ v) by (lk; reflexivity). cbn [bind].
  rewrite (opt_read_slot _ _ _ _ _ d) by (lk; apply r_lkind_w). reflexivity.
Qed.
Lemma slotS_labels : forall o, slotS (r_vec r_label label0) [] (match o with Some a => Some (w_vec w_label a) | None => None end) o.
Proof.
  intros o. apply slotS_id. destruct o as [l|]; cbn; [|exact I]. pose proof (r_vec_map _ r_label label0 w_label (fun x => x) l) as V. rewrite map_id in V.
  apply V. apply Forall_forall. intros. apply r_label_w.
Qed.
Lemma r_pub_w : forall s, pub_ok s -> r_pub (w_pub s) svc0 = Ok (kept_svc s).
Proof.
  intros s H. unfold r_pub, r_pubsub, w_pub, w_svc. erewrite key_read_slot; [|lk; reflexivity|reflexivity]. cbn [bind sv_topic sv_labels sv_history sv_sinks sv_replay svc0].
  rewrite (opt_some_slot _ _ _ _ _ (sv_topic s)) by (lk; apply slotS_text). cbn [bind].
  rewrite (opt_some_slot _ _ _ _ _ (sv_labels s)) by (lk; apply slotS_labels). cbn [bind].
  rewrite (opt_some_slot _ _ _ _ _ (sv_history s)) by (lk; apply slotS_id; eapply opt_ok_impl; [|exact H]; intros; now apply read_int_w). cbn [bind].
  rewrite (opt_read_slot _ _ _ _ _ (sv_sinks s)) by (lk; apply slot_texts). cbn [bind].
  rewrite (opt_read_slot _ _ _ _ _ (kept_replay (sv_replay s))) by (lk; apply slot_replay). reflexivity.
Qed.
Lemma r_sub_w : forall s, svc_ok s -> r_sub (w_sub s) svc0 = Ok (kept_svc s).
Proof.
  intros s H. unfold r_sub, r_pubsub, w_sub, w_svc. erewrite key_read_slot; [|lk; reflexivity|reflexivity]. cbn [bind sv_topic sv_labels sv_history sv_sinks sv_replay svc0].
  rewrite (opt_some_slot _ _ _ _ _ (sv_topic s)) by (lk; apply slotS_text). cbn [bind].
  rewrite (opt_some_slot _ _ _ _ _ (sv_labels s)) by (lk; apply slotS_labels). cbn [bind].
  rewrite (opt_read_slot _ _ _ _ _ (sv_sinks s)) by (lk; apply slot_texts). cbn [bind].
  rewrite (opt_read_slot _ _ _ _ _ (kept_replay (sv_replay s))) by (lk; apply slot_replay). cbn [bind]. unfold kept_svc. now rewrite H.
Qed.
Lemma r_rpc_w : forall t s, t = "FunctionName" \/ t = "Channel" -> svc_ok s -> r_rpc (w_svc t false s) svc0 = Ok (kept_svc s).
Proof.
  intros t s T H. unfold r_rpc, w_svc. erewrite key_read_slot; [|lk; destruct T; subst; reflexivity|reflexivity].
  cbn [bind sv_topic sv_labels sv_history sv_sinks sv_replay svc0].
  assert (D : forall l, lookup "RpcChannel" l = None -> (lookup "FunctionName" l = None \/ lookup "Channel" l = None) -> forall v,
    slotS r_text [] (match lookup "FunctionName" l with Some n => Some n | None => lookup "Channel" l end) v ->
    opt_deprecated (opt_some r_text []) (NMap l) "FunctionName" ["Channel"; "RpcChannel"] None = Ok v).
  { intros l R [F|F] v; unfold opt_deprecated, has_key, opt_some; cbn [filter child fold_left]; rewrite R, F; intros S.
    - destruct (lookup "Channel" l); cbn in *; [destruct S as (a & -> & S); now rewrite S|now subst].
    - destruct (lookup "FunctionName" l); cbn in *; [destruct S as (a & -> & S); now rewrite S|now subst]. }
  rewrite (D _) with (v := sv_topic s).
  - cbn [bind].
    rewrite (opt_some_slot _ _ _ _ _ (sv_labels s)) by (destruct T; subst; lk; apply slotS_labels). cbn [bind].
    rewrite (opt_read_slot _ _ _ _ _ (sv_sinks s)) by (destruct T; subst; lk; apply slot_texts). cbn [bind].
    rewrite (opt_read_slot _ _ _ _ _ (kept_replay (sv_replay s))) by (destruct T; subst; lk; apply slot_replay). cbn [bind]. unfold kept_svc. now rewrite H.
  - destruct T; subst; lk; reflexivity.
  - destruct T; subst; [right|left]; lk; reflexivity.
  - destruct T; subst; lk; destruct (sv_topic s) as [x|]; cbn; try reflexivity; now exists x.
Qed.
Lemma r_health_w : forall h, health_ok h -> r_health (w_health h) health0 = Ok h.
Proof.
  intros [a b] [H1 H2]. unfold r_health, w_health. cbn [h_soft h_hard health0] in *.
  rewrite (opt_some_slot _ _ _ _ _ a) by (lk; apply slotS_id; eapply opt_ok_impl; [|exact H1]; intros; now apply read_checked_w). cbn [bind].
  rewrite (opt_some_slot _ _ _ _ _ b) by (lk; apply slotS_id; eapply opt_ok_impl; [|exact H2]; intros; now apply read_checked_w). reflexivity.
Qed.
Lemma r_tsink_w : forall s d, r_tsink (w_tsink s) d = Ok s.
Proof.
  intros [t n p] d. unfold r_tsink, w_tsink. erewrite key_read_slot; [|lk; reflexivity|reflexivity]. cbn [bind].
  erewrite key_read_slot; [|lk; reflexivity|apply r_tktype_w]. cbn [bind]. erewrite key_read_slot; [|lk; reflexivity|reflexivity]. reflexivity.
Qed.
Lemma r_tsource_w : forall s d, r_tsource (w_tsource s) d = Ok s.
Proof.
  intros [t n p] d. unfold r_tsource, w_tsource. erewrite key_read_slot; [|lk; reflexivity|reflexivity]. cbn [bind].
  erewrite key_read_slot; [|lk; reflexivity|apply r_tctype_w]. cbn [bind]. erewrite key_read_slot; [|lk; reflexivity|reflexivity]. reflexivity.
Qed.
Lemma slot_vec_id : forall A (rd : node -> A -> res A) d (w : A -> node) l, Forall (fun a => rd (w a) d = Ok a) l ->
  slot (r_vec rd d) [] (match l with [] => None | _ => Some (w_vec w l) end) l.
Proof. intros A rd d w l H. pose proof (slot_vec _ rd d w (fun x => x) l H) as V. now rewrite map_id in V. Qed.
Lemma r_tracing_w : forall t, r_tracing (w_tracing t) tracing0 = Ok t.
Proof.
  intros [a b]. unfold r_tracing, w_tracing. cbn [tr_sinks tr_sources tracing0].
  rewrite (opt_read_slot _ _ _ _ _ a) by (lk; apply slot_vec_id, Forall_forall; intros; apply r_tsink_w). cbn [bind].
  rewrite (opt_read_slot _ _ _ _ _ b) by (lk; apply slot_vec_id, Forall_forall; intros; apply r_tsource_w). reflexivity.
Qed.
Lemma r_ext_w : forall e, r_ext (w_ext e) [] = Ok e.
Proof. intros e. unfold r_ext, w_ext. apply opt_read_slot. lk. apply slot_nd; [apply texts_eqb_eq|]. intros. apply r_texts_plain. Qed.
Lemma r_includes_w : forall i, r_includes (w_includes i) includes0 = Ok i.
Proof.
  intros [a b]. unfold r_includes, w_includes. cbn [in_hints in_files includes0].
  rewrite (opt_read_slot _ _ _ _ _ b) by (lk; apply slot_texts). cbn [bind]. rewrite (opt_read_slot _ _ _ _ _ a) by (lk; apply slot_texts). reflexivity.
Qed.
Lemma slot_dbl : forall D v d, dbl_ok D v -> slot (r_dbl D) d (if d_eqb D v d then None else Some (plain (d_print D v))) (kept_dbl D v d).
Proof.
  intros D v d [H1 H2]. unfold kept_dbl, slot. destruct (d_eqb D v d); [reflexivity|]. unfold r_dbl, read_dbl, plain. destruct (d_print D v) as [|c s]; [now elim H2|]. now rewrite H1.
Qed.
Lemma r_middleware_w : forall D m, middleware_ok D m -> r_middleware D (w_middleware D m) (middleware0 D) = Ok (kept_middleware D m).
Proof.
  intros D m (H1 & H2 & H3 & H4). unfold r_middleware, w_middleware. cbn [middleware0 mw_uri mw_attempts mw_rcvbuf mw_sndbuf mw_nodelay mw_quickack mw_domain mw_acceptors mw_proxy mw_remote mw_timeout].
  rewrite (opt_read_slot _ _ _ _ _ (mw_uri m)) by (lk; apply slot_nd; [apply text_eqb_eq|reflexivity]). cbn [bind].
  rewrite (opt_int_slot _ _ _ _ (mw_attempts m)) by (lk; apply slot_nd; [apply zeqb_eq|intros; now apply read_checked_w]). cbn [bind].
  rewrite (opt_read_slot _ _ _ _ _ (mw_nodelay m)) by (lk; apply slot_nd; [apply booleqb_eq|intros; apply r_bool_w]). cbn [bind].
  rewrite (opt_read_slot _ _ _ _ _ (mw_quickack m)) by (lk; apply slot_nd; [apply booleqb_eq|intros; apply r_bool_w]). cbn [bind].
  rewrite (opt_int_slot _ _ _ _ (mw_rcvbuf m)) by (lk; apply slot_nd; [apply zeqb_eq|intros; now apply read_checked_w]). cbn [bind].
  rewrite (opt_int_slot _ _ _ _ (mw_sndbuf m)) by (lk; apply slot_nd; [apply zeqb_eq|intros; now apply read_checked_w]). cbn [bind].
  rewrite (opt_read_slot _ _ _ _ _ (mw_domain m)) by (lk; apply slot_nd; [apply booleqb_eq|intros; apply r_bool_w]). cbn [bind].
  rewrite (opt_read_slot _ _ _ _ _ (mw_acceptors m)) by (lk; apply slot_nd; [apply texts_eqb_eq|intros; apply r_texts_plain]). cbn [bind].
  rewrite (opt_read_slot _ _ _ _ _ (mw_proxy m)) by (lk; apply slot_nd; [apply booleqb_eq|intros; apply r_bool_w]). cbn [bind].
  rewrite (opt_read_slot _ _ _ _ _ (mw_remote m)) by (lk; apply slot_nd; [apply booleqb_eq|intros; apply r_bool_w]). cbn [bind].
  rewrite (opt_read_slot _ _ _ _ _ (kept_dbl D (mw_timeout m) (d_five D))) by (lk; now apply slot_dbl). reflexivity.
Qed.
Lemma r_timesync_w : forall D t, dbl_ok D (ts_factor t) -> r_timesync D (w_timesync D t) (timesync0 D) = Ok (mkTs (kept_dbl D (ts_factor t) (d_zero D)) (ts_aggr t) (ts_dynamic t)).
Proof.
  intros D t H. unfold r_timesync, w_timesync. cbn [timesync0 ts_factor ts_aggr ts_dynamic].
  rewrite (opt_read_slot _ _ _ _ _ (kept_dbl D (ts_factor t) (d_zero D))) by (lk; now apply slot_dbl). cbn [bind].
  rewrite (opt_read_slot _ _ _ _ _ (ts_aggr t)) by (lk; apply slot_nd; [apply aggr_eqb_eq|intros; apply r_aggr_w]). cbn [bind].
  rewrite (opt_some_slot _ _ _ _ _ (ts_dynamic t)); [reflexivity|]. lk. apply slotS_id. destruct (ts_dynamic t); cbn; [apply r_bool_w|exact I].
Qed.
Lemma metrics_eqb_default : forall m, metrics_eqb m metrics0 = true <-> me_sinks m = [] /\ me_collect m = None.
Proof.
  intros m. unfold metrics_eqb. cbn [me_sinks me_collect metrics0]. rewrite andb_true_iff, (list_eqb_eq _ _ msink_eqb_eq), (opt_eqb_eq _ _ booleqb_eq). reflexivity.
Qed.
Lemma kept_metrics_eqb : forall m, kept_metrics m = if metrics_eqb m metrics0 then metrics0 else m.
Proof.
  intros m. unfold kept_metrics. destruct (metrics_eqb m metrics0) eqn:E.
  - apply metrics_eqb_default in E as [-> ->]. reflexivity.
  - destruct (me_sinks m) eqn:S; [|reflexivity]. destruct (me_collect m) eqn:C; [reflexivity|]. exfalso. assert (metrics_eqb m metrics0 = true) by (apply metrics_eqb_default; auto). congruence.
Qed.
Lemma timesync_eqb_default : forall D t, timesync_eqb D t (timesync0 D) = true ->
  mkTs (kept_dbl D (ts_factor t) (d_zero D)) (ts_aggr t) (ts_dynamic t) = timesync0 D.
Proof.
  intros D t E. unfold timesync_eqb in E. apply andb_true_iff in E as [E E3]. apply andb_true_iff in E as [E1 E2]. cbn in E1, E2, E3.
  apply aggr_eqb_eq in E2. apply (opt_eqb_eq _ _ booleqb_eq) in E3. unfold kept_dbl. rewrite E1, E2, E3. reflexivity.
Qed.
Lemma r_experimental_w : forall D e, dbl_ok D (ts_factor (ex_time e)) -> holds I64 (me_interval (ex_metrics e)) ->
  r_experimental D (w_experimental D e) (experimental0 D) = Ok (kept_experimental D e).
Proof.
  intros D e H1 H2. unfold r_experimental, w_experimental. cbn [experimental0 ex_time ex_metrics].
  rewrite (opt_read_slot _ _ _ _ _ (ex_time (kept_experimental D e))) by (lk; apply slot_nd; [apply timesync_eqb_default|intros; now apply r_timesync_w]). cbn [bind].
  rewrite (opt_read_slot _ _ _ _ _ (kept_metrics (ex_metrics e))); [reflexivity|].
  lk. rewrite kept_metrics_eqb. apply slot_nd; [now intros ->|]. intros ->. now apply r_metrics_w.
Qed.
Lemma middleware_eqb_default : forall D m, middleware_eqb D m (middleware0 D) = true -> kept_middleware D m = middleware0 D.
Proof.
  intros D [a b c d e f g h i j k] E. unfold middleware_eqb in E. unfold kept_middleware, kept_dbl, middleware0 in *.
  cbn [mw_uri mw_attempts mw_rcvbuf mw_sndbuf mw_nodelay mw_quickack mw_domain mw_acceptors mw_proxy mw_remote mw_timeout] in *.
  repeat match type of E with (_ && _ = true) => let H := fresh "H" in apply andb_true_iff in E as [E H] end.
  repeat match goal with
  | H : text_eqb _ _ = true |- _ => apply (proj1 (text_eqb_eq _ _)) in H
  | H : list_eqb text_eqb _ _ = true |- _ => apply (proj1 (texts_eqb_eq _ _)) in H
  | H : (_ =? _) = true |- _ => apply (proj1 (Z.eqb_eq _ _)) in H
  | H : Bool.eqb _ _ = true |- _ => apply (proj1 (booleqb_eq _ _)) in H
  | H : d_eqb _ _ _ = true |- _ => rewrite H; clear H
  end. subst. reflexivity.
Qed.
Lemma experimental_eqb_default : forall D e, experimental_eqb D e (experimental0 D) = true -> kept_experimental D e = experimental0 D.
Proof.
  intros D e E. unfold experimental_eqb in E. apply andb_true_iff in E as [E1 E2]. cbn in E1, E2. unfold kept_experimental. rewrite timesync_eqb_default by exact E1.
  now rewrite kept_metrics_eqb, E2.
Qed.
Lemma kept_logging_default : forall l, logging_eqb l logging0 = true -> kept_logging l = logging0.
Proof. intros l E. apply logging_eqb_eq in E. now subst. Qed.
