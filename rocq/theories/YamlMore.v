From Coq Require Import String Ascii NArith ZArith List Bool Lia.
From Verif Require Import Base TextModel TextProofs UriProofs YamlModel YamlProofs YamlRound YamlWhole.
Import ListNotations.
Open Scope string_scope.
Open Scope list_scope.
Open Scope Z_scope.

Lemma Ok_inj : forall A (a b : A), Ok a = Ok b -> b = a. Proof. intros A a b H. congruence. Qed.
(** * A file sink without a name cannot be read back *)
Lemma mapM_exn : forall A B (f : A -> res B) l, Forall (fun a => f a <> UB) l -> Exists (fun a => f a = Exn) l -> mapM f l = Exn.
Proof.
  intros A B f l N E. induction E as [a l E|a l E IH]; inversion N as [|? ? N1 N2]; subst; cbn.
  - now rewrite E.
  - destruct (f a) eqn:G; cbn; [rewrite IH by exact N2; reflexivity|reflexivity|now elim N1].
Qed.
Lemma sink_dec : forall s, sink_ok s \/ (s_type s = SFile /\ s_log s = []).
Proof. intros s. unfold sink_ok. destruct (s_type s); [left; discriminate|left; discriminate|]. destruct (s_log s) eqn:E; [right|left]; auto. intros _ H. discriminate. Qed.
Lemma r_logging_nameless : forall l, ~ Forall sink_ok (lg_sinks l) -> r_logging (w_logging l) logging0 = Exn.
Proof.
  intros l H. unfold r_logging, w_logging.
  rewrite (opt_read_slot _ _ _ _ _ (lg_remote l)) by (lk; apply slot_nd; [apply booleqb_eq|intros; apply r_bool_w]). cbn [bind].
  rewrite (opt_read_slot _ _ _ _ _ (lg_flush l)) by (lk; apply slot_nd; [apply level_eqb_eq|intros; apply r_level_w]). cbn [bind].
  unfold opt_read. cbn [child bind]. lk. unfold w_vec, r_vec. cbn [bind].
  rewrite mapM_exn; [reflexivity| |].
  - apply Forall_forall. intros n I. apply in_map_iff in I as (s & <- & I). destruct (sink_dec s) as [S|[S1 S2]]; [rewrite r_sink_w by exact S; discriminate|rewrite r_sink_nameless by assumption; discriminate].
  - induction (lg_sinks l) as [|s ss IH]; [elim H; constructor|]. cbn [map]. destruct (sink_dec s) as [S|[S1 S2]]; [|left; now apply r_sink_nameless].
    right. apply IH. intros F. apply H. now constructor.
Qed.
Lemma deserialize_nameless : forall D c, wf D c -> ~ sinks_ok c -> deserialize D (serialize D c) = Exn.
Proof.
  intros D c W S. unfold deserialize, serialize, r_pcfg, w_pcfg.
  cbn [pcfg0 p_schema p_description p_file p_name p_can p_lin p_eth p_flexray p_pubs p_subs p_servers p_clients p_logging p_health p_tracing p_ext p_includes p_middleware p_exp].
  rewrite (opt_read_slot _ r_text _ "schemaVersion" _ []) by (lk; reflexivity). cbn [bind].
  rewrite (opt_read_slot _ _ _ _ _ (lit "1")) by (lk; reflexivity). cbn [bind].
  rewrite (opt_read_slot _ _ _ _ _ (p_description c)) by (lk; apply slot_str). cbn [bind].
  rewrite (opt_read_slot _ _ _ _ _ (p_name c)) by (lk; apply slot_str). cbn [bind].
  rewrite (opt_read_slot _ _ _ _ _ (map kept_ctrl (p_can c))) by (lk; apply slot_vec, Forall_forall; intros; apply r_ctrl_w). cbn [bind].
  rewrite (opt_read_slot _ _ _ _ _ (map kept_ctrl (p_lin c))) by (lk; apply slot_vec, Forall_forall; intros; apply r_ctrl_w). cbn [bind].
  rewrite (opt_read_slot _ _ _ _ _ (map kept_ctrl (p_eth c))) by (lk; apply slot_vec, Forall_forall; intros; apply r_ctrl_w). cbn [bind].
  rewrite (opt_deprecated_slot _ _ _ _ _ _ (map kept_flexray (p_flexray c))); [cbn [bind]|lk; reflexivity|lk; apply slot_vec; eapply Forall_impl; [|apply (wf_flexray _ _ W)]; intros; now apply r_flexray_w].
  rewrite (opt_read_slot _ _ _ _ _ (map kept_svc (p_pubs c))) by (lk; apply slot_vec; eapply Forall_impl; [|apply (wf_pubs _ _ W)]; intros; now apply r_pub_w). cbn [bind].
  rewrite (opt_read_slot _ _ _ _ _ (map kept_svc (p_subs c))) by (lk; apply slot_vec; eapply Forall_impl; [|apply (wf_subs _ _ W)]; intros; now apply r_sub_w). cbn [bind].
  rewrite (opt_read_slot _ _ _ _ _ (map kept_svc (p_servers c))) by (lk; apply slot_vec; eapply Forall_impl; [|apply (wf_servers _ _ W)]; intros; now apply r_rpc_w; auto). cbn [bind].
  rewrite (opt_read_slot _ _ _ _ _ (map kept_svc (p_clients c))) by (lk; apply slot_vec; eapply Forall_impl; [|apply (wf_clients _ _ W)]; intros; now apply r_rpc_w; auto). cbn [bind].
  unfold opt_read at 1. cbn [child bind]. lk. destruct (logging_eqb (p_logging c) logging0) eqn:E.
  - apply logging_eqb_eq in E. elim S. unfold sinks_ok. rewrite E. constructor.
  - rewrite r_logging_nameless by exact S. reflexivity.
Qed.

(** * When nothing is lost *)
Definition replay_kept (r : replay) : Prop := rp_source r = [] -> r = replay0.
Definition sink_kept (s : sink) : Prop :=
  s_format s = (if stype_eqb (s_type s) SFile then FJson else FSimple) /\ (s_type s <> SFile -> s_log s = []) /\ s_disabled s = [] /\ s_enabled s = [].
Record lossless (D : dbl) (c : pcfg) : Prop := {
  ll_schema : p_schema c = lit "1";
  ll_file : p_file c = [];
  ll_sinks : Forall sink_kept (lg_sinks (p_logging c));
  ll_ctrls : Forall (fun x => replay_kept (ct_replay x)) (p_can c ++ p_lin c ++ p_eth c ++ map fr_ctrl (p_flexray c));
  ll_svcs : Forall (fun x => replay_kept (sv_replay x)) (p_pubs c ++ p_subs c ++ p_servers c ++ p_clients c);
  ll_metrics : me_sinks (ex_metrics (p_exp c)) = [] -> me_collect (ex_metrics (p_exp c)) = None -> me_interval (ex_metrics (p_exp c)) = 1;
  ll_factor : d_eqb D (ts_factor (ex_time (p_exp c))) (d_zero D) = true -> ts_factor (ex_time (p_exp c)) = d_zero D;
  ll_timeout : d_eqb D (mw_timeout (p_middleware c)) (d_five D) = true -> mw_timeout (p_middleware c) = d_five D }.
Lemma map_fix : forall A (f : A -> A) l, map f l = l <-> Forall (fun a => f a = a) l.
Proof.
  intros A f l. induction l as [|a l IH]; cbn; [split; constructor|]. split; [intros H; injection H as H1 H2; constructor; [exact H1|now apply IH]|].
  intros H. inversion H as [|? ? H1 H2]; subst. rewrite H1. f_equal. now apply IH.
Qed.
Lemma kept_replay_fix : forall r, kept_replay r = r <-> replay_kept r.
Proof. intros r. unfold kept_replay, replay_kept. destruct (rp_source r); split; intros H; auto; try discriminate. now rewrite H. Qed.
Lemma kept_sink_fix : forall s, kept_sink s = s <-> sink_kept s.
Proof.
  intros [f t lv n d e]. unfold kept_sink, sink_kept. cbn. split.
  - intros H. injection H as <- H1 <- <-. destruct t; cbn; repeat split; auto; congruence.
  - intros (-> & H & -> & ->). destruct t; cbn; try reflexivity; rewrite H by discriminate; reflexivity.
Qed.
Lemma kept_ctrl_fix : forall c, kept_ctrl c = c <-> replay_kept (ct_replay c).
Proof. intros c. rewrite <- kept_replay_fix. destruct c as [a b d r]. unfold kept_ctrl. cbn. split; [intros H; now injection H|now intros ->]. Qed.
Lemma kept_flexray_fix : forall c, kept_flexray c = c <-> replay_kept (ct_replay (fr_ctrl c)).
Proof. intros c. rewrite <- kept_ctrl_fix. destruct c as [a b d r]. unfold kept_flexray. cbn. split; [intros H; now injection H|now intros ->]. Qed.
Lemma kept_svc_fix : forall c, kept_svc c = c <-> replay_kept (sv_replay c).
Proof. intros c. rewrite <- kept_replay_fix. destruct c as [a b d e f r]. unfold kept_svc. cbn. split; [intros H; now injection H|now intros ->]. Qed.
Lemma kept_dbl_fix : forall D v d, kept_dbl D v d = v <-> (d_eqb D v d = true -> v = d).
Proof. intros D v d. unfold kept_dbl. destruct (d_eqb D v d); split; auto; try discriminate. intros H. symmetry. now apply H. Qed.
Lemma kept_metrics_fix : forall m, kept_metrics m = m <-> (me_sinks m = [] -> me_collect m = None -> me_interval m = 1).
Proof.
  intros [s c i]. unfold kept_metrics. cbn. destruct s; [destruct c|]; split; intros H; auto; try (intros; discriminate).
  - unfold metrics0 in H. injection H as <-. auto.
  - unfold metrics0. now rewrite H.
Qed.
Lemma Forall_iff : forall A (P Q : A -> Prop) l, (forall a, P a <-> Q a) -> Forall P l <-> Forall Q l.
Proof. intros A P Q l H. split; apply Forall_impl; intros; now apply H. Qed.
Lemma kept_fix : forall D c, kept D c = c <-> lossless D c.
Proof.
  intros D c. split.
  - intros H. destruct c as [a b cc d e f g h i j k l m n o p q r s]. unfold kept in H. cbn [p_schema p_description p_file p_name p_can p_lin p_eth p_flexray p_pubs p_subs p_servers p_clients p_logging p_health p_tracing p_ext p_includes p_middleware p_exp] in H.
    injection H as H1 H2 H3 H4 H5 H6 H7 H8 H9 H10 H11 H12 H13. rewrite map_fix in *.
    constructor; cbn [p_schema p_file p_logging p_can p_lin p_eth p_flexray p_pubs p_subs p_servers p_clients p_exp p_middleware]; auto.
    + destruct m as [x y z]. unfold kept_logging in H11. cbn in H11. injection H11 as H11. apply map_fix in H11. apply (Forall_iff _ _ _ _ kept_sink_fix). exact H11.
    + rewrite !Forall_app, Forall_map. rewrite <- !(Forall_iff _ _ _ _ kept_ctrl_fix), <- (Forall_iff _ _ _ _ kept_flexray_fix). auto.
    + rewrite !Forall_app. rewrite <- !(Forall_iff _ _ _ _ kept_svc_fix). auto.
    + apply kept_metrics_fix. destruct s as [t me]. unfold kept_experimental in H13. cbn in *. now injection H13.
    + apply kept_dbl_fix. destruct s as [[x y z] me]. unfold kept_experimental in H13. cbn in *. now injection H13.
    + apply kept_dbl_fix. destruct r. unfold kept_middleware in H12. cbn in *. now injection H12.
  - intros [L1 L2 L3 L4 L5 L6 L7 L8]. rewrite !Forall_app, Forall_map in L4. rewrite !Forall_app in L5. destruct L4 as (A1 & A2 & A3 & A4), L5 as (B1 & B2 & B3 & B4).
    apply (Forall_iff _ _ _ _ kept_ctrl_fix), map_fix in A1. apply (Forall_iff _ _ _ _ kept_ctrl_fix), map_fix in A2. apply (Forall_iff _ _ _ _ kept_ctrl_fix), map_fix in A3.
    apply (Forall_iff _ _ _ _ kept_flexray_fix), map_fix in A4. apply (Forall_iff _ _ _ _ kept_svc_fix), map_fix in B1. apply (Forall_iff _ _ _ _ kept_svc_fix), map_fix in B2.
    apply (Forall_iff _ _ _ _ kept_svc_fix), map_fix in B3. apply (Forall_iff _ _ _ _ kept_svc_fix), map_fix in B4. apply (Forall_iff _ _ _ _ kept_sink_fix), map_fix in L3. apply kept_metrics_fix in L6. apply kept_dbl_fix in L7, L8.
    destruct c as [a b cc d e f g h i j k l m n o p q r s]. cbn in *. unfold kept. cbn. subst a cc. rewrite A1, A2, A3, A4, B1, B2, B3, B4.
    f_equal.
    + unfold kept_logging. rewrite L3. now destruct m.
    + unfold kept_middleware. rewrite L8. now destruct r.
    + unfold kept_experimental. rewrite L6, L7. now destruct s as [[]].
Qed.
Lemma kept_replay_idem : forall r, kept_replay (kept_replay r) = kept_replay r.
Proof. intros r. unfold kept_replay. destruct (rp_source r) eqn:E; [reflexivity|now rewrite E]. Qed.
Lemma kept_dbl_idem : forall D v d, kept_dbl D (kept_dbl D v d) d = kept_dbl D v d.
Proof. intros D v d. unfold kept_dbl. destruct (d_eqb D v d) eqn:E; [now destruct (d_eqb D d d)|now rewrite E]. Qed.
Lemma kept_metrics_idem : forall m, kept_metrics (kept_metrics m) = kept_metrics m.
Proof. intros [[|a s] [c|] i]; reflexivity. Qed.
Lemma kept_idem : forall D c, kept D (kept D c) = kept D c.
Proof.
  intros D c. apply kept_fix. destruct c as [a b cc d e f g h i j k l m n o p q r s]. constructor; cbn.
  - reflexivity.
  - reflexivity.
  - apply Forall_map, Forall_forall. intros x _. apply kept_sink_fix. destruct x as [? [] ? ? ? ?]; reflexivity.
  - rewrite !Forall_app, !Forall_map. repeat split; apply Forall_forall; intros x _; apply kept_replay_fix; cbn; apply kept_replay_idem.
  - rewrite !Forall_app, !Forall_map. repeat split; apply Forall_forall; intros x _; apply kept_replay_fix; cbn; apply kept_replay_idem.
  - apply kept_metrics_fix. apply kept_metrics_idem.
  - apply kept_dbl_fix. apply kept_dbl_idem.
  - apply kept_dbl_fix. apply kept_dbl_idem.
Qed.
Lemma kept_wf : forall D c, dbl_ok D (d_zero D) -> dbl_ok D (d_five D) -> wf D c -> wf D (kept D c).
Proof.
  intros D c Z5 F5 [W1 W2 W3 W4 W5 W6 W7 W8 W9]. constructor; cbn; auto; try (apply Forall_map; assumption).
  - destruct W7 as (A & B & C & E). repeat split; cbn; try apply A; try apply B; try apply C; unfold kept_dbl; destruct (d_eqb _ _ _); auto; try apply F5; apply E.
  - unfold kept_dbl. destruct (d_eqb _ _ _); auto.
  - unfold kept_metrics. destruct (me_sinks _); [destruct (me_collect _)|]; auto. unfold holds. cbn. lia.
Qed.
Lemma kept_sinks_ok : forall D c, sinks_ok c -> sinks_ok (kept D c).
Proof.
  intros D c H. unfold sinks_ok in *. cbn. apply Forall_map. eapply Forall_impl; [|exact H]. intros [f t lv n d e]. unfold sink_ok, kept_sink. cbn. destruct t; auto; discriminate.
Qed.

(** * The registry's configuration *)
Definition kept_rcfg (c : rcfg) : rcfg := mkRc (rc_description c) (lit "1") (rc_listen c) (rc_domain c) (rc_dashboard c) (kept_logging (rc_logging c)) metrics0.
Lemma w_rcfg_ok : forall c, (me_sinks (rc_metrics c) = [] /\ me_collect (rc_metrics c) = None) <-> exists n, w_rcfg c = Ok n.
Proof.
  intros c. rewrite <- metrics_eqb_default. unfold w_rcfg, w_rexp. destruct (metrics_eqb (rc_metrics c) metrics0); cbn [bind].
  - split; [intros _; eexists; reflexivity|reflexivity].
  - split; [discriminate|intros [n H]; discriminate].
Qed.
Lemma w_rcfg_exn : forall c, ~ (me_sinks (rc_metrics c) = [] /\ me_collect (rc_metrics c) = None) -> w_rcfg c = Exn.
Proof. intros c H. rewrite <- metrics_eqb_default in H. unfold w_rcfg, w_rexp. destruct (metrics_eqb (rc_metrics c) metrics0); [now elim H|reflexivity]. Qed.
Lemma kept_logging_remote : forall l, existsb (fun s => stype_eqb (s_type s) SRemote) (lg_sinks (kept_logging l)) = existsb (fun s => stype_eqb (s_type s) SRemote) (lg_sinks l).
Proof. intros l. cbn. induction (lg_sinks l) as [|s ss IH]; [reflexivity|]. cbn. now rewrite IH. Qed.
Lemma r_rcfg_w : forall c n, Forall sink_ok (lg_sinks (rc_logging c)) -> lg_remote (rc_logging c) = false -> Forall (fun s => s_type s <> SRemote) (lg_sinks (rc_logging c)) ->
  w_rcfg c = Ok n -> r_rcfg n rcfg0 = Ok (kept_rcfg c).
Proof.
  intros c n S R T W. assert (M : metrics_eqb (rc_metrics c) metrics0 = true) by (apply metrics_eqb_default, w_rcfg_ok; eauto).
  unfold w_rcfg in W. rewrite M in W. cbn [bind] in W. apply Ok_inj in W. subst n. unfold r_rcfg. cbn [rc_description rc_schema rc_listen rc_domain rc_dashboard rc_logging rc_metrics rcfg0].
  rewrite (opt_read_slot _ _ _ _ _ (lit "1")) by (lk; reflexivity). cbn [bind].
  rewrite (opt_read_slot _ _ _ _ _ (rc_description c)) by (lk; apply slot_nd; [apply text_eqb_eq|reflexivity]). cbn [bind].
  rewrite (opt_some_slot _ _ _ _ _ (rc_listen c)) by (lk; apply slotS_text). cbn [bind].
  rewrite (opt_some_slot _ _ _ _ _ (rc_domain c)) by (lk; apply slotS_id; destruct (rc_domain c); cbn; [apply r_bool_w|exact I]). cbn [bind].
  rewrite (opt_some_slot _ _ _ _ _ (rc_dashboard c)) by (lk; apply slotS_text). cbn [bind].
  rewrite (opt_read_slot _ _ _ _ _ (kept_logging (rc_logging c))) by (lk; apply slot_nd; [apply kept_logging_default|intros; now apply r_logging_w]). cbn [bind].
  rewrite (opt_read_slot _ _ _ _ _ metrics0) by (lk; reflexivity). cbn [bind].
  rewrite kept_logging_remote. cbn [lg_remote kept_logging]. rewrite R.
  replace (existsb (fun s => stype_eqb (s_type s) SRemote) (lg_sinks (rc_logging c))) with false; [reflexivity|].
  symmetry. clear - T. induction T as [|s l H T IH]; [reflexivity|]. cbn. rewrite IH. destruct (s_type s); try reflexivity. now elim H.
Qed.

(** * Labels on the wire *)
Lemma r_mlabel_w : forall l n, w_mlabel l = Ok n -> r_mlabel n (mkMl [] [] 0) = Ok l.
Proof.
  intros [k v d] n H. unfold w_mlabel, w_mkind in H. cbn [ml_kind ml_key ml_value] in H. destruct ((d =? 1) || (d =? 2)) eqn:E; [|discriminate]. cbn [bind] in H. apply Ok_inj in H. subst n.
  unfold r_mlabel. cbn [ml_key ml_value ml_kind]. rewrite (opt_read_slot _ _ _ _ _ k) by (lk; reflexivity). cbn [bind].
  rewrite (opt_read_slot _ _ _ _ _ d).
  - cbn [bind]. rewrite (opt_read_slot _ _ _ _ _ v) by (lk; reflexivity). reflexivity.
  - lk. cbn [slot]. unfold r_mkind. rewrite read_int_w by (unfold holds; cbn; lia). cbn [bind]. destruct (d =? 2) eqn:E2; [f_equal; lia|]. replace (d =? 1) with true by lia. f_equal. lia.
Qed.
Lemma w_mlabels_ok : forall l, Forall (fun x => ml_kind x = 1 \/ ml_kind x = 2) l -> exists n, w_mlabels l = Ok n.
Proof.
  intros l H. unfold w_mlabels. assert (G : exists v, mapM w_mlabel l = Ok v).
  { induction H as [|x l H F [v IH]]; [now exists []|]. cbn. unfold w_mlabel at 1, w_mkind. replace ((ml_kind x =? 1) || (ml_kind x =? 2)) with true by lia. cbn [bind]. rewrite IH. cbn. eauto. }
  destruct G as [v ->]. cbn. eauto.
Qed.
Lemma w_mlabels_exn : forall l, ~ Forall (fun x => ml_kind x = 1 \/ ml_kind x = 2) l -> w_mlabels l = Exn.
Proof.
  intros l H. unfold w_mlabels. rewrite mapM_exn; [reflexivity| |].
  - apply Forall_forall. intros x _. unfold w_mlabel, w_mkind. destruct (_ || _); discriminate.
  - induction l as [|x l IH]; [elim H; constructor|]. destruct ((ml_kind x =? 1) || (ml_kind x =? 2)) eqn:E.
    + right. apply IH. intros F. apply H. constructor; [lia|exact F].
    + left. unfold w_mlabel, w_mkind. now rewrite E.
Qed.
Lemma r_mlabels_w : forall l n, w_mlabels l = Ok n -> r_mlabels n = Ok l.
Proof.
  intros l n H. unfold w_mlabels in H. destruct (mapM w_mlabel l) as [v| |] eqn:E; try discriminate. cbn in H. injection H as <-.
  unfold r_mlabels, r_vec. revert v E. induction l as [|x l IH]; intros v E; cbn in E; [injection E as <-; reflexivity|].
  destruct (w_mlabel x) as [n| |] eqn:X; try discriminate. cbn in E. destruct (mapM w_mlabel l) as [v'| |]; try discriminate. cbn in E. injection E as <-.
  cbn [mapM]. rewrite (r_mlabel_w _ _ X). cbn [bind]. specialize (IH v' eq_refl). destruct (mapM (fun m => r_mlabel m (mkMl [] [] 0)) v'); cbn in *; congruence.
Qed.

(** * Integers *)
Lemma scan_int_any : forall sg z, scan_int sg (int_text z) = if (z <? 0) && negb sg then None else Some (z <? 0, Z.to_N (Z.abs z)).
Proof.
  intros sg z. unfold int_text. destruct (z <? 0) eqn:E.
  - unfold scan_int. cbn [N.eqb Pos.eqb]. destruct sg; cbn [andb negb]; [|reflexivity]. rewrite magnitude_decimal. do 3 f_equal. lia.
  - cbn [andb]. unfold scan_int. pose proof (decimal_digits (Z.to_N z)) as F. pose proof (magnitude_decimal (Z.to_N z)) as M. destruct (decimal (Z.to_N z)) as [|c r]; [discriminate|].
    inversion F as [|? ? D F']; subst. apply digit_range in D. replace (c =? 45)%N with false by lia. rewrite M. do 3 f_equal. lia.
Qed.
Lemma read_checked_any : forall t z, read_checked t (write_int z) = if negb (fits t z) then Exn else if signed t && (z =? lo t) then UB else Ok z.
Proof.
  intros t z. rewrite write_int_eq. unfold read_checked, plain. rewrite scan_int_any.
  destruct ((z <? 0) && negb (signed t)) eqn:E.
  - replace (fits t z) with false; [reflexivity|]. unfold fits, lo. destruct (signed t); [lia|]. lia.
  - replace (value (z <? 0, Z.to_N (Z.abs z))) with z by (unfold value; cbn; destruct (z <? 0) eqn:Z0; lia).
    destruct (fits t z) eqn:F; cbn [negb]; [|reflexivity]. unfold conv. cbn [snd]. replace (value (z <? 0, Z.to_N (Z.abs z))) with z by (unfold value; cbn; destruct (z <? 0) eqn:Z0; lia).
    unfold fits, lo in *. destruct (signed t) eqn:S.
    + assert (HI : hi t = 2 ^ (bits t - 1) - 1) by (unfold hi; now rewrite S). replace (hi t <? Z.of_N (Z.to_N (Z.abs z))) with (z =? - 2 ^ (bits t - 1)) by lia. reflexivity.
    + assert (HI : hi t = 2 ^ bits t - 1) by (unfold hi; now rewrite S). cbn [andb]. rewrite Z.mod_small by lia. f_equal. lia.
Qed.
Lemma read_int_any : forall t z, read_int t (write_int z) =
  if signed t then (if hi t <? Z.abs z then UB else Ok z) else if z <? 0 then Exn else Ok (z mod 2 ^ bits t).
Proof.
  intros t z. rewrite write_int_eq. destruct (int_text_cons z) as (c & r & E & P). unfold read_int, arith, plain. rewrite E, P. cbn [andb]. rewrite <- E, scan_int_any.
  destruct (z <? 0) eqn:Z0; cbn [andb].
  - destruct (signed t) eqn:S; cbn [negb]; [|reflexivity]. unfold conv, value. rewrite S. cbn [fst snd]. replace (Z.of_N (Z.to_N (Z.abs z))) with (Z.abs z) by lia. destruct (hi t <? Z.abs z); [reflexivity|f_equal; lia].
  - unfold conv, value. cbn [fst snd]. replace (Z.of_N (Z.to_N (Z.abs z))) with (Z.abs z) by lia. destruct (signed t); [destruct (hi t <? Z.abs z); [reflexivity|f_equal; lia]|].
    now replace (Z.abs z) with z by lia.
Qed.
(** a number in a document that was read *)
Lemma bind_ok : forall A B (e : res A) (f : A -> res B) b, bind e f = Ok b -> exists a, e = Ok a /\ f a = Ok b.
Proof. intros A B [a| |] f b H; try discriminate. now exists a. Qed.
Ltac bk H := repeat match type of H with bind _ _ = Ok _ => let a := fresh "a" in let E := fresh "E" in apply bind_ok in H as (a & E & H) end.
Lemma opt_int_ok : forall t l k cur z v, lookup k l = Some (write_int z) -> opt_int t (NMap l) k cur = Ok v -> v = z /\ fits t z = true.
Proof. intros t l k cur z v L H. unfold opt_int in H. rewrite L, read_checked_any in H. destruct (fits t z); cbn in H; [|discriminate]. destruct (_ && _) in H; [discriminate|]. now injection H. Qed.
Lemma opt_ms_ok : forall l k d cur z v, lookup k l = Some (write_int z) -> opt_some r_ms d (NMap l) k cur = Ok v -> v = Some z /\ fits I64 z = true.
Proof.
  intros l k d cur z v L H. unfold opt_some in H. cbn [child bind] in H. rewrite L in H. unfold r_ms in H. rewrite read_checked_any in H.
  destruct (fits I64 z); cbn [negb] in H; [|discriminate]. destruct (_ && _) in H; [discriminate|]. cbn in H. now injection H as <-.
Qed.
Lemma opt_read_some : forall A (rd : node -> A -> res A) l k cur m v, lookup k l = Some m -> opt_read rd (NMap l) k cur = Ok v -> rd m cur = Ok v.
Proof. intros A rd l k cur m v L H. unfold opt_read in H. cbn in H. now rewrite L in H. Qed.
Lemma numbers_read : forall D l c, deserialize D (NMap l) = Ok c ->
  (forall m, lookup "Middleware" l = Some (NMap m) ->
     (forall z, lookup "ConnectAttempts" m = Some (write_int z) -> mw_attempts (p_middleware c) = z /\ fits I32 z = true) /\
     (forall z, lookup "TcpReceiveBufferSize" m = Some (write_int z) -> mw_rcvbuf (p_middleware c) = z /\ fits I32 z = true) /\
     (forall z, lookup "TcpSendBufferSize" m = Some (write_int z) -> mw_sndbuf (p_middleware c) = z /\ fits I32 z = true)) /\
  (forall m, lookup "HealthCheck" l = Some (NMap m) ->
     (forall z, lookup "SoftResponseTimeout" m = Some (write_int z) -> h_soft (p_health c) = Some z /\ fits I64 z = true) /\
     (forall z, lookup "HardResponseTimeout" m = Some (write_int z) -> h_hard (p_health c) = Some z /\ fits I64 z = true)) /\
  (forall m m', lookup "Experimental" l = Some (NMap m) -> lookup "Metrics" m = Some (NMap m') ->
     forall z, lookup "UpdateInterval" m' = Some (write_int z) -> me_interval (ex_metrics (p_exp c)) = z /\ fits I64 z = true).
Proof.
  intros D l c H. unfold deserialize, r_pcfg in H. bk H. injection H as <-. cbn [p_middleware p_health p_exp]. split; [|split].
  - intros m L. eapply opt_read_some in L; [|eassumption]. unfold r_middleware in L. bk L. injection L as <-. cbn [mw_attempts mw_rcvbuf mw_sndbuf].
    repeat split; intros; try (eapply proj1, opt_int_ok; eassumption); eapply proj2, opt_int_ok; eassumption.
  - intros m L. eapply opt_read_some in L; [|eassumption]. unfold r_health in L. bk L. injection L as <-. cbn [h_soft h_hard].
    repeat split; intros; try (eapply proj1, opt_ms_ok; eassumption); eapply proj2, opt_ms_ok; eassumption.
  - intros m m' L L'. eapply opt_read_some in L; [|eassumption]. unfold r_experimental in L. bk L. injection L as <-. eapply opt_read_some in L'; [|eassumption].
    unfold r_metrics in L'. bk L'. injection L' as <-. cbn. intros z Hz. eapply opt_int_ok; eassumption.
Qed.
