From Coq Require Import String Ascii NArith ZArith List Bool Lia.
From Verif Require Import Base TextModel TextProofs UriProofs YamlModel YamlProofs YamlRound.
Import ListNotations.
Open Scope string_scope.
Open Scope list_scope.
Open Scope Z_scope.

(** * The whole participant configuration *)
Lemma slot_str : forall s, slot r_text [] (match s with [] => None | _ => Some (plain s) end) s.
Proof. intros [|c s]; reflexivity. Qed.
Lemma kept_svc_history : forall s, sv_history (kept_svc s) = sv_history s. Proof. reflexivity. Qed.
Lemma opt_deprecated_slot : forall A (rd : node -> A -> res A) l k k' d v, lookup k' l = None -> slot rd d (lookup k l) v -> opt_deprecated (opt_read rd) (NMap l) k [k'] d = Ok v.
Proof.
  intros A rd l k k' d v H S. unfold opt_deprecated, has_key. cbn [filter child fold_left]. rewrite H. unfold slot in S. unfold opt_read. cbn [child].
  destruct (lookup k l) eqn:E; cbn [filter length Nat.ltb Nat.leb fold_left bind app]; rewrite ?E, ?H; [|now subst]. now rewrite S.
Qed.
Lemma deserialize_serialize : forall D c, wf D c -> sinks_ok c -> deserialize D (serialize D c) = Ok (kept D c).
Proof.
  intros D c W S. unfold deserialize, serialize, r_pcfg, w_pcfg.
  cbn [pcfg0 p_schema p_description p_file p_name p_can p_lin p_eth p_flexray p_pubs p_subs p_servers p_clients p_logging p_health p_tracing p_ext p_includes p_middleware p_exp].
  rewrite (opt_read_slot _ r_text _ "schemaVersion" _ []) by (lk; reflexivity). cbn [bind].
  rewrite (opt_read_slot _ _ _ _ _ (lit "1")) by (lk; reflexivity). cbn [bind].
  rewrite (opt_read_slot _ _ _ _ _ (p_description c)) by (lk; apply slot_str). cbn [bind].
  rewrite (opt_read_slot _ _ _ _ _ (p_name c)) by (lk; apply slot_str). cbn [bind].
  rewrite (opt_read_slot _ _ _ _ _ (map kept_ctrl (p_can c))) by (lk; apply slot_vec, Forall_forall; intros; apply r_ctrl_w). cbn [bind].
  rewrite (opt_read_slot _ _ _ _ _ (map kept_ctrl (p_lin c))) by (lk; apply slot_vec, Forall_forall; intros; apply r_ctrl_w). cbn [bind].
  rewrite (opt_read_slot _ _ _ _ _ (map kept_ctrl (p_eth c))) by (lk; apply slot_vec, Forall_forall; intros; apply r_ctrl_w). cbn [bind].
  rewrite (opt_deprecated_slot _ _ _ _ _ _ (map kept_flexray (p_flexray c))); [cbn [bind]|lk; reflexivity|lk; apply slot_vec; eapply Forall_impl; [|apply (wf_flexray _ _ W)]; intros; now apply r_flexray_w].
  rewrite (opt_read_slot _ _ _ _ _ (map kept_svc (p_pubs c))) by (lk; apply slot_vec; eapply Forall_impl; [|apply (wf_pubs _ _ W)]; intros; now apply r_pub_w). cbn [bind].
  rewrite (opt_read_slot _ _ _ _ _ (map kept_svc (p_subs c))) by (lk; apply slot_vec; eapply Forall_impl; [|apply (wf_subs _ _ W)]; intros; now apply r_sub_w). cbn [bind].
  rewrite (opt_read_slot _ _ _ _ _ (map kept_svc (p_servers c))) by (lk; apply slot_vec; eapply Forall_impl; [|apply (wf_servers _ _ W)]; intros; now apply r_rpc_w; auto). cbn [bind].
  rewrite (opt_read_slot _ _ _ _ _ (map kept_svc (p_clients c))) by (lk; apply slot_vec; eapply Forall_impl; [|apply (wf_clients _ _ W)]; intros; now apply r_rpc_w; auto). cbn [bind].
  rewrite (opt_read_slot _ _ _ _ _ (kept_logging (p_logging c))) by (lk; apply slot_nd; [apply kept_logging_default|intros; now apply r_logging_w]). cbn [bind].
  rewrite (opt_read_slot _ _ _ _ _ (p_health c)) by (lk; apply slot_nd; [apply health_eqb_eq|intros; apply r_health_w; apply (wf_health _ _ W)]). cbn [bind].
  rewrite (opt_read_slot _ _ _ _ _ (p_tracing c)) by (lk; apply slot_nd; [apply tracing_eqb_eq|intros; apply r_tracing_w]). cbn [bind].
  rewrite (opt_read_slot _ _ _ _ _ (p_ext c)) by (lk; apply slot_nd; [apply texts_eqb_eq|intros; apply r_ext_w]). cbn [bind].
  rewrite (opt_read_slot _ _ _ _ _ (kept_middleware D (p_middleware c))) by (lk; apply slot_nd; [apply middleware_eqb_default|intros; apply r_middleware_w; apply (wf_mw _ _ W)]). cbn [bind].
  rewrite (opt_read_slot _ _ _ _ _ (p_includes c)) by (lk; apply slot_nd; [apply includes_eqb_eq|intros; apply r_includes_w]). cbn [bind].
  rewrite (opt_read_slot _ _ _ _ _ (kept_experimental D (p_exp c))) by (lk; apply slot_nd; [apply experimental_eqb_default|intros; apply r_experimental_w; apply W]). reflexivity.
Qed.
