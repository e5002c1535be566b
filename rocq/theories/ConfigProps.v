From Coq Require Import String Ascii NArith List Arith Bool Lia Permutation.
From Verif Require Import Base TextModel AcceptorModel ConfigModel ConfigProofs ConfigMerge.
Import ListNotations.
Open Scope N_scope.
Open Scope list_scope.

Definition el (k : kind) (n : text) : element := mkEl k n None [] None [] [] [] [] 0 [] 0.
Definition with_els (es : list element) : cfg := mkCfg [] es d_middle [] d_log [] d_time None [] None 1 None None [] [].
Definition sink (n p : text) : element := mkEl KSink n None [] None [] [] [] [] 0 p 1.
Definition traced (k : kind) (n : text) (ts : list text) (src : text) : element := mkEl k n None [] None [] [] ts src 0 [] 0.

(** ** C48: a configuration is accepted by the validation iff trace sinks and sources are well-formed and references exist *)
Theorem C48_accepted_iff : forall c,
  validate c = Ok tt <->
  (forall s, In s (c_els c) -> e_kind s = KSink \/ e_kind s = KSource -> e_name s <> [] /\ e_path s <> []) /\
  NoDup (map e_name (filter (is_kind KSink) (c_els c))) /\
  NoDup (map e_name (filter (is_kind KSource) (c_els c))) /\
  (forall x t, In x (c_els c) -> e_kind x <> KSink -> e_kind x <> KSource -> In t (e_sinks x) -> exists s, In s (c_els c) /\ e_kind s = KSink /\ e_name s = t) /\
  (forall x, In x (c_els c) -> e_kind x <> KSink -> e_kind x <> KSource -> e_source x <> [] -> exists s, In s (c_els c) /\ e_kind s = KSource /\ e_name s = e_source x).
Proof.
  intros c.
  assert (K : forall k e, In e (filter (is_kind k) (c_els c)) <-> In e (c_els c) /\ e_kind e = k). { intros k e. rewrite filter_In. unfold is_kind. now rewrite kind_eqb_iff. }
  assert (J : forall e, In e (filter is_controller (c_els c)) <-> In e (c_els c) /\ e_kind e <> KSink /\ e_kind e <> KSource). { intros e. rewrite filter_In. unfold is_controller. destruct (e_kind e); intuition congruence. }
  assert (NE : forall (t : text), negb (text_eqb t []) = true <-> t <> []). { intros t. destruct (text_eqb t []) eqn:E; cbn; [apply text_eqb_iff in E; intuition congruence|]. split; [intros _ ->; discriminate|reflexivity]. }
  assert (M : forall k t, In t (map e_name (filter (is_kind k) (c_els c))) <-> exists s, In s (c_els c) /\ e_kind s = k /\ e_name s = t). { intros k t. rewrite in_map_iff. setoid_rewrite K. firstorder. }
  unfold validate. rewrite bind_ok. unfold validate_sinks, validate_sources. split.
  - intros ([] & S & H). apply check_ok in S as [S1 S]. apply check_ok in S as [S2 S]. apply check_ok in S as [S3 _]. apply bind_ok in H as (names & N & H). apply check_ok in H as [H _].
    apply source_names_ok in N as (-> & N1 & N2 & _). cbn [app] in H. rewrite forallb_forall in S1, S3, H. apply Nat.eqb_eq in S2.
    split; [|split; [|split; [exact N2|split]]].
    + intros s I [E|E]; [|apply N1, K; auto]. assert (I' : In s (filter (is_kind KSink) (c_els c))) by (apply K; auto). apply S1 in I'. apply andb_true_iff in I' as [A B]. now rewrite NE in A, B.
    + apply nodup_NoDup. now rewrite map_length.
    + intros x t I A B T. assert (I' : In x (filter is_controller (c_els c))) by (apply J; auto). apply S3 in I'. rewrite forallb_forall in I'. apply I' in T. apply andb_true_iff in T as [_ T]. rewrite mem_iff, nodup_in in T. now apply M.
    + intros x I A B T. assert (I' : In x (filter is_controller (c_els c))) by (apply J; auto). apply H in I'. apply orb_true_iff in I' as [I'|I']; [apply text_eqb_iff in I'; congruence|]. apply mem_iff in I'. now apply M.
  - intros (A & B & C & D & E). exists tt. split.
    + apply check_ok. split; [apply forallb_forall; intros s I; apply K in I as [I Ks]; apply andb_true_iff; rewrite !NE; now apply A; [|left]|].
      apply check_ok. split; [apply Nat.eqb_eq; apply nodup_NoDup in B; now rewrite map_length in B|]. apply check_ok. split; [|reflexivity].
      apply forallb_forall. intros x I. apply J in I as (I & K1 & K2). apply forallb_forall. intros t T. destruct (D x t I K1 K2 T) as (s & Is & Ks & Ns). apply andb_true_iff. rewrite NE, mem_iff, nodup_in, M. split; [|exists s; auto]. subst t. apply A; auto.
    + apply bind_ok. exists (map e_name (filter (is_kind KSource) (c_els c))). split.
      * apply source_names_ok. split; [reflexivity|]. split; [|split; [exact C|intros s _ []]]. intros s I. apply K in I as [I Ks]. apply A; auto.
      * apply check_ok. split; [|reflexivity]. apply forallb_forall. intros x I. apply J in I as (I & K1 & K2). apply orb_true_iff. destruct (e_source x) as [|a r] eqn:Sx; [now left|right]. apply mem_iff, M. rewrite <- Sx. apply E; auto. congruence.
Qed.
Print Assumptions C48_accepted_iff.
Example C48_accepted_example :
  validate (with_els [sink (lit "s") (lit "out.pcap"); mkEl KSource (lit "r") None [] None [] [] [] [] 0 (lit "in.pcap") 1; traced KEth (lit "E") [lit "s"] (lit "r"); traced KCan (lit "C") [] []]) = Ok tt /\
  validate (with_els [sink (lit "s") (lit "out.pcap"); traced KEth (lit "E") [lit "q"] []]) = Exn /\
  validate (with_els [sink (lit "s") (lit "out.pcap"); sink (lit "s") (lit "b.pcap")]) = Exn /\
  validate (with_els [sink (lit "s") []]) = Exn.
Proof. vm_compute. auto. Qed.

(** Validation never ends in undefined behaviour: it accepts or reports an error *)
Theorem C48_rejected_otherwise : forall c, validate c = Ok tt \/ validate c = Exn.
Proof.
  intros c. unfold validate. assert (A : forall x, check x (Ok tt) = Ok tt \/ check x (Ok tt) = Exn) by (intros []; cbn; auto).
  assert (S : forall l n, (exists r, source_names l n = Ok r) \/ source_names l n = Exn). { induction l as [|s l IH]; intros n; cbn [source_names]; [eauto|]. destruct (_ || _); [auto|apply IH]. }
  assert (B : validate_sinks c = Ok tt \/ validate_sinks c = Exn). { unfold validate_sinks. destruct (forallb _ _); [|cbn; auto]. cbn [check]. destruct (Nat.eqb _ _); [|cbn; auto]. cbn [check]. apply A. }
  destruct B as [->| ->]; [|cbn; auto]. cbn [bind]. unfold validate_sources. destruct (S (filter (is_kind KSource) (c_els c)) []) as [[r ->]| ->]; cbn [bind]; auto.
Qed.
Print Assumptions C48_rejected_otherwise.
Example C48_rejected_example : validate (with_els [traced KLin (lit "L") [] (lit "nowhere")]) = Exn.
Proof. reflexivity. Qed.

(** Finding: loading a configuration does not validate it (Config::Validate is called by tests only), so a configuration
    naming a trace sink that does not exist is loaded. *)
Theorem C48_loaded_configurations_are_valid_refuted : exists fs root r, load fs root = Ok r /\ validate r = Exn.
Proof.
  exists (fun _ => None), (with_els [traced KEth (lit "E") [lit "nowhere"] []]).
  eexists. split; vm_compute; reflexivity.
Qed.
Print Assumptions C48_loaded_configurations_are_valid_refuted.

(** ** C59: the files read *)
Theorem C59_included_files_are_read_once : forall fs root buf, process_includes fs root = Ok buf ->
  NoDup (map fst buf) /\ forall f c, In (f, c) buf <-> fs f = Some c /\ exists k, (k <= 127)%nat /\ reach fs root k f.
Proof. exact process_ok. Qed.
Print Assumptions C59_included_files_are_read_once.
Definition inc (fs : list text) : cfg := mkCfg [] [] d_middle [] d_log [] d_time None [] None 1 None None [] fs.
(** a.yaml and b.yaml include each other and themselves *)
Definition cyclic : files := fun f => if text_eqb f (lit "a") then Some (inc [lit "b"; lit "a"]) else if text_eqb f (lit "b") then Some (inc [lit "a"; lit "c"]) else if text_eqb f (lit "c") then Some (inc []) else None.
Example C59_cyclic_example : bind (process_includes cyclic (inc [lit "a"; lit "b"])) (fun b => Ok (map fst b)) = Ok [lit "a"; lit "b"; lit "c"].
Proof. vm_compute. reflexivity. Qed.

Theorem C59_missing_file_is_an_error : forall fs root,
  (process_includes fs root = Exn <-> exists k f, (k <= 127)%nat /\ reach fs root k f /\ fs f = None) /\ (process_includes fs root = Exn -> load fs root = Exn).
Proof. intros fs root. split; [apply process_exn|]. intros H. unfold load. now rewrite H. Qed.
Print Assumptions C59_missing_file_is_an_error.
Example C59_missing_example : load cyclic (inc [lit "a"; lit "d"]) = Exn.
Proof. vm_compute. reflexivity. Qed.

(** ** The merged configuration *)
(** sections have as many options as the defaults *)
Definition wf (c : cfg) : Prop := length (c_middle c) = length d_middle /\ length (c_log c) = length d_log /\ length (c_time c) = length d_time.
(** two non-default settings of option [i] are equal *)
Definition no_conflict (get : cfg -> list N) (ds : list N) (all : list cfg) : Prop :=
  forall i a b, (i < length ds)%nat -> In a all -> In b all -> nth i (get a) 0 <> nth i ds 0 -> nth i (get b) 0 <> nth i ds 0 -> nth i (get a) 0 = nth i (get b) 0.
Lemma no_conflict_settled : forall get ds all, no_conflict get ds all <-> (forall i, (i < length ds)%nat -> exists v, settled (nth i ds 0) v (map (fun c => nth i (get c) 0) all)).
Proof.
  intros get ds all. split.
  - intros H i G. destruct (find (fun c => negb (nth i (get c) 0 =? nth i ds 0)) all) as [c|] eqn:F.
    + apply find_some in F as [I F]. rewrite negb_true_iff, N.eqb_neq in F. exists (nth i (get c) 0). split.
      * intros x J. apply in_map_iff in J as (b & <- & J). destruct (N.eq_dec (nth i (get b) 0) (nth i ds 0)); [now left|right]. now apply H.
      * right. apply in_map_iff. eauto.
    + exists (nth i ds 0). split; [|now left]. intros x J. apply in_map_iff in J as (b & <- & J). pose proof (find_none _ _ F b J) as K. cbn in K. rewrite negb_false_iff, N.eqb_eq in K. auto.
  - intros H i a b G A B NA NB. destruct (H i G) as (v & S & _). pose proof (S _ (in_map (fun c => nth i (get c) 0) _ _ A)) as SA. pose proof (S _ (in_map (fun c => nth i (get c) 0) _ _ B)) as SB. cbn in SA, SB. destruct SA, SB; congruence.
Qed.

(** everything about a successful load at once *)
Definition consistent (all : list cfg) : Prop :=
  (forall x y, In x (concat (map c_els all)) -> In y (concat (map c_els all)) -> e_kind x = e_kind y -> e_name x = e_name y -> same_settings x y) /\
  no_conflict c_middle d_middle all /\ no_conflict c_log d_log all /\ no_conflict c_time d_time all /\
  (length (filter nonempty (map c_acceptors all)) <= 1)%nat /\ (length (filter nonempty (map c_name all)) <= 1)%nat /\
  changing (somes (map c_soft all)) /\ changing (somes (map c_hard all)) /\
  ((length (filter (is_l LStdout) (concat (map c_lsinks all))) <= 1)%nat /\ (length (filter (is_l LRemote) (concat (map c_lsinks all))) <= 1)%nat /\ NoDup (map l_name (filter (is_l LFile) (concat (map c_lsinks all))))) /\
  (forall b b', In (Some b) (map c_dynamic all) -> In (Some b') (map c_dynamic all) -> b = b') /\
  (filter (is_m MUndefined) (concat (map c_msinks all)) = [] /\ (length (filter (is_m MRemote) (concat (map c_msinks all))) <= 1)%nat /\ NoDup (map m_name (filter (is_m MJson) (concat (map c_msinks all))))) /\
  ~ ((exists c, In c all /\ c_collect c = Some true) /\ exists s, In s (concat (map c_msinks all)) /\ m_type s = MRemote).
Record merged (all : list cfg) (r : cfg) : Prop := mkMerged {
  mg_first : forall e, find (fun x => same_name x e) (c_els r) = find (fun x => same_name x e) (concat (map c_els all));
  mg_from : forall e, In e (c_els r) -> In e (concat (map c_els all));
  mg_nodup : NoDup (map (fun e => (e_kind e, e_name e)) (c_els r));
  mg_middle : forall i, (i < length d_middle)%nat -> settled (nth i d_middle 0) (nth i (c_middle r) 0) (map (fun c => nth i (c_middle c) 0) all);
  mg_log : forall i, (i < length d_log)%nat -> settled (nth i d_log 0) (nth i (c_log r) 0) (map (fun c => nth i (c_log c) 0) all);
  mg_time : forall i, (i < length d_time)%nat -> settled (nth i d_time 0) (nth i (c_time r) 0) (map (fun c => nth i (c_time c) 0) all);
  mg_acceptors : filter nonempty (map c_acceptors all) = filter nonempty [c_acceptors r];
  mg_name : filter nonempty (map c_name all) = filter nonempty [c_name r];
  mg_soft : c_soft r = last_of (somes (map c_soft all));
  mg_hard : c_hard r = last_of (somes (map c_hard all));
  mg_lsinks : Permutation (c_lsinks r) (concat (map c_lsinks all));
  mg_dynamic : forall b, c_dynamic r = Some b <-> In (Some b) (map c_dynamic all);
  mg_msinks : Permutation (c_msinks r) (concat (map c_msinks all));
  mg_collect : c_collect r = None;
  mg_interval : c_interval r = 1;
  mg_ext : c_ext r = concat (map c_ext all) }.

Lemma len_le1 : forall A (l : list A), (length l <= 1)%nat <-> exists o, l = opt o.
Proof. intros A [|a [|b l]]; cbn; split; try lia; [exists None; reflexivity|exists (Some a); reflexivity|intros [[x|] E]; discriminate]. Qed.
Lemma once_le1 : forall A (l : list (list A)), (length (filter nonempty l) <= 1)%nat <-> exists r, filter nonempty l = filter nonempty [r].
Proof.
  intros A l. split.
  - intros H. destruct (filter nonempty l) as [|x [|y m]] eqn:F; [exists []; reflexivity| |cbn in H; lia]. exists x. cbn. assert (I : In x (filter nonempty l)) by (rewrite F; now left). apply filter_In in I as [_ I]. now rewrite I.
  - intros (r & ->). cbn. destruct (nonempty r); cbn; lia.
Qed.
Lemma load_facts : forall fs root buf, process_includes fs root = Ok buf -> (forall c, In c (root :: map snd buf) -> wf c) ->
  (forall r, load fs root = Ok r -> merged (root :: map snd buf) r /\ consistent (root :: map snd buf)) /\ (consistent (root :: map snd buf) -> exists r, load fs root = Ok r).
Proof.
  intros fs root buf P W. unfold load. rewrite P. cbn [bind]. set (all := root :: map snd buf) in *. clearbody all.
  assert (W1 : forall c, In c all -> length (c_middle c) = length d_middle) by (intros c I; now destruct (W c I)).
  assert (W2 : forall c, In c all -> length (c_log c) = length d_log) by (intros c I; now destruct (W c I) as (_ & ? & _)).
  assert (W3 : forall c, In c all -> length (c_time c) = length d_time) by (intros c I; now destruct (W c I) as (_ & _ & ?)).
  destruct (section_ok c_middle d_middle all W1) as [M1 M2]. destruct (section_ok c_log d_log all W2) as [L1 L2]. destruct (section_ok c_time d_time all W3) as [T1 T2].
  pose proof (proj1 (no_conflict_settled c_middle d_middle all)) as CM. pose proof (proj1 (no_conflict_settled c_log d_log all)) as CL. pose proof (proj1 (no_conflict_settled c_time d_time all)) as CT.
  split.
  - intros r H. apply bind_ok in H as (k & K & H). apply bind_ok in H as (r0 & R & H). apply populate_all_ok in K as (K1 & K2 & K3 & K4 & K5 & K6 & K7 & K8). apply merge_configs_ok in R as (R1 & R2 & R3 & R4 & R5 & R6 & R7 & R8 & R9 & R10 & R11 & R12 & R13 & R14 & R15).
    cbn [cfg0 c_els c_soft c_hard c_name c_ext c_middle c_acceptors c_log c_lsinks c_time c_dynamic c_msinks c_collect c_interval c_includes caches0 k_acceptors k_middle k_log k_stdout k_remote k_files k_time k_dynamic k_collect k_json k_mremote app] in *.
    rewrite foldr_items in R1. apply (merge_items_ok _ []) in R1 as [(F1 & F2 & F3) A]; [|apply pinv0]. cbn [app] in *.
    rewrite foldr_map in K6, K7. apply foldr_acceptors in K1. apply foldr_names in R4. cbn [filter nonempty] in K1, R4.
    apply M1 in K2 as [LK2 K2]. apply L1 in K3 as [LK3 K3]. apply T1 in K5 as [LK5 K5].
    rewrite foldr_lsinks in K4. apply cache_lsinks_ok in K4 as (S1 & S2 & S3 & S4); [|constructor]. rewrite foldr_msinks in K8. apply cache_msinks_ok in K8 as (N1 & N2 & N3 & N4); [|constructor]. cbn [opt app] in *.
    apply foldr_dynamic in K6 as [D1 D2]. rewrite foldr_collect in K7. injection K7 as K7. rewrite (foldr_health_map c_soft) in R2. rewrite (foldr_health_map c_hard) in R3. cbn [opt app] in R2, R3. destruct R2 as [H1 H2], R3 as [H3 H4].
    assert (E : r = mkCfg (c_name r0) (c_els r0) (merge_values (c_middle r0) (k_middle k)) (k_acceptors k) (merge_values (c_log r0) (k_log k))
        (c_lsinks r0 ++ fold_left (fun l s => byname s l) (k_files k) [] ++ opt (k_stdout k) ++ opt (k_remote k))
        (merge_values (c_time r0) (k_time k)) (match k_dynamic k with Some b => Some b | None => c_dynamic r0 end)
        (c_msinks r0 ++ fold_left (fun l s => mbyname s l) (k_json k) [] ++ opt (k_mremote k))
        (match c_collect r0 with Some x => Some (match k_collect k with Some y => y | None => x end) | None => None end)
        (c_interval r0) (c_soft r0) (c_hard r0) (c_ext r0) (c_includes r0) /\ (k_mremote k = None \/ k_collect k <> Some true)).
    { unfold merge_caches in H. destruct (k_mremote k), (k_collect k) as [[]|]; try discriminate; injection H as <-; split; try reflexivity; auto; right; discriminate. }
    clear H. destruct E as [-> NC]. rewrite R6, R8, R9, R10, R11, R12, R13. cbn [app].
    split.
    + constructor; cbn [c_els c_soft c_hard c_name c_ext c_middle c_acceptors c_log c_lsinks c_time c_dynamic c_msinks c_collect c_interval c_includes]; auto.
      * rewrite bynames_perm, app_nil_r, <- S1, <- S2, S3. symmetry. apply lsinks_partition.
      * intros b. split.
        -- intros E. assert (E' : k_dynamic k = Some b) by (destruct (k_dynamic k); [exact E|discriminate]). destruct (D2 b E') as [Q|I]; [discriminate|exact I].
        -- intros I. pose proof (D1 b (or_intror I)) as E. now rewrite E.
      * rewrite mbynames_perm, app_nil_r, <- N2, N3. symmetry. now apply msinks_partition.
    + unfold consistent. split; [|split; [|split; [|split; [|split; [|split; [|split; [|split; [|split; [|split; [|split]]]]]]]]]].
      * now apply agree_iff.
      * apply no_conflict_settled. intros i G. exists (nth i (merge_values d_middle (k_middle k)) 0). now apply K2.
      * apply no_conflict_settled. intros i G. exists (nth i (merge_values d_log (k_log k)) 0). now apply K3.
      * apply no_conflict_settled. intros i G. exists (nth i (merge_values d_time (k_time k)) 0). now apply K5.
      * apply once_le1. eauto.
      * apply once_le1. eauto.
      * exact H1.
      * exact H3.
      * split; [apply len_le1; eauto|]. split; [apply len_le1; eauto|]. now rewrite <- S3.
      * intros b b' I I'. pose proof (D1 b (or_intror I)). pose proof (D1 b' (or_intror I')). congruence.
      * split; [exact N1|]. split; [apply len_le1; eauto|]. now rewrite <- N3.
      * intros [(c & Ic & Ec) (s & Is & Es)].
        assert (KC : k_collect k = Some true). { rewrite <- K7. replace (existsb _ _) with true; [reflexivity|]. symmetry. apply existsb_exists. exists (Some true). split; [apply in_map_iff; eauto|reflexivity]. }
        assert (KR : k_mremote k <> None). { intros Q. rewrite Q in N2. cbn in N2. assert (In s (filter (is_m MRemote) (concat (map c_msinks all)))) by (apply filter_In; split; [exact Is|unfold is_m; now rewrite Es]). rewrite N2 in H. destruct H. }
        destruct NC; congruence.
  - intros (A & B1 & B2 & B3 & C & D & E1 & E2 & (F1 & F2 & F3) & G & (H1 & H2 & H3) & I).
    destruct (M2 (CM B1)) as [km KM]. destruct (L2 (CL B2)) as [kl KL]. destruct (T2 (CT B3)) as [kt KT]. apply once_le1 in C as [ka KA], D as [rn RN].
    apply len_le1 in F1 as [ko KO], F2 as [kr KR], H2 as [kmr KMR].
    assert (KD : exists kd, foldr cache_dynamic (map c_dynamic all) None = Ok kd).
    { destruct (in_dec (fun x y : option bool => ltac:(decide equality; apply Bool.bool_dec)) (Some true) (map c_dynamic all)) as [Q|Q]; [exists (Some true)|destruct (in_dec (fun x y : option bool => ltac:(decide equality; apply Bool.bool_dec)) (Some false) (map c_dynamic all)) as [Q'|Q']; [exists (Some false)|exists None]].
      - apply foldr_dynamic. split; [intros b [J|J]; [discriminate|]; f_equal; now apply G|]. intros b J. injection J as <-. now right.
      - apply foldr_dynamic. split; [intros b [J|J]; [discriminate|]; f_equal; now apply G|]. intros b J. injection J as <-. now right.
      - apply foldr_dynamic. split; [intros [] [J|J]; try discriminate; contradiction|]. intros b J. discriminate. }
    destruct KD as [kd KD]. set (kc := if existsb (fun v => match v with Some true => true | _ => false end) (map c_collect all) then Some true else None).
    assert (KP : populate_all all caches0 = Ok (mkCaches km ka kl ko kr (filter (is_l LFile) (concat (map c_lsinks all))) kt kd kc (filter (is_m MJson) (concat (map c_msinks all))) kmr)).
    { apply populate_all_ok. cbn [caches0 k_acceptors k_middle k_log k_stdout k_remote k_files k_time k_dynamic k_collect k_json k_mremote]. split; [apply foldr_acceptors; exact KA|]. split; [exact KM|]. split; [exact KL|].
      split; [rewrite foldr_lsinks; apply cache_lsinks_ok; [constructor|cbn [opt app]; auto]|]. split; [exact KT|]. split; [rewrite foldr_map; exact KD|]. split; [rewrite foldr_map; apply foldr_collect|]. rewrite foldr_msinks. apply cache_msinks_ok; [constructor|cbn [opt app]; auto]. }
    rewrite KP. cbn [bind].
    destruct (merge_items_total (concat (map c_els all)) [] [] pinv0) as [els ELS]; [now apply agree_iff|].
    assert (RP : merge_configs all cfg0 = Ok (mkCfg rn els d_middle [] d_log [] d_time None [] None 1 (last_of (somes (map c_soft all))) (last_of (somes (map c_hard all))) (concat (map c_ext all)) [])).
    { apply merge_configs_ok. cbn [cfg0 c_els c_soft c_hard c_name c_ext c_middle c_acceptors c_log c_lsinks c_time c_dynamic c_msinks c_collect c_interval c_includes]. split; [rewrite foldr_items; exact ELS|]. split; [apply (foldr_health_map c_soft); cbn [opt app]; auto|]. split; [apply (foldr_health_map c_hard); cbn [opt app]; auto|]. split; [apply foldr_names; exact RN|]. repeat split. }
    rewrite RP. cbn [bind]. unfold merge_caches. cbn [k_mremote k_collect]. unfold kc. destruct kmr as [s|]; [|destruct (existsb _ _); eauto]. destruct (existsb _ (map c_collect all)) eqn:X; [|eauto]. exfalso. apply I. split.
    + apply existsb_exists in X as (v & J & E). destruct v as [[]|]; try discriminate. apply in_map_iff in J as (c & E' & J). eauto.
    + exists s. assert (J : In s (filter (is_m MRemote) (concat (map c_msinks all)))) by (rewrite KMR; now left). apply filter_In in J as [J K]. split; [exact J|]. unfold is_m in K. destruct (m_type s); congruence.
Qed.

(** A configuration with included files is accepted iff the files are consistent; it is never read with undefined behaviour *)
Theorem C59_accepted_iff_consistent : forall fs root buf, process_includes fs root = Ok buf -> (forall c, In c (root :: map snd buf) -> wf c) ->
  ((exists r, load fs root = Ok r) <-> consistent (root :: map snd buf)).
Proof. intros fs root buf P W. destruct (load_facts fs root buf P W) as [A B]. split; [intros (r & H); now apply (A r)|exact B]. Qed.
Print Assumptions C59_accepted_iff_consistent.
Definition participant (n : text) (es : list element) (is : list text) : cfg := mkCfg n es d_middle [] d_log [] d_time None [] None 1 None None [] is.
(** Demo.yaml declares CAN1 and includes two files, which both declare the same CAN2 *)
Definition demo : files := fun f => if text_eqb f (lit "x") then Some (participant [] [el KCan (lit "CAN2")] []) else if text_eqb f (lit "y") then Some (participant [] [el KCan (lit "CAN2"); el KLin (lit "CAN2")] [lit "x"]) else None.
Definition demo_root := participant (lit "P") [el KCan (lit "CAN1")] [lit "x"; lit "y"].
Example C59_accepted_example : exists r, load demo demo_root = Ok r /\ c_name r = lit "P" /\ map (fun e => (e_kind e, e_name e)) (c_els r) = [(KCan, lit "CAN1"); (KCan, lit "CAN2"); (KLin, lit "CAN2")].
Proof. eexists. split; [vm_compute; reflexivity|]. split; reflexivity. Qed.

(** Controllers, services, sinks and sources: one of each kind and name, the first that is read; all others of that kind and name have
    the same settings, as far as operator== looks at them. *)
Theorem C59_items : forall fs root buf r, process_includes fs root = Ok buf -> (forall c, In c (root :: map snd buf) -> wf c) -> load fs root = Ok r ->
  (forall c e, In c (root :: map snd buf) -> In e (c_els c) -> exists d, In d (c_els r) /\ e_kind d = e_kind e /\ e_name d = e_name e /\ same_settings d e) /\
  (forall d, In d (c_els r) -> exists c, In c (root :: map snd buf) /\ In d (c_els c)) /\
  NoDup (map (fun e => (e_kind e, e_name e)) (c_els r)).
Proof.
  intros fs root buf r P W H. destruct (load_facts fs root buf P W) as [A _]. destruct (A r H) as [M C]. destruct C as (C & _).
  assert (X : forall e, In e (concat (map c_els (root :: map snd buf))) <-> exists c, In c (root :: map snd buf) /\ In e (c_els c)). { intros e. rewrite in_concat. setoid_rewrite in_map_iff. split; [intros (l & (c & <- & I) & J); eauto|intros (c & I & J); eauto]. }
  split; [|split; [|exact (mg_nodup _ _ M)]].
  - intros c e Ic Ie. assert (I : In e (concat (map c_els (root :: map snd buf)))) by (apply X; eauto). destruct (find_first _ _ I) as (d & F & Id & S). exists d. rewrite <- (mg_first _ _ M) in F. pose proof (find_some _ _ F) as [J _]. apply same_name_iff in S as [S1 S2]. split; [exact J|]. split; [exact S1|]. split; [exact S2|]. now apply C.
  - intros d I. apply X. now apply (mg_from _ _ M).
Qed.
Print Assumptions C59_items.
(** Bus controllers, sinks and sources with the same name but different settings in two files are an error *)
Theorem C59_conflicting_items_are_an_error : forall fs root buf a b x y, process_includes fs root = Ok buf -> (forall c, In c (root :: map snd buf) -> wf c) ->
  In a (root :: map snd buf) -> In b (root :: map snd buf) -> In x (c_els a) -> In y (c_els b) -> e_kind x = e_kind y -> e_name x = e_name y -> ~ same_settings x y ->
  forall r, load fs root <> Ok r.
Proof.
  intros fs root buf a b x y P W A B X Y K N D r H. destruct (load_facts fs root buf P W) as [L _]. destruct (L r H) as [_ (C & _)]. apply D, C; try assumption; apply in_concat; eexists; split; try eassumption; now apply in_map.
Qed.
Print Assumptions C59_conflicting_items_are_an_error.
Definition can_on (n net : text) : element := mkEl KCan n (Some net) [] None [] [] [] [] 0 [] 0.
Example C59_conflict_example : ~ same_settings (can_on (lit "C") (lit "A")) (can_on (lit "C") (lit "B")) /\
  load (fun f => if text_eqb f (lit "x") then Some (participant [] [can_on (lit "C") (lit "B")] []) else None) (participant [] [can_on (lit "C") (lit "A")] [lit "x"]) = Exn.
Proof. split; [|vm_compute; reflexivity]. intros (_ & E & _). discriminate. Qed.

(** Scalar options of Middleware, Logging and Experimental/TimeSynchronization: the result is the only non-default setting, or the default *)
Theorem C59_options : forall fs root buf r get ds i, process_includes fs root = Ok buf -> (forall c, In c (root :: map snd buf) -> wf c) -> load fs root = Ok r ->
  (get = c_middle /\ ds = d_middle) \/ (get = c_log /\ ds = d_log) \/ (get = c_time /\ ds = d_time) -> (i < length ds)%nat ->
  (forall c, In c (root :: map snd buf) -> nth i (get c) 0 = nth i ds 0 \/ nth i (get c) 0 = nth i (get r) 0) /\
  (nth i (get r) 0 = nth i ds 0 \/ exists c, In c (root :: map snd buf) /\ nth i (get c) 0 = nth i (get r) 0).
Proof.
  intros fs root buf r get ds i P W H S G. destruct (load_facts fs root buf P W) as [A _]. destruct (A r H) as [M _].
  assert (T : settled (nth i ds 0) (nth i (get r) 0) (map (fun c => nth i (get c) 0) (root :: map snd buf))) by (destruct S as [[-> ->]|[[-> ->]|[-> ->]]]; [now apply (mg_middle _ _ M)|now apply (mg_log _ _ M)|now apply (mg_time _ _ M)]).
  destruct T as [T1 T2]. split; [intros c I; apply T1, in_map_iff; eauto|]. destruct T2 as [T2|T2]; [now left|right]. apply in_map_iff in T2 as (c & E & I). eauto.
Qed.
Print Assumptions C59_options.
Definition attempts (n : N) (is : list text) : cfg := mkCfg [] [] (n :: tl d_middle) [] d_log [] d_time None [] None 1 None None [] is.
Definition one_file (f : text) (c : cfg) : files := fun g => if text_eqb g f then Some c else None.
Example C59_options_example :
  (exists r, load (one_file (lit "x") (attempts 7 [])) (attempts 1 [lit "x"]) = Ok r /\ nth 0 (c_middle r) 0 = 7) /\ load (one_file (lit "x") (attempts 7 [])) (attempts 8 [lit "x"]) = Exn.
Proof. split; [eexists; split; vm_compute; reflexivity|vm_compute; reflexivity]. Qed.

(** The participant name and the acceptor URIs: set in at most one file, and taken from there *)
Theorem C59_name_and_acceptors : forall fs root buf r, process_includes fs root = Ok buf -> (forall c, In c (root :: map snd buf) -> wf c) -> load fs root = Ok r ->
  filter nonempty (map c_name (root :: map snd buf)) = (if nonempty (c_name r) then [c_name r] else []) /\
  filter nonempty (map c_acceptors (root :: map snd buf)) = (if nonempty (c_acceptors r) then [c_acceptors r] else []).
Proof. intros fs root buf r P W H. destruct (load_facts fs root buf P W) as [A _]. destruct (A r H) as [M _]. split; [exact (mg_name _ _ M)|exact (mg_acceptors _ _ M)]. Qed.
Print Assumptions C59_name_and_acceptors.
Example C59_name_example : (exists r, load (one_file (lit "x") (participant [] [] [])) (participant (lit "P") [] [lit "x"]) = Ok r /\ c_name r = lit "P") /\ load (one_file (lit "x") (participant (lit "P") [] [])) (participant (lit "P") [] [lit "x"]) = Exn.
Proof. split; [eexists; split; vm_compute; reflexivity|vm_compute; reflexivity]. Qed.

(** Sinks: none is lost or duplicated, at most one stdout and one remote sink, file names are unique *)
Theorem C59_sinks : forall fs root buf r, process_includes fs root = Ok buf -> (forall c, In c (root :: map snd buf) -> wf c) -> load fs root = Ok r ->
  Permutation (c_lsinks r) (concat (map c_lsinks (root :: map snd buf))) /\
  (length (filter (is_l LStdout) (c_lsinks r)) <= 1)%nat /\ (length (filter (is_l LRemote) (c_lsinks r)) <= 1)%nat /\ NoDup (map l_name (filter (is_l LFile) (c_lsinks r))) /\
  Permutation (c_msinks r) (concat (map c_msinks (root :: map snd buf))) /\ (length (filter (is_m MRemote) (c_msinks r)) <= 1)%nat /\ NoDup (map m_name (filter (is_m MJson) (c_msinks r))).
Proof.
  intros fs root buf r P W H. destruct (load_facts fs root buf P W) as [A _]. destruct (A r H) as [M (_ & _ & _ & _ & _ & _ & _ & _ & (S1 & S2 & S3) & _ & (T0 & T1 & T2) & _)].
  assert (PF : forall A (f : A -> bool) l m, Permutation l m -> Permutation (filter f l) (filter f m)). { intros B f l m Q. induction Q as [|x l m Q IH|x y l|l m n Q1 IH1 Q2 IH2]; cbn; [constructor|destruct (f x); [now constructor|exact IH]|destruct (f x), (f y); try apply Permutation_refl; apply perm_swap|exact (Permutation_trans IH1 IH2)]. }
  pose proof (mg_lsinks _ _ M) as L. pose proof (mg_msinks _ _ M) as L'.
  split; [exact L|]. split; [rewrite (Permutation_length (PF _ _ _ _ L)); exact S1|]. split; [rewrite (Permutation_length (PF _ _ _ _ L)); exact S2|]. split; [apply (Permutation_NoDup (Permutation_map l_name (Permutation_sym (PF _ _ _ _ L)))); exact S3|].
  split; [exact L'|]. split; [rewrite (Permutation_length (PF _ _ _ _ L')); exact T1|]. apply (Permutation_NoDup (Permutation_map m_name (Permutation_sym (PF _ _ _ _ L')))); exact T2.
Qed.
Print Assumptions C59_sinks.
Definition logging (ss : list lsink) (is : list text) : cfg := mkCfg [] [] d_middle [] d_log ss d_time None [] None 1 None None [] is.
Example C59_sinks_example :
  (exists r, load (one_file (lit "x") (logging [mkLsink LFile (lit "a") 1; mkLsink LStdout [] 2] [])) (logging [mkLsink LFile (lit "b") 3] [lit "x"]) = Ok r /\ map l_rest (c_lsinks r) = [1; 3; 2]) /\
  load (one_file (lit "x") (logging [mkLsink LFile (lit "a") 1] [])) (logging [mkLsink LFile (lit "a") 1] [lit "x"]) = Exn.
Proof. split; [eexists; split; vm_compute; reflexivity|vm_compute; reflexivity]. Qed.

(** Search path hints of Extensions are concatenated in the order of reading *)
Theorem C59_extensions : forall fs root buf r, process_includes fs root = Ok buf -> (forall c, In c (root :: map snd buf) -> wf c) -> load fs root = Ok r ->
  c_ext r = concat (map c_ext (root :: map snd buf)) /\ forall b, c_dynamic r = Some b <-> exists c, In c (root :: map snd buf) /\ c_dynamic c = Some b.
Proof.
  intros fs root buf r P W H. destruct (load_facts fs root buf P W) as [A _]. destruct (A r H) as [M _]. split; [exact (mg_ext _ _ M)|]. intros b. rewrite (mg_dynamic _ _ M b), in_map_iff. firstorder.
Qed.
Print Assumptions C59_extensions.
Definition hints (l : list text) (is : list text) : cfg := mkCfg [] [] d_middle [] d_log [] d_time (Some true) [] None 1 None None l is.
Example C59_extensions_example : exists r, load (one_file (lit "x") (hints [lit "a"; lit "b"] [])) (hints [lit "c"] [lit "x"]) = Ok r /\ c_ext r = [lit "c"; lit "a"; lit "b"].
Proof. eexists; split; vm_compute; reflexivity. Qed.

(** *** Findings *)
(** A health check timeout that is set to the same value in two files is an error, while two different values are accepted and the last
    one wins: the comparison is the wrong way round (MergeHealthCheck). *)
Definition soft (n : N) (is : list text) : cfg := mkCfg [] [] d_middle [] d_log [] d_time None [] None 1 (Some n) None [] is.
Theorem C59_health_check_last_wins : forall fs root buf r, process_includes fs root = Ok buf -> (forall c, In c (root :: map snd buf) -> wf c) -> load fs root = Ok r ->
  c_soft r = last_of (somes (map c_soft (root :: map snd buf))) /\ c_hard r = last_of (somes (map c_hard (root :: map snd buf))).
Proof. intros fs root buf r P W H. destruct (load_facts fs root buf P W) as [A _]. destruct (A r H) as [M _]. split; [exact (mg_soft _ _ M)|exact (mg_hard _ _ M)]. Qed.
Print Assumptions C59_health_check_last_wins.
Theorem C59_health_check_conflict_is_an_error_refuted :
  (exists r, load (one_file (lit "x") (soft 20 [])) (soft 10 [lit "x"]) = Ok r /\ c_soft r = Some 20) /\ load (one_file (lit "x") (soft 10 [])) (soft 10 [lit "x"]) = Exn.
Proof. split; [eexists; split; vm_compute; reflexivity|vm_compute; reflexivity]. Qed.
Print Assumptions C59_health_check_conflict_is_an_error_refuted.

(** operator== of publishers, subscribers, RPC servers and clients looks only at the trace settings: of two publishers with the same name
    and different topics, the second is dropped silently. The same holds for the tx buffers of FlexRay controllers. *)
Definition publisher (n topic : text) : element := mkEl KPub n (Some topic) [] None [] [] [] [] 0 [] 0.
Theorem C59_conflicting_services_are_an_error_refuted : exists r,
  load (one_file (lit "x") (with_els [publisher (lit "P") (lit "B")])) (participant [] [publisher (lit "P") (lit "A")] [lit "x"]) = Ok r /\ c_els r = [publisher (lit "P") (lit "A")].
Proof. eexists; split; vm_compute; reflexivity. Qed.
Print Assumptions C59_conflicting_services_are_an_error_refuted.
Definition flexray (bufs : list N) : element := mkEl KFlexray (lit "F") None [] None [] bufs [] [] 0 [] 0.
Theorem C59_conflicting_tx_buffers_are_an_error_refuted : exists r,
  load (one_file (lit "x") (with_els [flexray [1]])) (participant [] [flexray [2; 3]] [lit "x"]) = Ok r /\ c_els r = [flexray [2; 3]].
Proof. eexists; split; vm_compute; reflexivity. Qed.
Print Assumptions C59_conflicting_tx_buffers_are_an_error_refuted.

(** "May be defined once": an option may be set twice to the same value, and setting it to the default in one file does not conflict
    with another value elsewhere. *)
Theorem C59_options_are_defined_once_refuted :
  (exists r, load (one_file (lit "x") (attempts 7 [])) (attempts 7 [lit "x"]) = Ok r) /\ (exists r, load (one_file (lit "x") (attempts 7 [])) (attempts 1 [lit "x"]) = Ok r).
Proof. split; eexists; vm_compute; reflexivity. Qed.
Print Assumptions C59_options_are_defined_once_refuted.

(** Experimental/Metrics: CollectFromRemote and UpdateInterval never reach the merged configuration, not even from the root file. *)
Theorem C59_metrics_options_are_lost : forall fs root buf r, process_includes fs root = Ok buf -> (forall c, In c (root :: map snd buf) -> wf c) -> load fs root = Ok r ->
  c_collect r = None /\ c_interval r = 1.
Proof. intros fs root buf r P W H. destruct (load_facts fs root buf P W) as [A _]. destruct (A r H) as [M _]. split; [exact (mg_collect _ _ M)|exact (mg_interval _ _ M)]. Qed.
Print Assumptions C59_metrics_options_are_lost.
Definition metrics : cfg := mkCfg [] [] d_middle [] d_log [] d_time None [] (Some true) 9 None None [] [].
Theorem C59_metrics_options_are_kept_refuted : exists r, load (fun _ => None) metrics = Ok r /\ c_collect metrics = Some true /\ c_collect r = None /\ c_interval metrics = 9 /\ c_interval r = 1.
Proof. eexists. split; [vm_compute; reflexivity|]. auto. Qed.
Print Assumptions C59_metrics_options_are_kept_refuted.

(** Files further than 127 includes away from the root are ignored without an error, even if they do not exist. *)
Definition chain : files := fun f => match f with [n] => if n <? 127 then Some (inc [[n + 1]]) else None | _ => None end.
Theorem C59_deep_includes_are_read_refuted : chain [127] = None /\ reach chain (inc [[0]]) 128 [127] /\ exists r, load chain (inc [[0]]) = Ok r.
Proof.
  split; [reflexivity|]. split; [|eexists; vm_compute; reflexivity].
  assert (R : forall k, (k < 128)%nat -> reach chain (inc [[0]]) (S k) [N.of_nat k]).
  { induction k as [|k IH]; intros L; [apply reach_root; now left|]. apply (reach_next _ _ _ [N.of_nat k] (inc [[N.of_nat k + 1]])); [apply IH; lia| |].
    - unfold chain. destruct (N.ltb_spec (N.of_nat k) 127); [reflexivity|lia].
    - cbn [inc c_includes]. left. f_equal. lia. }
  change 127 with (N.of_nat 127). apply R. lia.
Qed.
Print Assumptions C59_deep_includes_are_read_refuted.

(** The root file is not known to the include buffer: when an included file includes it again, it is read a second time, and its
    participant name conflicts with itself. *)
Definition self_including : cfg := participant (lit "P") [] [lit "root"].
Theorem C59_each_file_is_read_once_refuted : load (one_file (lit "root") self_including) self_including = Exn /\ exists r, load (fun _ => None) (participant (lit "P") [] []) = Ok r.
Proof. split; [vm_compute; reflexivity|eexists; vm_compute; reflexivity]. Qed.
Print Assumptions C59_each_file_is_read_once_refuted.
