From Coq Require Import String Ascii NArith ZArith List Bool Lia Permutation Sorted.
From Verif Require Import Base TextModel YamlModel YamlProofs ParticipantModel ParticipantProofs ParticipantInv ParticipantMore.
Import ListNotations.
Open Scope Z_scope.
Open Scope list_scope.

(** ** Two functions that sort: labels with equal keys keep their order, or are reversed *)
Fixpoint insert (after : bool) (x : label) (l : list label) : list label :=
  match l with [] => [x] | y :: r => if (if after then text_ltb (lb_key x) (lb_key y) else negb (text_ltb (lb_key y) (lb_key x))) then x :: l else y :: insert after x r end.
Definition isort (after : bool) (l : list label) : list label := fold_left (fun acc x => insert after x acc) l [].
Lemma insert_perm : forall a x l, Permutation (x :: l) (insert a x l).
Proof.
  induction l as [|y l IH]; [reflexivity|]. cbn [insert]. destruct (if a then _ else _); [reflexivity|]. eapply Permutation_trans; [apply perm_swap|]. now constructor.
Qed.
Lemma insert_sorted : forall a x l, StronglySorted (fun a b => key_le (lb_key a) (lb_key b)) l -> StronglySorted (fun a b => key_le (lb_key a) (lb_key b)) (insert a x l).
Proof.
  intros a x l H. induction H as [|y l H IH F]; [constructor; constructor|]. cbn [insert].
  assert (C : (if a then text_ltb (lb_key x) (lb_key y) else negb (text_ltb (lb_key y) (lb_key x))) = true \/
              (if a then text_ltb (lb_key x) (lb_key y) else negb (text_ltb (lb_key y) (lb_key x))) = false) by (destruct (if a then _ else _); auto).
  destruct C as [C|C]; rewrite C.
  - assert (L : key_le (lb_key x) (lb_key y)).
    { unfold key_le. destruct a; [|now apply negb_true_iff]. destruct (text_ltb (lb_key y) (lb_key x)) eqn:E; [|reflexivity].
      pose proof (text_ltb_trans _ _ _ C E) as Z. now rewrite text_ltb_irrefl in Z. }
    constructor; [now constructor|]. constructor; [exact L|]. eapply Forall_impl; [|exact F]. intros z Z. eapply key_le_trans; [exact L|exact Z].
  - constructor; [exact IH|]. assert (L : key_le (lb_key y) (lb_key x)).
    { unfold key_le. destruct a; [exact C|]. apply negb_false_iff in C. destruct (text_ltb (lb_key x) (lb_key y)) eqn:E; [|reflexivity].
      pose proof (text_ltb_trans _ _ _ C E) as Z. now rewrite text_ltb_irrefl in Z. }
    apply Forall_forall. intros z Z. apply (Permutation_in z (Permutation_sym (insert_perm a x l))) in Z. destruct Z as [<-|Z]; [exact L|]. rewrite Forall_forall in F. now apply F.
Qed.
Lemma isort_sorts : forall a, sorts (isort a).
Proof.
  intros a l. unfold isort. enough (G : forall acc, StronglySorted (fun a b => key_le (lb_key a) (lb_key b)) acc ->
    Permutation (acc ++ l) (fold_left (fun acc x => insert a x acc) l acc) /\ StronglySorted (fun a b => key_le (lb_key a) (lb_key b)) (fold_left (fun acc x => insert a x acc) l acc)).
  { apply (G []). constructor. }
  induction l as [|x l IH]; intros acc S; cbn [fold_left]; [rewrite app_nil_r; auto|]. destruct (IH (insert a x acc) (insert_sorted a x acc S)) as [P Q]. split; [|exact Q].
  eapply Permutation_trans; [|exact P]. eapply Permutation_trans; [apply Permutation_sym, Permutation_middle|]. change (x :: acc ++ l) with ((x :: acc) ++ l).
  apply Permutation_app_tail. apply insert_perm.
Qed.

(** ** An example configuration *)
Definition exD : dbl := mkDbl decimal magnitude N.eqb 0 5.
Definition lab (k v : string) : label := mkLabel (lit k) (lit v) LkMandatory.
Definition ex : pcfg :=
  mkPc [] [] [] (lit "Configured") [mkCtrl (lit "C1") (Some (lit "NetA")) [lit "S1"; lit "S9"; lit "S2"] replay0] [] [] []
       [mkSvc (lit "P1") (Some (lit "TopicA")) (Some [lab "b" "1"; lab "a" "2"]) (Some 1) [lit "S2"] replay0; mkSvc (lit "P2") None None (Some 2) [] replay0] [] []
       [mkSvc (lit "R1") None None None [lit "S1"] replay0]
       (mkLog true LOff []) health0 (mkTracing [mkTsink TkPcapFile (lit "S1") (lit "x"); mkTsink TkPcapPipe (lit "S2") (lit "y")] []) [] includes0
       (mkMw (lit "silkit://host:1") 1 (-1) (-1) true false true [] true true 5) (mkExp (timesync0 exD) (mkMetrics [mkMs MRemote []] (Some true) 0)).
Definition ex_ops : list op :=
  [OBus BCan (lit "C1") (lit "NetB"); OBus BCan (lit "C1") (lit "NetA"); OBus BEth (lit "C1") (lit "E"); OPub (lit "P1") (mkSpec (lit "TopicB") (lit "m") []) 0 (lit "u1");
   OPub (lit "P2") (mkSpec (lit "T") [] []) 0 (lit "u2"); OLifecycle false; OLifecycle true; OTimeSync; OTimeSync; OClient (lit "R1") (mkSpec (lit "f") [] []) (lit "u3"); OSubInt 7 (lit "u1") (lit "u4")].
(** the states of a participant: it has joined, and has executed any calls *)
Definition reachable (c : pcfg) (srt : list label -> list label) (s : st) : Prop := exists ops, snd (start c) = Some tt /\ s = run c srt ops (fst (start c)).

Lemma start_iff : forall c, snd (start c) = Some tt <-> bad_sinks c = false /\ bad_sources c = false.
Proof.
  intros c. destruct (bad_sinks c) eqn:B1; [|destruct (bad_sources c) eqn:B2].
  - rewrite start_fails by auto. split; [discriminate|intros []; discriminate].
  - rewrite start_fails by auto. split; [discriminate|intros []; discriminate].
  - rewrite start_ok by auto. split; auto.
Qed.
Lemma started : forall c, snd (start c) = Some tt -> fst (start c) = start_state c.
Proof. intros c H. apply start_iff in H. now rewrite start_ok by tauto. Qed.
Lemma reach_inv : forall c srt s, reachable c srt s -> Inv c s /\ Ready s.
Proof. intros c srt s [ops [H ->]]. rewrite (started c H). destruct (start_inv c). now apply run_inv. Qed.
Example ex_reachable : reachable ex (isort true) (run ex (isort true) ex_ops (fst (start ex))).
Proof. exists ex_ops. split; vm_compute; reflexivity. Qed.
(** 14 services: nine when it joins, then C1 (CAN), C1 (Ethernet), P1, R1 and u4 *)
Example ex_services : map (fun x => (fst x, d_id (snd x))) (s_ctrls (run ex (isort true) ex_ops (fst (start ex)))) =
  [(KLogReceiver, 0%N); (KDiscovery, 1%N); (KMetSender, 2%N); (KMetReceiver, 3%N); (KController, 4%N); (KReqRep, 5%N); (KTimeSync, 6%N); (KLifecycle, 7%N); (KMonitor, 8%N);
   (KCan, 9%N); (KEth, 10%N); (KPub, 11%N); (KClient, 12%N); (KSubInt, 13%N)].
Proof. vm_compute. reflexivity. Qed.

(** ** Name and registry URI *)
(** The name and the URI of the configuration win over those passed by the user; without either URI it is silkit://localhost:8500; nothing else changes. *)
Theorem C75_name_and_uri : forall D given name uri, name <> [] ->
  let c := match given with Some c => c | None => pcfg0 D end in
  exists c' l, sanitize D given name uri = Ok (c', l) /\
    p_name c' = (match p_name c with [] => name | n => n end) /\
    mw_uri (p_middleware c') = (match mw_uri (p_middleware c), uri with [], [] => lit "silkit://localhost:8500" | [], u => u | u, _ => u end) /\
    p_name c' <> [] /\ mw_uri (p_middleware c') <> [] /\
    set_name [] (set_uri [] c') = set_name [] (set_uri [] c).
Proof.
  intros D given name uri Hn c. unfold sanitize. replace (match given with Some c => (c, []) | None => (pcfg0 D, [NoConfiguration]) end) with (c, match given with Some _ => [] | None => [NoConfiguration] end) by (subst c; now destruct given).
  destruct name as [|a name]; [contradiction|]. cbn [is_nil]. clearbody c. destruct c as [c1 c2 c3 n c5 c6 c7 c8 c9 c10 c11 c12 c13 c14 c15 c16 c17 m c19]. destruct m as [u m2 m3 m4 m5 m6 m7 m8 m9 m10 m11].
  cbn [p_name]. destruct n as [|b n]; cbn [is_nil p_name].
  - cbn [set_name p_middleware mw_uri]. destruct u as [|v u]; cbn [is_nil].
    + destruct uri as [|w uri]; cbn [is_nil]; eexists; eexists; (split; [reflexivity|]); cbn; repeat split; discriminate.
    + destruct (negb (text_eqb (v :: u) uri)); eexists; eexists; (split; [reflexivity|]); cbn; repeat split; discriminate.
  - destruct (negb (text_eqb (b :: n) (a :: name))); cbn [p_middleware mw_uri];
      (destruct u as [|v u]; cbn [is_nil]; [destruct uri as [|w uri]; cbn [is_nil]|destruct (negb (text_eqb (v :: u) uri))]; eexists; eexists; (split; [reflexivity|]); cbn; repeat split; discriminate).
Qed.
Print Assumptions C75_name_and_uri.
(** An empty name is rejected, also if the configuration has one. *)
Theorem C75_empty_name_rejected : forall D given uri, sanitize D given [] uri = Exn.
Proof. intros D [c|] uri; reflexivity. Qed.
Print Assumptions C75_empty_name_rejected.
(** The user is told exactly: that there is no configuration, that another name or URI is used, that there is no URI. *)
Theorem C75_notes : forall D given name uri c' l, sanitize D given name uri = Ok (c', l) ->
  let c := match given with Some c => c | None => pcfg0 D end in
  (In NoConfiguration l <-> given = None) /\
  (forall a b, In (OtherName a b) l <-> a = name /\ b = p_name c /\ b <> [] /\ a <> b) /\
  (In NoUri l <-> mw_uri (p_middleware c) = [] /\ uri = []) /\
  (forall a b, In (OtherUri a b) l <-> a = uri /\ b = mw_uri (p_middleware c) /\ b <> [] /\ a <> b).
Proof.
  intros D given name uri c' l H c. unfold sanitize in H.
  replace (match given with Some c => (c, []) | None => (pcfg0 D, [NoConfiguration]) end) with (c, match given with Some _ => [] | None => [NoConfiguration] end) in H by (subst c; now destruct given).
  set (l0 := match given with Some _ => [] | None => [NoConfiguration] end) in *.
  assert (L0 : forall x, In x l0 <-> x = NoConfiguration /\ given = None). { subst l0. intros x. destruct given; cbn; split; intuition (auto; discriminate). }
  destruct (is_nil name) eqn:En; [discriminate|].
  set (p := if is_nil (p_name c) then _ else _) in H. assert (P : mw_uri (p_middleware (fst p)) = mw_uri (p_middleware c) /\
     snd p = l0 ++ (if is_nil (p_name c) then [] else if text_eqb (p_name c) name then [] else [OtherName name (p_name c)])).
  { subst p. destruct (is_nil (p_name c)); [cbn; rewrite app_nil_r; auto|]. destruct (text_eqb (p_name c) name); cbn; rewrite ?app_nil_r; auto. }
  destruct p as [c1 l1]. cbn [fst snd] in P. destruct P as [P1 P2]. rewrite P1 in H.
  assert (Q : l = l1 ++ (if is_nil (mw_uri (p_middleware c)) then if is_nil uri then [NoUri] else [] else if text_eqb (mw_uri (p_middleware c)) uri then [] else [OtherUri uri (mw_uri (p_middleware c))])).
  { injection H as H. destruct (is_nil (mw_uri (p_middleware c))); [destruct (is_nil uri)|destruct (text_eqb (mw_uri (p_middleware c)) uri)]; cbn in H; injection H as _ <-; rewrite ?app_nil_r; reflexivity. }
  rewrite P2, <- app_assoc in Q. clear H P1 P2 c1 l1 c'. subst l.
  assert (N1 : is_nil (p_name c) = true <-> p_name c = []) by apply is_nil_eq. assert (N2 : is_nil (mw_uri (p_middleware c)) = true <-> mw_uri (p_middleware c) = []) by apply is_nil_eq.
  assert (N3 : is_nil uri = true <-> uri = []) by apply is_nil_eq. assert (N4 := text_eqb_eq (p_name c) name). assert (N5 := text_eqb_eq (mw_uri (p_middleware c)) uri).
  assert (X : forall b : bool, b = false -> b <> true) by (intros; congruence).
  split; [|split; [|split]]; intros; rewrite !in_app_iff, L0.
  - destruct (is_nil (p_name c)), (text_eqb (p_name c) name), (is_nil (mw_uri (p_middleware c))), (is_nil uri), (text_eqb (mw_uri (p_middleware c)) uri); cbn; intuition discriminate.
  - destruct (is_nil (p_name c)) eqn:E1; [|destruct (text_eqb (p_name c) name) eqn:E2].
    + destruct (is_nil (mw_uri (p_middleware c))), (is_nil uri), (text_eqb (mw_uri (p_middleware c)) uri); cbn; split; intros; intuition (try discriminate; try congruence).
    + destruct (is_nil (mw_uri (p_middleware c))), (is_nil uri), (text_eqb (mw_uri (p_middleware c)) uri); cbn; split; intros; intuition (try discriminate; try congruence).
    + assert (M1 : p_name c <> []) by (intros Z; apply N1 in Z; discriminate). assert (M2 : p_name c <> name) by (intros Z; apply N4 in Z; discriminate).
      split.
      * intros [[Z _]|[[Z|[]]|Z]]; [discriminate|injection Z as <- <-; auto|].
        destruct (is_nil (mw_uri (p_middleware c))), (is_nil uri), (text_eqb (mw_uri (p_middleware c)) uri); cbn in Z; intuition discriminate.
      * intros (-> & -> & _ & _). right. left. now left.
  - split.
    + intros [[Z _]|[Z|Z]]; [discriminate|destruct (is_nil (p_name c)), (text_eqb (p_name c) name); cbn in Z; intuition discriminate|].
      destruct (is_nil (mw_uri (p_middleware c))); [|destruct (text_eqb (mw_uri (p_middleware c)) uri); cbn in Z; intuition discriminate]. destruct (is_nil uri); [tauto|destruct Z].
    + intros [Z1 Z2]. right. right. rewrite (proj2 N2 Z1), (proj2 N3 Z2). now left.
  - split.
    + intros [[Z _]|[Z|Z]]; [discriminate|destruct (is_nil (p_name c)), (text_eqb (p_name c) name); cbn in Z; intuition discriminate|].
      destruct (is_nil (mw_uri (p_middleware c))) eqn:E1; [destruct (is_nil uri); cbn in Z; intuition discriminate|].
      destruct (text_eqb (mw_uri (p_middleware c)) uri) eqn:E2; [destruct Z|]. destruct Z as [Z|[]]. injection Z as <- <-.
      assert (M1 : mw_uri (p_middleware c) <> []) by (intros Z; apply N2 in Z; discriminate). assert (M2 : mw_uri (p_middleware c) <> uri) by (intros Z; apply N5 in Z; discriminate). auto.
    + intros (-> & -> & Z1 & Z2). right. right. destruct (is_nil (mw_uri (p_middleware c))) eqn:E1; [exfalso; now apply Z1, N2|].
      destruct (text_eqb (mw_uri (p_middleware c)) uri) eqn:E2; [exfalso; apply Z2; symmetry; now apply N5|]. now left.
Qed.
Print Assumptions C75_notes.
Example ex_sanitize : exists c', sanitize exD (Some ex) (lit "Given") (lit "silkit://host:2") = Ok (c', [OtherName (lit "Given") (lit "Configured"); OtherUri (lit "silkit://host:2") (lit "silkit://host:1")]) /\
  p_name c' = lit "Configured".
Proof. exists ex. split; vm_compute; reflexivity. Qed.
(** "Another URI than the given one is used" is also said if none was given. *)
Theorem C75_uri_message_refuted : ~ (forall D given name uri c' l a b, sanitize D given name uri = Ok (c', l) -> In (OtherUri a b) l -> uri <> []).
Proof.
  intros H. apply (H exD (Some ex) (lit "Configured") [] ex [OtherUri [] (lit "silkit://host:1")] [] (lit "silkit://host:1")); [vm_compute; reflexivity|now left|reflexivity].
Qed.
Print Assumptions C75_uri_message_refuted.

(** ** Joining *)
(** A participant joins unless a trace sink or trace source has no type. It then has exactly the internal services that are always there and those
    the configuration asks for, one of each, all in the network "default"; nothing is announced that does not exist. *)
Theorem C75_join : forall c, snd (start c) = Some tt <->
  (forall t, In t (tr_sinks (p_tracing c)) -> tk_type t <> TkUndefined) /\ (forall t, In t (tr_sources (p_tracing c)) -> tc_type t <> TcUndefined).
Proof.
  intros c. rewrite start_iff. unfold bad_sinks, bad_sources. rewrite <- !not_true_iff_false, !existsb_exists. split; intros [A B]; split.
  - intros t T E. apply A. exists t. split; [exact T|]. now rewrite E.
  - intros t T E. apply B. exists t. split; [exact T|]. now rewrite E.
  - intros [t [T E]]. apply (A t T). now destruct (tk_type t).
  - intros [t [T E]]. apply (B t T). now destruct (tc_type t).
Qed.
Print Assumptions C75_join.
Theorem C75_joined_services : forall c, snd (start c) = Some tt ->
  let s := fst (start c) in
  Permutation (map fst (s_ctrls s))
    ([KController; KDiscovery; KReqRep; KTimeSync; KLifecycle; KMonitor]
     ++ (if lg_remote (p_logging c) then [KLogReceiver] else []) ++ (if existsb (fun x => stype_eqb (s_type x) SRemote) (lg_sinks (p_logging c)) then [KLogSender] else [])
     ++ (if existsb (fun x => mtype_eqb (m_type x) MRemote) (me_sinks (ex_metrics (p_exp c))) then [KMetSender] else [])
     ++ (match me_collect (ex_metrics (p_exp c)) with Some true => [KMetReceiver] | _ => [] end)) /\
  (forall k d, In (k, d) (s_ctrls s) -> d_part d = p_name c /\ d_net d = lit "default" /\ d_internal d = true /\ d_name d = lit (own_name k)) /\
  s_sinks s = map tk_name (tr_sinks (p_tracing c)).
Proof.
  intros c H. cbv zeta. rewrite (started c H). unfold start_state. cbn [s_ctrls s_sinks].
  assert (F : forall l i, map fst (numbered c i l) = l) by (induction l as [|k l IH]; intros i; [reflexivity|]; cbn; now rewrite IH).
  split; [|split; [|reflexivity]].
  - rewrite F. unfold joined, first_part. fold (has_remote_log c) (has_remote_metrics c).
    replace (match me_collect (ex_metrics (p_exp c)) with Some true => [KMetReceiver] | _ => [] end) with (if collects c then [KMetReceiver] else []) by (unfold collects; destruct (me_collect _) as [[|]|]; reflexivity).
    destruct (lg_remote (p_logging c)), (has_remote_log c), (has_remote_metrics c), (collects c); (apply NoDup_Permutation;
      [repeat (constructor; [intros X; cbn in X; repeat (destruct X as [X|X]; [discriminate X|]); exact X|]); constructor
      |repeat (constructor; [intros X; cbn in X; repeat (destruct X as [X|X]; [discriminate X|]); exact X|]); constructor
      |intros k; split; intros X; cbn in X |- *; repeat (destruct X as [<-|X]; [repeat (first [left; reflexivity | right])|]); destruct X]).
  - intros k d. generalize 0%nat. induction (joined c) as [|k' l IH]; intros i X; [destruct X|]. destruct X as [X|X]; [|eapply IH; eauto]. injection X as -> <-. cbn. auto.
Qed.
Print Assumptions C75_joined_services.
Example ex_joined : snd (start ex) = Some tt. Proof. vm_compute. reflexivity. Qed.

(** ** Identity *)
(** The services are numbered in the order of their creation; no two of them have the same kind and name. *)
Theorem C75_numbers : forall c srt s i k d, reachable c srt s -> nth_error (s_ctrls s) i = Some (k, d) -> d_id d = (N.of_nat i mod 2 ^ 64)%N.
Proof.
  intros c srt s i k d H E. destruct (reach_inv _ _ _ H) as [V _]. assert (A := i_ids c s V).
  assert (L : (i < length (s_ctrls s))%nat) by (apply nth_error_Some; congruence).
  apply (map_nth_error (fun x => d_id (snd x))) in E. rewrite A in E. cbn [snd] in E.
  assert (Q : nth_error (seq 0 (length (s_ctrls s))) i = Some i) by (rewrite (nth_error_nth' _ 0%nat) by (rewrite seq_length; exact L); now rewrite seq_nth by exact L).
  apply (map_nth_error (fun i => (N.of_nat i mod 2 ^ 64)%N)) in Q. rewrite Q in E. now injection E as <-.
Qed.
Print Assumptions C75_numbers.
Theorem C75_distinct : forall c srt s i j x y hash, reachable c srt s -> (N.of_nat (length (s_ctrls s)) < 2 ^ 64)%N ->
  nth_error (s_ctrls s) i = Some x -> nth_error (s_ctrls s) j = Some y -> i <> j ->
  d_id (snd x) <> d_id (snd y) /\ desc_eqb hash (snd x) (snd y) = false.
Proof.
  intros c srt s i j [k1 d1] [k2 d2] hash H L E1 E2 D. pose proof (C75_numbers c srt s i k1 d1 H E1) as N1. pose proof (C75_numbers c srt s j k2 d2 H E2) as N2.
  assert (L1 : (i < length (s_ctrls s))%nat) by (apply nth_error_Some; congruence). assert (L2 : (j < length (s_ctrls s))%nat) by (apply nth_error_Some; congruence).
  cbn [snd]. rewrite N.mod_small in N1 by lia. rewrite N.mod_small in N2 by lia. assert (X : d_id d1 <> d_id d2) by lia. split; [exact X|].
  unfold desc_eqb. destruct (N.eqb_spec (d_id d1) (d_id d2)); [contradiction|]. apply andb_false_r.
Qed.
Print Assumptions C75_distinct.
Theorem C75_one_per_name : forall c srt s i j k d d', reachable c srt s -> nth_error (s_ctrls s) i = Some (k, d) -> nth_error (s_ctrls s) j = Some (k, d') -> d_name d = d_name d' -> i = j.
Proof.
  intros c srt s i j k d d' H E1 E2 N. destruct (reach_inv _ _ _ H) as [V _]. pose proof (i_nodup c s V) as D.
  apply (proj1 (NoDup_nth_error (keys s)) D).
  - unfold keys. rewrite map_length. apply nth_error_Some. congruence.
  - unfold keys. erewrite !map_nth_error by eassumption. cbn. now rewrite N.
Qed.
Print Assumptions C75_one_per_name.
(** Every service has the name of the participant, the type of network of its kind, and a name. *)
Theorem C75_descriptors : forall c srt s k d, reachable c srt s -> In (k, d) (s_ctrls s) -> d_part d = p_name c /\ d_ntype d = nettype k /\ d_internal d = internal k /\ d_name d <> [].
Proof. intros c srt s k d H X. destruct (reach_inv _ _ _ H) as [V _]. destruct (i_good c s V k d X) as (A & B & C & D & _). auto. Qed.
Print Assumptions C75_descriptors.

(** ** Which calls succeed *)
(** A call after any others ends normally if and only if its arguments are acceptable and nothing of that kind and name was created by an earlier call: at most one
    lifecycle service, time synchronisation, monitor, system controller and network simulator, and one service of each kind and name. *)
Theorem C75_created_iff : forall c srt ops o, snd (start c) = Some tt ->
  (exists r, snd (step c srt o (run c srt ops (fst (start c)))) = Some r) <->
  acceptable c o /\ (forall k, target_of o <> TNamed k []) /\ (target_of o = TNone \/ ~ In (target_of o) (granted c srt ops (fst (start c)))).
Proof.
  intros c srt ops o H. rewrite (started c H). destruct (start_inv c) as [V R]. destruct (run_inv c srt ops _ V R) as [V' R']. rewrite succeeds_iff by exact R'.
  destruct (target_eq_dec (target_of o) TNone) as [E|E].
  - rewrite E. cbn. split; [intros [A _]; repeat split; auto; discriminate|tauto].
  - assert (T := taken_run c srt ops _ (target_of o) V R E).
    assert (T0 : taken (target_of o) (start_state c) = true <-> exists k, target_of o = TNamed k []).
    { destruct (target_of o) as [k n| | | | | |] eqn:Et; cbn [taken start_state s_life s_mon s_sysc s_netsim s_sync]; try (split; [discriminate|intros [k' X]; discriminate]).
      assert (X : exists_ k n (start_state c) = false).
      { destruct (exists_ k n (start_state c)) eqn:Ex; [|reflexivity]. apply exists_in in Ex. destruct Ex as [d [D _]]. pose proof (named_public o k n Et) as I.
        destruct (C75_joined_services c H) as (_ & J & _). rewrite (started c H) in J. destruct (J k d D) as (_ & _ & J3 & _). destruct (i_good c _ V k d D) as (_ & Q & _). congruence. }
      rewrite X, orb_false_r. destruct n as [|a n]; cbn; [split; eauto|]. split; [discriminate|intros [k' Z]; discriminate]. }
    split.
    + intros [A B]. split; [exact A|]. split.
      * intros k K. assert (C : taken (target_of o) (run c srt ops (start_state c)) = true) by (apply T; left; apply T0; eauto). congruence.
      * right. intros G. assert (C : taken (target_of o) (run c srt ops (start_state c)) = true) by (apply T; now right). congruence.
    + intros (A & B & C). split; [exact A|]. destruct (taken (target_of o) (run c srt ops (start_state c))) eqn:Q; [|reflexivity]. destruct (proj1 T eq_refl) as [Q'|Q']; clear Q; rename Q' into Q.
      * apply T0 in Q. destruct Q as [k Q]. now destruct (B k).
      * destruct C; contradiction.
Qed.
Print Assumptions C75_created_iff.
Example ex_granted : granted ex (isort true) ex_ops (fst (start ex)) =
  [TNamed KCan (lit "C1"); TNamed KEth (lit "C1"); TNamed KPub (lit "P1"); TLife; TSync; TNamed KClient (lit "R1"); TNamed KSubInt (lit "u4")].
Proof. vm_compute. reflexivity. Qed.
(** A call that throws creates, registers and announces nothing, and uses up no number; it may only have written messages about different values. *)
Theorem C75_failed_call : forall c srt s o, reachable c srt s -> snd (step c srt o s) = None ->
  exists l, Forall (fun a => exists n, a = Mismatch n) l /\
    fst (step c srt o s) = mkSt (s_ctrls s) (s_next s) (s_life s) (s_mon s) (s_sysc s) (s_netsim s) (s_sync s) (s_sinks s) (s_log s ++ l).
Proof.
  intros c srt s o H. destruct (reach_inv _ _ _ H) as [V R]. destruct (step_shape c srt o s R) as [m G C|k n m T' C1 C2 G|T1 T2 C1 C2|d a b Eo Es Ec Ea]; intros F; try discriminate F.
  exists m. split; [|reflexivity]. eapply Forall_impl; [|exact G]. intros [] K; try destruct K. eauto.
Qed.
Print Assumptions C75_failed_call.
Example ex_failed : snd (step ex (isort true) (OPub (lit "P2") (mkSpec (lit "T") [] []) 0 (lit "u2")) (run ex (isort true) ex_ops (fst (start ex)))) = None.
Proof. vm_compute. reflexivity. Qed.

(** ** Registration and announcement *)
(** Every service is announced to the others exactly once and after it was registered, except for the lifecycle and time synchronisation services. *)
Lemma distinct_descs : forall c s f, Inv c s -> (N.of_nat (length (s_ctrls s)) < 2 ^ 64)%N -> NoDup (map snd (filter f (s_ctrls s))).
Proof.
  intros c s f V L. assert (D : NoDup (map (fun x => d_id (snd x)) (s_ctrls s))).
  { rewrite (i_ids c s V). assert (G : forall n m, (N.of_nat (m + n) <= 2 ^ 64)%N -> NoDup (map (fun i => (N.of_nat i mod 2 ^ 64)%N) (seq m n))).
    { induction n as [|n IH]; intros m B; cbn [seq map]; [constructor|]. constructor; [|apply IH; rewrite Nat.add_succ_l, <- Nat.add_succ_r; exact B].
      intros X. apply in_map_iff in X. destruct X as [i [E I]]. apply in_seq in I. rewrite !N.mod_small in E by lia. lia. }
    apply G. cbn. lia. }
  clear L V. induction (s_ctrls s) as [|x l IH]; [constructor|]. cbn in D. inversion D as [|? ? D1 D2]; subst. cbn [filter]. destruct (f x); [|now apply IH]. cbn [map].
  constructor; [|now apply IH]. intros X. apply D1. apply in_map_iff in X. destruct X as [y [E Y]]. apply filter_In in Y. apply in_map_iff. exists y. split; [now rewrite E|tauto].
Qed.
Theorem C75_announced_once : forall c srt s, reachable c srt s -> (N.of_nat (length (s_ctrls s)) < 2 ^ 64)%N ->
  NoDup (announced (s_log s)) /\ (forall d, In d (announced (s_log s)) <-> exists k, In (k, d) (s_ctrls s) /\ k <> KLifecycle /\ k <> KTimeSync).
Proof.
  intros c srt s H L. destruct (reach_inv _ _ _ H) as [V _]. pose proof (i_ann c s V) as P. split.
  - apply (Permutation_NoDup (Permutation_sym P)). eapply distinct_descs; eauto.
  - intros d. split.
    + intros X. apply (Permutation_in d P) in X. apply in_map_iff in X. destruct X as [[k d'] [E X]]. cbn in E. subst d'. apply filter_In in X. destruct X as [X A]. exists k. split; [exact X|].
      split; intros ->; discriminate.
    + intros [k [X [A B]]]. apply (Permutation_in d (Permutation_sym P)). apply in_map_iff. exists (k, d). split; [reflexivity|]. apply filter_In. split; [exact X|]. cbn. now destruct k.
Qed.
Print Assumptions C75_announced_once.
Theorem C75_registered_once : forall c srt s, reachable c srt s -> (N.of_nat (length (s_ctrls s)) < 2 ^ 64)%N ->
  NoDup (registered (s_log s)) /\ (forall d, In d (registered (s_log s)) <-> exists k, In (k, d) (s_ctrls s) /\ (k = KTimeSync -> s_sync s = true)).
Proof.
  intros c srt s H L. destruct (reach_inv _ _ _ H) as [V _]. pose proof (i_reg c s V) as P. split.
  - apply (Permutation_NoDup (Permutation_sym P)). eapply distinct_descs; eauto.
  - intros d. split.
    + intros X. apply (Permutation_in d P) in X. apply in_map_iff in X. destruct X as [[k d'] [E X]]. cbn in E. subst d'. apply filter_In in X. destruct X as [X A]. exists k. split; [exact X|].
      intros ->. exact A.
    + intros [k [X A]]. apply (Permutation_in d (Permutation_sym P)). apply in_map_iff. exists (k, d). split; [reflexivity|]. apply filter_In. split; [exact X|]. cbn. destruct k; auto.
Qed.
Print Assumptions C75_registered_once.
Theorem C75_registered_first : forall c srt s a d b, reachable c srt s -> s_log s = a ++ Announced d :: b -> In (Registered d) a.
Proof. intros c srt s a d b H. destruct (reach_inv _ _ _ H) as [V _]. apply (i_order c s V). Qed.
Print Assumptions C75_registered_first.
(** The time synchronisation is registered only when the user creates it. *)
Theorem C75_time_sync_on_demand : forall c srt ops, snd (start c) = Some tt ->
  s_sync (run c srt ops (fst (start c))) = true <-> In OTimeSync ops.
Proof.
  intros c srt ops H. rewrite (started c H). destruct (start_inv c) as [V R]. assert (N : TSync <> TNone) by discriminate.
  pose proof (taken_run c srt ops (start_state c) TSync V R N) as T. cbn [taken] in T. rewrite T. clear T. cbn [start_state s_sync].
  enough (G : forall s, Inv c s -> Ready s -> (s_sync s = true \/ In TSync (granted c srt ops s)) <-> (s_sync s = true \/ In OTimeSync ops)).
  { specialize (G _ V R). cbn [start_state s_sync] in G. rewrite G. split; [intros [?|?]; [discriminate|assumption]|auto]. }
  clear V R. induction ops as [|o ops IH]; intros s V R; [cbn; tauto|]. cbn [granted In]. destruct (inv_step c srt o s V R) as [V' R']. specialize (IH _ V' R'). rewrite in_app_iff.
  assert (K := taken_step c srt o s TSync R N). cbn [taken] in K. assert (O : target_of o = TSync <-> o = OTimeSync) by (destruct o; cbn; split; congruence).
  assert (Z : o = OTimeSync -> s_sync s = false -> exists r, snd (step c srt o s) = Some r).
  { intros -> E. apply succeeds_iff; [exact R|]. cbn. auto. }
  assert (W : In TSync (match snd (step c srt o s) with Some _ => [target_of o] | None => [] end) <-> target_of o = TSync /\ exists r, snd (step c srt o s) = Some r).
  { destruct (snd (step c srt o s)) as [r|]; cbn; split; [intros [?|[]]; eauto|intros [? _]; auto|intros []|intros [_ [r ?]]; discriminate]. }
  rewrite W. destruct (s_sync s) eqn:E; [tauto|]. rewrite K in IH. split.
  - intros [A|[[A B]|A]]; [discriminate|right; left; now apply O|]. assert (X : (false = true \/ target_of o = TSync /\ (exists r, snd (step c srt o s) = Some r)) \/ In TSync (granted c srt ops (fst (step c srt o s)))) by auto.
    apply IH in X. destruct X as [[X|[X _]]|X]; [discriminate|right; left; now apply O|auto].
  - intros [A|[A|A]]; [discriminate|right; left; split; [now apply O|now apply Z]|]. right.
    assert (X : (false = true \/ target_of o = TSync /\ (exists r, snd (step c srt o s) = Some r)) \/ In OTimeSync ops) by auto. apply IH in X. destruct X as [[X|X]|X]; [discriminate|auto|auto].
Qed.
Print Assumptions C75_time_sync_on_demand.

(** ** Contents of services *)
Lemma created : forall c srt s o d, reachable c srt s -> snd (step c srt o s) = Some (Some d) -> exists k n l, target_of o = TNamed k n /\ Forall mismatch l /\ acceptable c o /\
  d = mkDesc (p_name c) (fst (made c srt o)) n (nettype k) (s_next s) (internal k) (snd (made c srt o)) /\ fst (step c srt o s) = logs (extra c o d (s_sinks s)) (added k d (logs l s)).
Proof.
  intros c srt s o d H. destruct (reach_inv _ _ _ H) as [V R]. destruct (step_shape c srt o s R) as [m G C|k n m T' C1 C2 G d0|T1 T2 C1 C2|d' a b Eo Es Ec Ea]; intros E; try discriminate E.
  cbn [snd fst] in *. assert (X : d0 = d) by congruence. exists k, n, m. rewrite <- X. repeat split; auto.
Qed.
(** the value of a field of the first configured element with that name, or the value that was passed *)
Definition configured {A B} (name_of : A -> text) (field : A -> option B) (l : list A) (n : text) (passed : B) : B :=
  match find (fun x => text_eqb (name_of x) n) l with Some x => match field x with Some v => v | None => passed end | None => passed end.
Definition passed_labels (sp : spec) : list label := match mapM from_public (sp_labels sp) with Ok v => v | _ => [] end.

(** the section of the configuration that holds the controllers of a bus *)
Definition section_of (c : pcfg) (b : bus) : list ctrl :=
  match b with BCan => p_can c | BEth => p_eth c | BLin => p_lin c | BFlexray => map fr_ctrl (p_flexray c) end.
(** A bus controller is attached to the configured network, else to the one that was passed, and announces the type of its bus. *)
Theorem C75_controller : forall c srt s b n net d, reachable c srt s -> snd (step c srt (OBus b n net) s) = Some (Some d) ->
  d_name d = n /\ d_net d = configured ct_name ct_net (section_of c b) n net /\ d_supp d = [("controller.type"%string, SText (lit match b with BCan => "CAN" | BEth => "Ethernet" | BFlexray => "FlexRay" | BLin => "LIN" end))].
Proof.
  intros c srt s b n net d H E. destruct (created _ _ _ _ _ H E) as (k & n' & l & T & _ & _ & D & _). cbn in T. injection T as _ <-. rewrite D. repeat split; now destruct b.
Qed.
Print Assumptions C75_controller.
(** Publishers, subscribers, clients and servers: topic or function name and labels are the configured ones, else those that were passed; the media type is always the
    one that was passed. *)
Theorem C75_publisher : forall c srt s n sp h u d, reachable c srt s -> snd (step c srt (OPub n sp h u) s) = Some (Some d) ->
  d_name d = n /\ d_net d = u /\
  d_supp d = [("controller.type"%string, SText (lit "DataPublisher")); ("PubSub::topic"%string, SText (configured sv_name sv_topic (p_pubs c) n (sp_topic sp)));
              ("PubSub::pubUUID"%string, SText u); ("PubSub::pubMediaType"%string, SText (sp_media sp));
              ("PubSub::pubLabels"%string, SLabels (final_labels srt (configured sv_name sv_labels (p_pubs c) n (passed_labels sp))))].
Proof.
  intros c srt s n sp h u d H E. destruct (created _ _ _ _ _ H E) as (k & n' & l & T & _ & _ & D & _). cbn in T. injection T as _ <-. rewrite D. auto.
Qed.
Print Assumptions C75_publisher.
Theorem C75_subscriber : forall c srt s n sp d, reachable c srt s -> snd (step c srt (OSub n sp) s) = Some (Some d) ->
  d_name d = n /\ d_net d = lit "default" /\
  d_supp d = [("controller.type"%string, SText (lit "DataSubscriber")); ("PubSub::topic"%string, SText (configured sv_name sv_topic (p_subs c) n (sp_topic sp)));
              ("PubSub::subMediaType"%string, SText (sp_media sp)); ("PubSub::subLabels"%string, SLabels (final_labels srt (configured sv_name sv_labels (p_subs c) n (passed_labels sp))))].
Proof.
  intros c srt s n sp d H E. destruct (created _ _ _ _ _ H E) as (k & n' & l & T & _ & _ & D & _). cbn in T. injection T as _ <-. rewrite D. auto.
Qed.
Print Assumptions C75_subscriber.
Theorem C75_client : forall c srt s n sp u d, reachable c srt s -> snd (step c srt (OClient n sp u) s) = Some (Some d) ->
  d_name d = n /\ d_net d = u /\
  d_supp d = [("controller.type"%string, SText (lit "RpcClient")); ("Rpc::client::functionName"%string, SText (configured sv_name sv_topic (p_clients c) n (sp_topic sp)));
              ("Rpc::client::mediaType"%string, SText (sp_media sp)); ("Rpc::client::labels"%string, SLabels (final_labels srt (configured sv_name sv_labels (p_clients c) n (passed_labels sp))));
              ("Rpc::client::UUID"%string, SText u)].
Proof.
  intros c srt s n sp u d H E. destruct (created _ _ _ _ _ H E) as (k & n' & l & T & _ & _ & D & _). cbn in T. injection T as _ <-. rewrite D. auto.
Qed.
Print Assumptions C75_client.
Theorem C75_server : forall c srt s n sp d, reachable c srt s -> snd (step c srt (OServer n sp) s) = Some (Some d) ->
  d_name d = n /\ d_net d = lit "default" /\
  d_supp d = [("controller.type"%string, SText (lit "RpcServer")); ("Rpc::server::functionName"%string, SText (configured sv_name sv_topic (p_servers c) n (sp_topic sp)));
              ("Rpc::server::mediaType"%string, SText (sp_media sp)); ("Rpc::server::labels"%string, SLabels (final_labels srt (configured sv_name sv_labels (p_servers c) n (passed_labels sp))))].
Proof.
  intros c srt s n sp d H E. destruct (created _ _ _ _ _ H E) as (k & n' & l & T & _ & _ & D & _). cbn in T. injection T as _ <-. rewrite D. auto.
Qed.
Print Assumptions C75_server.
(** The internal subscriber of a publisher and the internal server of a client are in the network that only the two share, and name their parent. *)
Theorem C75_internal : forall c srt s d p l u, reachable c srt s ->
  (snd (step c srt (OSubInt p l u) s) = Some (Some d) -> d_name d = u /\ d_net d = l /\
     d_supp d = [("controller.type"%string, SText (lit "DataSubscriberInternal")); ("PubSub::subIntParentServiceId"%string, SText (decimal p))]) /\
  (snd (step c srt (OServerInt p l u) s) = Some (Some d) -> d_name d = u /\ d_net d = l /\
     d_supp d = [("controller.type"%string, SText (lit "RpcServerInternal")); ("Rpc::serverinternal::clientUUID"%string, SText l); ("Rpc::serverinternal::parentServiceId"%string, SText (decimal p))]).
Proof.
  intros c srt s d p l u H. split; intros E; destruct (created _ _ _ _ _ H E) as (k & n' & m & T & _ & _ & D & _); cbn in T; injection T as _ <-; rewrite D; auto.
Qed.
Print Assumptions C75_internal.
Example ex_publisher : exists d, snd (step ex (isort true) (OPub (lit "P1") (mkSpec (lit "TopicB") (lit "m") []) 0 (lit "u1")) (fst (start ex))) = Some (Some d) /\
  d_supp d = [("controller.type"%string, SText (lit "DataPublisher")); ("PubSub::topic"%string, SText (lit "TopicA")); ("PubSub::pubUUID"%string, SText (lit "u1"));
              ("PubSub::pubMediaType"%string, SText (lit "m")); ("PubSub::pubLabels"%string, SLabels [mkMl (lit "a") (lit "2") 2; mkMl (lit "b") (lit "1") 2])].
Proof. eexists (mkDesc _ _ _ _ _ _ _). split; vm_compute; reflexivity. Qed.

(** A history of more than one message is rejected, whether passed or configured; otherwise the history is the configured one, else the one that was passed. *)
Theorem C75_history : forall c srt s n sp h u, reachable c srt s ->
  (snd (step c srt (OPub n sp h u) s) <> None -> (h <= 1)%N /\ configured sv_name sv_history (p_pubs c) n (Z.of_N h) <= 1) /\
  (forall d, snd (step c srt (OPub n sp h u) s) = Some (Some d) ->
     In (HistoryLength d (Z.to_N (configured sv_name sv_history (p_pubs c) n (Z.of_N h)))) (s_log (fst (step c srt (OPub n sp h u) s)))).
Proof.
  intros c srt s n sp h u H. destruct (reach_inv _ _ _ H) as [V R]. split.
  - intros X. destruct (snd (step c srt (OPub n sp h u) s)) as [r|] eqn:E; [|contradiction]. assert (Y : exists r, snd (step c srt (OPub n sp h u) s) = Some r) by eauto.
    apply succeeds_iff in Y; [|exact R]. destruct Y as [(A & B & C) _]. split; [exact A|]. unfold configured. unfold entry in C. destruct (find _ _) as [x|] eqn:F; [|lia].
    destruct (sv_history x) as [z|] eqn:Z; [eapply C; eauto|lia].
  - intros d E. destruct (created _ _ _ _ _ H E) as (k & n' & l & T & _ & _ & D & ->). cbn. apply in_or_app. right. now left.
Qed.
Print Assumptions C75_history.
Example ex_history : existsb (fun a => match a with HistoryLength d n => text_eqb (d_name d) (lit "P1") && (n =? 1)%N | _ => false end)
  (s_log (fst (step ex (isort true) (OPub (lit "P1") (mkSpec (lit "TopicB") (lit "m") []) 0 (lit "u1")) (fst (start ex))))) = true.
Proof. vm_compute. reflexivity. Qed.

(** ** Labels *)
(** The labels of a service have strictly increasing keys, and each key has the value and kind of one of the labels it was made from. *)
Theorem C75_labels_sorted : forall srt l, sorts srt ->
  StronglySorted (fun a b => text_ltb (ml_key a) (ml_key b) = true) (final_labels srt l) /\
  (forall k, In k (map ml_key (final_labels srt l)) <-> In k (map lb_key l)) /\ (forall x, In x (final_labels srt l) -> In x (map to_public l)).
Proof.
  intros srt l H. split; [|split; [intros k; now apply final_keys|intros x; now apply final_in]].
  pose proof (final_sorted srt l H) as S. unfold mkeys in S. induction (final_labels srt l) as [|x m IH]; [constructor|]. cbn in S. inversion S as [|? ? S1 S2]; subst.
  constructor; [now apply IH|]. rewrite Forall_map in S2. exact S2.
Qed.
Print Assumptions C75_labels_sorted.
(** If no key occurs twice, none is lost and the result does not depend on how they are sorted. *)
Theorem C75_labels_kept : forall s1 s2 l, sorts s1 -> sorts s2 -> NoDup (map lb_key l) -> Permutation (map to_public l) (final_labels s1 l) /\ final_labels s1 l = final_labels s2 l.
Proof. intros s1 s2 l H1 H2 D. split; [now apply final_perm|now apply final_same]. Qed.
Print Assumptions C75_labels_kept.
Lemma passed_public : forall l v, mapM from_public l = Ok v -> map to_public v = l.
Proof.
  induction l as [|x l IH]; intros v H; [now injection H as <-|]. cbn [mapM] in H. unfold from_public at 1 in H. destruct x as [k w z]. cbn [ml_kind ml_key ml_value] in H.
  destruct (Z.eqb_spec z 2) as [->|]; [|destruct (Z.eqb_spec z 1) as [->|]; [|discriminate]]; cbn [bind] in H; destruct (mapM from_public l) as [v'| |] eqn:E; try discriminate; cbn [bind] in H;
    injection H as H; subst v; cbn [map]; rewrite (IH v' eq_refl); reflexivity.
Qed.
(** The labels a user passes with different keys, and none are configured: the service has exactly these. *)
Theorem C75_passed_labels : forall srt sp v, sorts srt -> mapM from_public (sp_labels sp) = Ok v -> NoDup (map ml_key (sp_labels sp)) ->
  Permutation (sp_labels sp) (final_labels srt (passed_labels sp)).
Proof.
  intros srt sp v H E D. unfold passed_labels. rewrite E. pose proof (passed_public _ _ E) as P. rewrite <- P at 1. apply final_perm; [exact H|].
  rewrite <- P in D. rewrite map_map in D. exact D.
Qed.
Print Assumptions C75_passed_labels.
Example ex_labels : final_labels (isort true) [lab "b" "1"; lab "a" "2"] = [mkMl (lit "a") (lit "2") 2; mkMl (lit "b") (lit "1") 2].
Proof. vm_compute. reflexivity. Qed.
(** The configuration may have several labels with the same key; which of them counts depends on std::sort, which need not keep the order of equal keys. *)
Theorem C75_duplicate_labels_refuted : ~ (forall s1 s2 l, sorts s1 -> sorts s2 -> final_labels s1 l = final_labels s2 l).
Proof. intros H. specialize (H (isort true) (isort false) [lab "a" "1"; lab "a" "2"] (isort_sorts true) (isort_sorts false)). vm_compute in H. discriminate. Qed.
Print Assumptions C75_duplicate_labels_refuted.

(** ** Trace sinks and messages *)
(** A controller, publisher or subscriber gets exactly the trace sinks its configuration names and that exist, in this order; for the others a message is written. *)
Definition wanted (c : pcfg) (o : op) : list text :=
  match o with
  | OBus b n _ => match find (fun x => text_eqb (ct_name x) n) (section_of c b) with Some x => ct_sinks x | None => [] end
  | OPub n _ _ _ => match find (fun x => text_eqb (sv_name x) n) (p_pubs c) with Some x => sv_sinks x | None => [] end
  | OSub n _ => match find (fun x => text_eqb (sv_name x) n) (p_subs c) with Some x => sv_sinks x | None => [] end
  | _ => []
  end.
Definition tracing_acts (l : list act) : list act := filter (fun a => match a with SinkAdded _ _ | NoSink _ _ => true | _ => false end) l.
Lemma sink_index_first : forall l n i, match sink_index i n l with
  | Some j => (i <= j)%nat /\ nth_error l (j - i) = Some n /\ (forall q, (q < j - i)%nat -> nth_error l q <> Some n) | None => ~ In n l end.
Proof.
  induction l as [|x l IH]; intros n i; cbn [sink_index]; [auto|]. destruct (text_eqb x n) eqn:E.
  - apply text_eqb_eq in E. subst x. rewrite Nat.sub_diag. split; [lia|]. split; [reflexivity|]. intros q Q. lia.
  - assert (N : x <> n) by (intros ->; rewrite (proj2 (text_eqb_eq _ _) eq_refl) in E; discriminate). specialize (IH n (Datatypes.S i)). destruct (sink_index (Datatypes.S i) n l) as [j|].
    + destruct IH as (A & B & C). split; [lia|]. replace (j - i)%nat with (Datatypes.S (j - Datatypes.S i)) by lia. split; [exact B|].
      intros [|q] Q; [cbn; congruence|]. apply C. lia.
    + intros [X|X]; contradiction.
Qed.
Theorem C75_trace_sinks : forall c srt s o d, reachable c srt s -> snd (step c srt o s) = Some (Some d) ->
  exists l, tracing_acts (s_log (fst (step c srt o s))) = tracing_acts (s_log s) ++ l /\
    Forall2 (fun n a => match a with SinkAdded d' i => d' = d /\ nth_error (s_sinks s) i = Some n /\ (forall j, (j < i)%nat -> nth_error (s_sinks s) j <> Some n)
                                   | NoSink x n' => x = d_name d /\ n' = n /\ ~ In n (s_sinks s) | _ => False end) (wanted c o) l.
Proof.
  intros c srt s o d H E. destruct (created _ _ _ _ _ H E) as (k & n & m & T & M & _ & D & ->).
  exists (map (sink_act d (s_sinks s)) (wanted c o)). split.
  - unfold logs, added. cbn [s_log]. unfold tracing_acts. rewrite !filter_app, <- !app_assoc. f_equal.
    replace (filter _ m) with (@nil act) by (induction M as [|a m A M IH]; [reflexivity|]; cbn; destruct a; try destruct A; exact IH). cbn [app filter].
    assert (F : forall w, filter (fun a => match a with SinkAdded _ _ | NoSink _ _ => true | _ => false end) (map (sink_act d (s_sinks s)) w) = map (sink_act d (s_sinks s)) w).
    { induction w as [|x w IH]; [reflexivity|]. cbn [map filter]. rewrite IH. unfold sink_act at 1. now destruct (sink_index 0 x (s_sinks s)). }
    destruct o; cbn [extra wanted]; try reflexivity; apply F.
  - induction (wanted c o) as [|x w IH]; cbn [map]; constructor; [|exact IH]. unfold sink_act. pose proof (sink_index_first (s_sinks s) x 0) as X. destruct (sink_index 0 x (s_sinks s)) as [i|].
    + destruct X as (_ & A & B). rewrite Nat.sub_0_r in A, B. auto.
    + auto.
Qed.
Print Assumptions C75_trace_sinks.
Theorem C75_sinks_constant : forall c srt s, reachable c srt s -> s_sinks s = map tk_name (tr_sinks (p_tracing c)).
Proof.
  intros c srt s [ops [H ->]]. rewrite (started c H). destruct (start_inv c) as [V R]. change (map tk_name (tr_sinks (p_tracing c))) with (s_sinks (start_state c)).
  revert V R. generalize (start_state c). induction ops as [|o ops IH]; intros s V R; [reflexivity|]. cbn [run fold_left]. destruct (inv_step c srt o s V R) as [V' R']. unfold run in IH. rewrite (IH _ V' R').
  pose proof (step_shape c srt o s R) as S. inversion S as [m G C E'|k n m T' C1 C2 G E'|T1 T2 C1 C2 E'|d' a b Eo Es Ec Ea E']; cbn; try reflexivity. now destruct (target_of o).
Qed.
Print Assumptions C75_sinks_constant.
Example ex_sinks : map (fun a => match a with SinkAdded _ i => Some i | _ => None end) (tracing_acts (s_log (run ex (isort true) ex_ops (fst (start ex))))) = [Some 0%nat; None; Some 1%nat; Some 1%nat].
Proof. vm_compute. reflexivity. Qed.
(** The trace sinks that are configured for an RPC client or server are never used. *)
Theorem C75_rpc_sinks_refuted : ~ (forall c srt s n sp u d x t, reachable c srt s -> snd (step c srt (OClient n sp u) s) = Some (Some d) ->
  find (fun y => text_eqb (sv_name y) n) (p_clients c) = Some x -> In t (sv_sinks x) -> In t (s_sinks s) ->
  exists i, In (SinkAdded d i) (s_log (fst (step c srt (OClient n sp u) s)))).
Proof.
  intros H. assert (R : reachable ex (isort true) (fst (start ex))) by (exists []; split; vm_compute; reflexivity).
  specialize (H ex (isort true) (fst (start ex)) (lit "R1") (mkSpec (lit "f") [] []) (lit "u3")
    (mkDesc (lit "Configured") (lit "u3") (lit "R1") NtRpc 9 false [("controller.type"%string, SText (lit "RpcClient")); ("Rpc::client::functionName"%string, SText (lit "f"));
       ("Rpc::client::mediaType"%string, SText []); ("Rpc::client::labels"%string, SLabels []); ("Rpc::client::UUID"%string, SText (lit "u3"))])
    (mkSvc (lit "R1") None None None [lit "S1"] replay0) (lit "S1") R).
  destruct H as [i H]; [vm_compute; reflexivity|vm_compute; reflexivity|now left|vm_compute; now left|].
  assert (F : forallb (fun a => match a with SinkAdded _ _ => false | _ => true end) (s_log (fst (step ex (isort true) (OClient (lit "R1") (mkSpec (lit "f") [] []) (lit "u3")) (fst (start ex))))) = true) by (vm_compute; reflexivity).
  rewrite forallb_forall in F. apply F in H. discriminate.
Qed.
Print Assumptions C75_rpc_sinks_refuted.
(** A successful call writes one message for each of its values that differs from the configured one, and no other of that sort. *)
Theorem C75_mismatches : forall c srt s o r, reachable c srt s -> snd (step c srt o s) = Some r ->
  filter is_mm (s_log (fst (step c srt o s))) = filter is_mm (s_log s) ++ repeat (Mismatch (op_name o)) (conflicts c o).
Proof. intros c srt s o r H E. destruct (reach_inv _ _ _ H) as [V R]. exact (proj2 (adds_step c srt o s R) r E). Qed.
Print Assumptions C75_mismatches.
Example ex_mismatches : filter is_mm (s_log (run ex (isort true) ex_ops (fst (start ex)))) =
  [Mismatch (lit "C1"); Mismatch (lit "P1"); Mismatch (lit "P1"); Mismatch (lit "P1"); Mismatch (lit "P2")].
Proof. vm_compute. reflexivity. Qed.
