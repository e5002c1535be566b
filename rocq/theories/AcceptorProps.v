From Coq Require Import String Ascii NArith List Arith Bool Lia Permutation Sorted.
From Verif Require Import Base TextModel TextSpec TextProofs UriProofs AcceptorModel AcceptorProofs.
Import ListNotations.
Open Scope N_scope.
Open Scope list_scope.

(** * C38: the acceptor URIs the registry hands out *)

(** Properties of a URI given as a text *)
Definition bare (h : text) : text := filter (fun c => negb ((c =? 91) || (c =? 93))) h.
Definition tcp_address (mk : resolver) (s : text) (a : addr) : Prop := exists u, parse s = Ok u /\ i_type u = TcpUri /\ mk (bare (i_host u)) = Some a.
Definition unspecified (mk : resolver) (s : text) : Prop := exists a, tcp_address mk s a /\ a_any a = true.
Definition loopback (mk : resolver) (s : text) : Prop := exists a, tcp_address mk s a /\ a_loop a = true.
Definition local_domain (s : text) : Prop := exists u, parse s = Ok u /\ i_type u = LocalUri.
Definition local_side (mk : resolver) (s : text) : Prop := local_domain s \/ loopback mk s.
Definition host_of (s h : text) : Prop := exists u, parse s = Ok u /\ i_host u = h.
Definition port_of (s : text) (p : N) : Prop := exists u, parse s = Ok u /\ port u = p.
Definition v4 (mk : resolver) (s : text) (b : bool) : Prop := exists a, tcp_address mk s a /\ a_v4 a = b.
(** what is assumed of asio::ip::make_address *)
Definition sane (mk : resolver) : Prop :=
  mk (lit "127.0.0.1") = Some (mkAddr true false true) /\ mk (lit "::1") = Some (mkAddr false false true).

Definition starts (p s : text) : bool := match find_text p s with Some O => true | _ => false end.
(** a small resolver for the examples: 0.0.0.0, ::, 127.x, ::1, 10.x, fe80::x *)
Definition ex_mk : resolver := fun h =>
  if text_eqb h (lit "0.0.0.0") then Some (mkAddr true true false) else if text_eqb h (lit "::") then Some (mkAddr false true false)
  else if starts (lit "127.") h then Some (mkAddr true false true) else if text_eqb h (lit "::1") then Some (mkAddr false false true)
  else if starts (lit "10.") h then Some (mkAddr true false false) else if starts (lit "fe80::") h then Some (mkAddr false false false) else None.
Example ex_mk_sane : sane ex_mk. Proof. split; vm_compute; reflexivity. Qed.

Lemma tcp_address_info : forall mk s u, parse s = Ok u ->
  (forall a, tcp_address mk s a -> uri_info mk u = mkInfo (a_loop a) (a_v4 a) (negb (a_v4 a)) (a_any a) (a_loop a)) /\
  ((forall a, ~ tcp_address mk s a) -> uri_info mk u = (match i_type u with LocalUri => mkInfo true false false false false | _ => info0 end)).
Proof.
  intros mk s u P. split.
  - intros a (u' & P' & T & M). rewrite P in P'. injection P' as <-. unfold uri_info, bare in *. now rewrite T, M.
  - intros N. unfold uri_info. destruct (i_type u) eqn:T; try reflexivity. destruct (mk _) as [a|] eqn:M; [|reflexivity]. exfalso. apply (N a). exists u. auto.
Qed.
Lemma address_dec : forall mk s u, parse s = Ok u -> (exists a, tcp_address mk s a) \/ (forall a, ~ tcp_address mk s a).
Proof.
  intros mk s u P. destruct (i_type u) eqn:T.
  all: try (right; intros a (u' & P' & T' & _); rewrite P in P'; injection P' as <-; congruence).
  destruct (mk (bare (i_host u))) as [a|] eqn:M; [left; exists a, u; auto|]. right. intros a (u' & P' & _ & M'). rewrite P in P'. injection P' as <-. congruence.
Qed.
Lemma address_fun : forall mk s a b, tcp_address mk s a -> tcp_address mk s b -> a = b.
Proof. intros mk s a b (u & P & _ & M) (u' & P' & _ & M'). rewrite P in P'. injection P' as <-. congruence. Qed.
Lemma catchall_iff : forall mk s u, parse s = Ok u -> (n_catchall (uri_info mk u) = true <-> unspecified mk s).
Proof.
  intros mk s u P. destruct (tcp_address_info mk s u P) as [A B]. destruct (address_dec mk s u P) as [[a I]|N].
  - rewrite (A a I). cbn. split; [intros H; exists a; auto|]. intros (b & I' & H). now rewrite (address_fun mk s a b I I').
  - rewrite (B N). split; [destruct (i_type u); discriminate|]. intros (a & I & _). destruct (N a I).
Qed.
Lemma loop_iff : forall mk s u, parse s = Ok u -> (n_loop (uri_info mk u) = true <-> loopback mk s).
Proof.
  intros mk s u P. destruct (tcp_address_info mk s u P) as [A B]. destruct (address_dec mk s u P) as [[a I]|N].
  - rewrite (A a I). cbn. split; [intros H; exists a; auto|]. intros (b & I' & H). now rewrite (address_fun mk s a b I I').
  - rewrite (B N). split; [destruct (i_type u); discriminate|]. intros (a & I & _). destruct (N a I).
Qed.
Lemma ip_iff : forall mk s u (b : bool), parse s = Ok u -> ((if b then n_ip4 else n_ip6) (uri_info mk u) = true <-> v4 mk s b).
Proof.
  intros mk s u b P. destruct (tcp_address_info mk s u P) as [A B]. destruct (address_dec mk s u P) as [[a I]|N].
  - rewrite (A a I). split; [intros H; exists a; split; [exact I|destruct b; cbn in H; destruct (a_v4 a); cbn in H; congruence]|]. intros (a' & I' & H). rewrite (address_fun mk s a a' I I'). destruct b; cbn; rewrite H; reflexivity.
  - rewrite (B N). split; [destruct (i_type u), b; discriminate|]. intros (a & I & _). destruct (N a I).
Qed.
Lemma local_iff : forall mk s u, parse s = Ok u -> (n_local (uri_info mk u) = true <-> local_side mk s).
Proof.
  intros mk s u P. destruct (tcp_address_info mk s u P) as [A B]. destruct (address_dec mk s u P) as [[a I]|N].
  - rewrite (A a I). cbn. split; [intros H; right; exists a; auto|]. intros [(u' & P' & T)|(b & I' & H)]; [|now rewrite (address_fun mk s a b I I')]. destruct I as (u2 & P2 & T2 & _). congruence.
  - rewrite (B N). split.
    + destruct (i_type u) eqn:T; try discriminate. intros _. left. exists u. auto.
    + intros [(u' & P' & T)|(a & I & _)]; [|destruct (N a I)]. rewrite P in P'. injection P' as <-. now rewrite T.
Qed.

(** the result in terms of the sorted set *)
Lemma transform_inv : forall mk source dest acceptors l, transform mk source dest acceptors = Ok l ->
  exists src dst us, parse source = Ok src /\ parse dest = Ok dst /\ local_or_tcp src = true /\ local_or_tcp dst = true /\ Forall2 (fun s u => parse s = Ok u) acceptors us /\
    l = map snd (ordered (penalty mk (uri_info mk dst)) (fold_left (add_one mk src dst) us [])).
Proof.
  intros mk source dest acceptors l H. unfold transform in H. destruct (parse source) as [src| |] eqn:P1; try discriminate. cbn [bind] in H. destruct (parse dest) as [dst| |] eqn:P2; try discriminate. cbn [bind] in H.
  destruct (local_or_tcp src) eqn:L1; [|discriminate]. destruct (local_or_tcp dst) eqn:L2; [|discriminate]. cbn [negb] in H.
  destruct (decide_all mk src dst acceptors []) as [r| |] eqn:D; try discriminate. cbn [bind] in H. destruct (decide_all_parses _ _ _ _ _ _ D) as [us F]. rewrite (decide_all_ok mk source dest src dst acceptors us [] P1 P2 F) in D. injection D as <-. injection H as <-.
  exists src, dst, us. repeat (split; [eassumption || reflexivity|]). reflexivity.
Qed.
Lemma result_perm : forall f us, Permutation (map snd (ordered f us)) (map i_str us).
Proof. intros. rewrite (ordered_perm f us), map_map. cbn [snd]. apply Permutation_refl. Qed.
Lemma forall2_in : forall A B (R : A -> B -> Prop) xs ys, Forall2 R xs ys -> (forall x, In x xs -> exists y, In y ys /\ R x y) /\ (forall y, In y ys -> exists x, In x xs /\ R x y).
Proof.
  induction 1 as [|x y xs ys H F [I1 I2]]; [split; intros ? []|]. split; intros z [<-|I]; [exists y; split; [now left|exact H]|destruct (I1 z I) as (w & J & K); exists w; split; [now right|exact K]|exists x; split; [now left|exact H]|destruct (I2 z I) as (w & J & K); exists w; split; [now right|exact K]].
Qed.
Lemma sorted_nil : sorted []. Proof. constructor. Qed.

(** ** C38: no URI is handed out twice *)
Theorem C38_no_duplicates : forall mk source dest acceptors l, transform mk source dest acceptors = Ok l -> NoDup l.
Proof.
  intros mk source dest acceptors l H. apply transform_inv in H as (src & dst & us & _ & _ & _ & _ & _ & ->). destruct (add_all mk src dst us [] sorted_nil) as [S _].
  eapply Permutation_NoDup; [symmetry; apply result_perm|]. now apply sorted_nodup.
Qed.
Print Assumptions C38_no_duplicates.
Definition ex_acceptors : list text := [lit "tcp://0.0.0.0:4711"; lit "local:///tmp/p.silkit"; lit "tcp://10.0.0.7:4711"; lit "tcp://0.0.0.0:4711"; lit "tcp://[::]:4712"].
Example ex_transform_remote : transform ex_mk (lit "tcp://10.0.0.7:55555") (lit "tcp://10.0.0.1:8500") ex_acceptors = Ok [lit "local:///tmp/p.silkit"; lit "tcp://10.0.0.7:4711"].
Proof. vm_compute. reflexivity. Qed.
Example ex_transform_local : transform ex_mk (lit "tcp://127.0.0.1:55555") (lit "tcp://[::1]:8500") ex_acceptors =
  Ok [lit "local:///tmp/p.silkit"; lit "tcp://127.0.0.1:4711"; lit "tcp://[::1]:4712"; lit "tcp://10.0.0.7:4711"].
Proof. vm_compute. reflexivity. Qed.

(** ** C38: exactly these URIs are handed out: the advertised ones except those with an unspecified address; each of the latter is
    replaced by the address of the advertised participant as the registry sees it if of the same family, and if the participant is
    connected to the registry locally by the address under which the audience reached the registry if of the same family, and
    by the loopback address if the audience is local too. *)
Definition substitute (mk : resolver) (source dest a h : text) : Prop :=
  exists f, v4 mk a f /\
    ((v4 mk source f /\ host_of source h) \/
     (local_side mk source /\ v4 mk dest f /\ host_of dest h) \/
     (local_side mk source /\ local_side mk dest /\ h = if f then lit "127.0.0.1" else lit "[::1]")).
Lemma cond_substitute : forall mk source dest a src dst u h, parse source = Ok src -> parse dest = Ok dst -> parse a = Ok u ->
  (cond mk src dst u h <-> substitute mk source dest a h).
Proof.
  intros mk source dest a src dst u h P1 P2 P. unfold cond, substitute. cbv zeta.
  pose proof (local_iff mk source src P1) as L1. pose proof (local_iff mk dest dst P2) as L2.
  pose proof (ip_iff mk a u true P) as A4. pose proof (ip_iff mk a u false P) as A6. pose proof (ip_iff mk source src true P1) as S4. pose proof (ip_iff mk source src false P1) as S6.
  pose proof (ip_iff mk dest dst true P2) as D4. pose proof (ip_iff mk dest dst false P2) as D6. cbv iota in *. rewrite L1, L2, A4, A6, S4, S6, D4, D6.
  assert (HS : forall x, host_of source x <-> x = i_host src) by (intros x; split; [intros (u' & P' & <-); congruence|intros ->; exists src; auto]).
  assert (HD : forall x, host_of dest x <-> x = i_host dst) by (intros x; split; [intros (u' & P' & <-); congruence|intros ->; exists dst; auto]).
  split.
  - intros [(-> & [[X Y]|[X Y]])|[(L & -> & [[X Y]|[X Y]])|(L & L' & [[-> X]|[-> X]])]].
    + exists true. split; [exact X|]. left. split; [exact Y|now apply HS].
    + exists false. split; [exact X|]. left. split; [exact Y|now apply HS].
    + exists true. split; [exact X|]. right. left. rewrite HD. auto.
    + exists false. split; [exact X|]. right. left. rewrite HD. auto.
    + exists true. split; [exact X|]. right. right. auto.
    + exists false. split; [exact X|]. right. right. auto.
  - intros (f & X & H). rewrite HS, HD in H. destruct H as [(Y & ->)|[(L & Y & ->)|(L & L' & ->)]]; destruct f; tauto.
Qed.
Theorem C38_exactly : forall mk source dest acceptors l, transform mk source dest acceptors = Ok l -> forall s,
  In s l <-> (In s acceptors /\ ~ unspecified mk s) \/
             (exists a h p, In a acceptors /\ unspecified mk a /\ port_of a p /\ substitute mk source dest a h /\ s = lit "tcp://" ++ h ++ [58] ++ decimal p).
Proof.
  intros mk source dest acceptors l H s. apply transform_inv in H as (src & dst & us & P1 & P2 & _ & _ & F & ->). destruct (add_all mk src dst us [] sorted_nil) as [_ W].
  assert (X : In s (map snd (ordered (penalty mk (uri_info mk dst)) (fold_left (add_one mk src dst) us []))) <-> wanted mk src dst us s).
  { split; intros I.
    - apply (Permutation_in _ (result_perm _ _)) in I. apply W in I as [[]|I]. exact I.
    - apply (Permutation_in s (Permutation_sym (result_perm (penalty mk (uri_info mk dst)) _))). apply W. now right. }
  rewrite X. clear X W. destruct (forall2_in _ _ _ _ _ F) as [F1 F2]. unfold wanted. split.
  - intros (u & I & H). destruct (F2 u I) as (a & J & P). pose proof (catchall_iff mk a u P) as CI. destruct (n_catchall (uri_info mk u)) eqn:C.
    + right. destruct H as (h & M & ->). exists a, h, (port u). apply made_cond in M. repeat split; [exact J|now apply CI|exists u; auto|now apply (cond_substitute mk source dest a src dst u h)].
    + left. subst s. rewrite (str_of_parse a u P). split; [exact J|]. intros U. apply CI in U. discriminate.
  - intros [[I U]|(a & h & p & I & U & (u' & P' & <-) & S & ->)].
    + destruct (F1 s I) as (u & J & P). exists u. split; [exact J|]. pose proof (catchall_iff mk s u P) as CI. destruct (n_catchall (uri_info mk u)); [destruct U; now apply CI|]. symmetry. now apply (str_of_parse s).
    + destruct (F1 a I) as (u & J & P). rewrite P in P'. injection P' as <-. exists u. split; [exact J|]. apply (catchall_iff mk a u P) in U. rewrite U. exists h. split; [|reflexivity]. apply made_cond. now apply (cond_substitute mk source dest a src dst u h).
Qed.
Print Assumptions C38_exactly.

(** ** C38: no URI with an unspecified address is handed out, provided that the participants' own addresses are not unspecified *)
Theorem C38_no_catch_all : forall mk source dest acceptors l, sane mk -> ~ unspecified mk source -> ~ unspecified mk dest ->
  transform mk source dest acceptors = Ok l -> forall s, In s l -> ~ unspecified mk s.
Proof.
  intros mk source dest acceptors l [S4 S6] US UD H s I. pose proof H as H0. apply transform_inv in H0 as (src & dst & us & P1 & P2 & _ & _ & F & _). apply (C38_exactly mk source dest acceptors l H) in I as [[_ U]|(a & h & p & J & U & (u & P & <-) & S & ->)]; [exact U|].
  apply (cond_substitute mk source dest a src dst u h P1 P2 P) in S. apply made_cond in S. pose proof (made_good mk source dest src dst u h P1 P2 S) as G. apply made_cond in S.
  pose proof (tcp_consistent h (port u) G (port_lt a u P)) as T. intros (b & (u' & P' & _ & M) & A). change (parse (i_str (tcp_uri h (port u))) = Ok u') in P'. rewrite T in P'. injection P' as <-. cbn [i_host tcp_uri] in M.
  unfold cond in S. cbv zeta in S. destruct S as [(-> & C)|[(_ & -> & C)|(_ & _ & [[-> _]|[-> _]])]].
  - apply US. exists b. split; [|exact A]. exists src. repeat split; [exact P1| |exact M]. apply (tcp_of_family mk). tauto.
  - apply UD. exists b. split; [|exact A]. exists dst. repeat split; [exact P2| |exact M]. apply (tcp_of_family mk). tauto.
  - change (bare (lit "127.0.0.1")) with (lit "127.0.0.1") in M. rewrite S4 in M. injection M as <-. discriminate.
  - change (bare (lit "[::1]")) with (lit "::1") in M. rewrite S6 in M. injection M as <-. discriminate.
Qed.
Print Assumptions C38_no_catch_all.

(** ** C38: local-domain URIs come first; then for a local audience loopback before other addresses, for a remote audience the other way
    round *)
Definition rank (mk : resolver) (dest s : text) (k : N) : Prop :=
  (local_domain s /\ k = 0) \/
  (~ local_domain s /\ local_side mk dest /\ (loopback mk s /\ k = 1 \/ ~ loopback mk s /\ k = 2)) \/
  (~ local_domain s /\ ~ local_side mk dest /\ (loopback mk s /\ k = 2 \/ ~ loopback mk s /\ k = 1)).
Lemma rank_penalty : forall mk dest dst u, parse dest = Ok dst -> parse (i_str u) = Ok u -> forall k, rank mk dest (i_str u) k -> penalty mk (uri_info mk dst) u = 1000 * k.
Proof.
  intros mk dest dst u P2 P k R. unfold penalty. pose proof (local_iff mk dest dst P2) as L. pose proof (loop_iff mk _ u P) as LO.
  assert (D : local_domain (i_str u) <-> i_type u = LocalUri) by (split; [intros (v & Q & T); congruence|intros T; exists u; auto]).
  unfold rank in R. rewrite D, <- L, <- LO in R. destruct (i_type u), (n_loop (uri_info mk u)), (n_local (uri_info mk dst)); destruct R as [(X & ->)|[(X & Y & [(Z & ->)|(Z & ->)])|(X & Y & [(Z & ->)|(Z & ->)])]]; try discriminate; try reflexivity; congruence.
Qed.
Lemma strongly_before : forall A (R : A -> A -> Prop) l i j x y, StronglySorted R l -> nth_error l i = Some x -> nth_error l j = Some y -> (i < j)%nat -> R x y.
Proof.
  intros A R l i j x y S. revert i j. induction S as [|z l S IH F]; intros i j; [destruct i; discriminate|]. destruct i as [|i], j as [|j]; cbn; intros H K L; try lia.
  - injection H as ->. rewrite Forall_forall in F. apply F. eapply nth_error_In; eassumption.
  - apply (IH i j H K). lia.
Qed.
Theorem C38_preferred_first : forall mk source dest acceptors l, transform mk source dest acceptors = Ok l ->
  (forall s, In s l -> exists k, rank mk dest s k) /\
  (forall i j s t a b, nth_error l i = Some s -> nth_error l j = Some t -> rank mk dest s a -> rank mk dest t b -> a < b -> (i < j)%nat).
Proof.
  intros mk source dest acceptors l H. apply transform_inv in H as (src & dst & us & P1 & P2 & _ & _ & F & ->). set (f := penalty mk (uri_info mk dst)). set (r := fold_left (add_one mk src dst) us []).
  assert (C : consistent r). { apply (add_all_consistent mk source dest); auto; [|intros u []]. intros u I. destruct (forall2_in _ _ _ _ _ F) as [_ F2]. destruct (F2 u I) as (s & _ & P). eauto. }
  assert (K : forall i s, nth_error (map snd (ordered f r)) i = Some s -> exists u, In u r /\ i_str u = s /\ nth_error (ordered f r) i = Some (f u, s)).
  { intros i s E. rewrite nth_error_map in E. destruct (nth_error (ordered f r) i) as [[k s']|] eqn:N; [|discriminate]. injection E as <-. cbn [snd].
    pose proof (Permutation_in _ (ordered_perm f r) (nth_error_In _ _ N)) as I. apply in_map_iff in I as (u & E & I). injection E as <- <-. eauto. }
  split.
  - intros s I. apply In_nth_error in I as [i I]. destruct (K i s I) as (u & J & E & _). pose proof (C u J) as P. rewrite E in P.
    pose proof (local_iff mk dest dst P2) as L. pose proof (loop_iff mk s u P) as LO. unfold rank.
    assert (D : local_domain s <-> i_type u = LocalUri) by (split; [intros (v & Q & T); congruence|intros T; exists u; auto]). setoid_rewrite D. setoid_rewrite <- L. setoid_rewrite <- LO. clear.
    destruct (i_type u), (n_loop (uri_info mk u)), (n_local (uri_info mk dst)).
    all: first [exists 0; left; split; reflexivity|exists 1; right; left; repeat split; try discriminate; (left; split; reflexivity) || (right; split; congruence)|exists 2; right; left; repeat split; try discriminate; (left; split; reflexivity) || (right; split; congruence)|exists 1; right; right; repeat split; try discriminate; (left; split; reflexivity) || (right; split; congruence)|exists 2; right; right; repeat split; try discriminate; (left; split; reflexivity) || (right; split; congruence)].
  - intros i j s t a b Hs Ht Ra Rb L. destruct (K i s Hs) as (u & J & E & N). destruct (K j t Ht) as (w & J' & E' & N'). subst s t.
    apply (rank_penalty mk dest dst u P2 (C u J)) in Ra. apply (rank_penalty mk dest dst w P2 (C w J')) in Rb. fold f in Ra, Rb.
    destruct (Nat.lt_trichotomy i j) as [G|[G|G]]; [exact G| |].
    + subst j. rewrite N in N'. injection N' as Q _. exfalso. clear - Q L Ra Rb. lia.
    + pose proof (strongly_before _ _ _ _ _ _ _ (ordered_sorted f r) N' N G) as Q. cbn [fst] in Q. exfalso. clear - Q L Ra Rb. lia.
Qed.
Print Assumptions C38_preferred_first.

(** ** C38: the registry fails exactly if one of the texts is no URI, or a participant's own address is neither TCP nor local *)
Theorem C38_fails_iff : forall mk source dest acceptors,
  (exists l, transform mk source dest acceptors = Ok l) <->
  (exists u, parse source = Ok u /\ (i_type u = LocalUri \/ i_type u = TcpUri)) /\ (exists u, parse dest = Ok u /\ (i_type u = LocalUri \/ i_type u = TcpUri)) /\ (forall a, In a acceptors -> exists u, parse a = Ok u).
Proof.
  intros. split.
  - intros [l H]. apply transform_inv in H as (src & dst & us & P1 & P2 & L1 & L2 & F & _). split; [|split].
    + exists src. split; [exact P1|]. unfold local_or_tcp in L1. destruct (i_type src); auto; discriminate.
    + exists dst. split; [exact P2|]. unfold local_or_tcp in L2. destruct (i_type dst); auto; discriminate.
    + intros a I. destruct (forall2_in _ _ _ _ _ F) as [F1 _]. destruct (F1 a I) as (u & _ & P). eauto.
  - intros [(src & P1 & T1) [(dst & P2 & T2) A]]. assert (F : exists us, Forall2 (fun s u => parse s = Ok u) acceptors us).
    { induction acceptors as [|a r IH]; [exists []; constructor|]. destruct (A a (or_introl eq_refl)) as [u P]. destruct IH as [us F]; [intros b I; apply A; now right|]. exists (u :: us). now constructor. }
    destruct F as [us F]. unfold transform. rewrite P1. cbn [bind]. rewrite P2. cbn [bind].
    assert (L1 : local_or_tcp src = true) by (unfold local_or_tcp; destruct T1 as [->| ->]; reflexivity). assert (L2 : local_or_tcp dst = true) by (unfold local_or_tcp; destruct T2 as [->| ->]; reflexivity). rewrite L1, L2. cbn [negb].
    rewrite (decide_all_ok mk source dest src dst acceptors us [] P1 P2 F). cbn [bind]. eauto.
Qed.
Print Assumptions C38_fails_iff.
Example ex_transform_fails : transform ex_mk (lit "silkit://10.0.0.7:55555") (lit "tcp://10.0.0.1:8500") ex_acceptors = Exn /\ transform ex_mk (lit "tcp://10.0.0.7:55555") (lit "tcp://10.0.0.1:8500") [lit "10.0.0.7:4711"] = Exn.
Proof. split; vm_compute; reflexivity. Qed.

(** ** C38, refuted part: an audience on another host is never given a URI that only works on the host of the advertised participant.
    Loopback and local-domain URIs are passed on to every audience; and for a participant connected to the registry by loopback, its
    unspecified address is replaced by the loopback address also for an audience on another host. *)
Theorem C38_no_local_uri_for_remote_audience_refuted :
  (exists source dest acceptors l s, ~ local_side ex_mk source /\ ~ local_side ex_mk dest /\ transform ex_mk source dest acceptors = Ok l /\ In s l /\ loopback ex_mk s) /\
  (exists source dest acceptors l s, ~ local_side ex_mk source /\ ~ local_side ex_mk dest /\ transform ex_mk source dest acceptors = Ok l /\ In s l /\ local_domain s) /\
  (exists source dest acceptors l s, local_side ex_mk source /\ ~ local_side ex_mk dest /\ transform ex_mk source dest acceptors = Ok l /\ ~ In s acceptors /\ In s l /\ loopback ex_mk s).
Proof.
  assert (R : forall s, (exists u, parse s = Ok u /\ n_local (uri_info ex_mk u) = false) -> ~ local_side ex_mk s) by (intros s (u & P & N) L; apply (local_iff ex_mk s u P) in L; congruence).
  assert (LB : forall s, (exists u, parse s = Ok u /\ n_loop (uri_info ex_mk u) = true) -> loopback ex_mk s) by (intros s (u & P & N); now apply (loop_iff ex_mk s u P)).
  split; [|split].
  - exists (lit "tcp://10.0.0.7:55555"), (lit "tcp://10.0.0.1:8500"), [lit "tcp://127.0.0.1:4711"], [lit "tcp://127.0.0.1:4711"], (lit "tcp://127.0.0.1:4711"). split; [|split; [|split; [|split]]].
    + apply R. eexists. split; vm_compute; reflexivity.
    + apply R. eexists. split; vm_compute; reflexivity.
    + vm_compute. reflexivity.
    + now left.
    + apply LB. eexists. split; vm_compute; reflexivity.
  - exists (lit "tcp://10.0.0.7:55555"), (lit "tcp://10.0.0.1:8500"), [lit "local:///tmp/p.silkit"], [lit "local:///tmp/p.silkit"], (lit "local:///tmp/p.silkit"). split; [|split; [|split; [|split]]].
    + apply R. eexists. split; vm_compute; reflexivity.
    + apply R. eexists. split; vm_compute; reflexivity.
    + vm_compute. reflexivity.
    + now left.
    + eexists. split; vm_compute; reflexivity.
  - exists (lit "tcp://127.0.0.1:55555"), (lit "tcp://10.0.0.1:8500"), [lit "tcp://0.0.0.0:4711"], [lit "tcp://10.0.0.1:4711"; lit "tcp://127.0.0.1:4711"], (lit "tcp://127.0.0.1:4711"). split; [|split; [|split; [|split; [|split]]]].
    + right. apply LB. eexists. split; vm_compute; reflexivity.
    + apply R. eexists. split; vm_compute; reflexivity.
    + vm_compute. reflexivity.
    + intros [E|[]]. discriminate.
    + right. now left.
    + apply LB. eexists. split; vm_compute; reflexivity.
Qed.
Print Assumptions C38_no_local_uri_for_remote_audience_refuted.

(** ** C38: what does hold for a participant that is not local to the registry: a loopback URI is handed out only if it was advertised *)
Theorem C38_no_new_loopback : forall mk source dest acceptors l, ~ local_side mk source ->
  transform mk source dest acceptors = Ok l -> forall s, In s l -> loopback mk s -> In s acceptors.
Proof.
  intros mk source dest acceptors l NL H s I LB. pose proof H as H0. apply transform_inv in H0 as (src & dst & us & P1 & P2 & _ & _ & F & _). apply (C38_exactly mk source dest acceptors l H) in I as [[J _]|(a & h & p & J & U & (u & P & <-) & S & ->)]; [exact J|]. exfalso. apply NL.
  destruct S as (f & _ & [(V & (src' & P1' & E))|[(L & _)|(L & _)]]); [|exact L|exact L]. rewrite P1 in P1'. injection P1' as <-. right.
  destruct V as (b & (src' & P1' & T & M) & _). rewrite P1 in P1'. injection P1' as <-.
  assert (G : good h). { subst h. destruct (parsed source src P1) as (A & B & _); [congruence|]. now split. }
  destruct LB as (b' & (u' & P' & _ & M') & A). pose proof (tcp_consistent h (port u) G (port_lt a u P)) as TC. change (parse (i_str (tcp_uri h (port u))) = Ok u') in P'. rewrite TC in P'. injection P' as <-. cbn [i_host tcp_uri] in M'. subst h. rewrite M in M'. injection M' as <-.
  exists b. split; [|exact A]. exists src. auto.
Qed.
Print Assumptions C38_no_new_loopback.
