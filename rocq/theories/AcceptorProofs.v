From Coq Require Import String Ascii NArith List Arith Bool Lia Permutation Sorted.
From Verif Require Import Base TextModel TextSpec TextProofs UriProofs AcceptorModel.
Import ListNotations.
Open Scope N_scope.
Open Scope list_scope.

Lemma text_lt_irrefl : forall x, text_lt x x = false.
Proof. induction x as [|a x IH]; [reflexivity|]. cbn [text_lt]. now rewrite N.ltb_irrefl. Qed.
Lemma text_lt_trans : forall x y z, text_lt x y = true -> text_lt y z = true -> text_lt x z = true.
Proof.
  induction x as [|a x IH]; intros [|b y] [|c z]; cbn [text_lt]; try discriminate; try reflexivity.
  destruct (a <? b) eqn:E1; destruct (b <? a) eqn:E2; destruct (b <? c) eqn:E3; destruct (c <? b) eqn:E4; try discriminate; destruct (a <? c) eqn:E5; destruct (c <? a) eqn:E6; intros; try lia; try discriminate; try reflexivity. eapply IH; eassumption.
Qed.
Lemma text_lt_total : forall x y, text_lt x y = false -> text_lt y x = false -> x = y.
Proof.
  induction x as [|a x IH]; intros [|b y]; cbn [text_lt]; try discriminate; try reflexivity.
  destruct (a <? b) eqn:E1; destruct (b <? a) eqn:E2; try discriminate. intros A B. assert (a = b) by lia. subst. f_equal. now apply IH.
Qed.

(** the set: its texts are sorted, inserting adds the element unless there is one with the same text *)
Definition ulist := list uri.
Definition sorted (l : ulist) : Prop := StronglySorted (fun u v => text_lt (i_str u) (i_str v) = true) l.
Lemma insert_in : forall u l v, In v (insert u l) -> v = u \/ In v l.
Proof.
  induction l as [|w l IH]; cbn [insert]; intros v I; [destruct I as [I|[]]; now left|]. destruct (text_lt (i_str u) (i_str w)); [destruct I as [I|I]; [now left|now right]|].
  destruct (text_lt (i_str w) (i_str u)); [|now right]. destruct I as [I|I]; [right; now left|]. destruct (IH v I); [now left|right; now right].
Qed.
Lemma insert_old : forall u l v, In v l -> In v (insert u l).
Proof.
  induction l as [|w l IH]; cbn [insert]; intros v I; [destruct I|]. destruct (text_lt (i_str u) (i_str w)); [now right|]. destruct (text_lt (i_str w) (i_str u)); [|exact I]. destruct I as [I|I]; [now left|right; now apply IH].
Qed.
Lemma insert_new : forall u l, exists v, In v (insert u l) /\ i_str v = i_str u.
Proof.
  induction l as [|w l IH]; cbn [insert]; [exists u; split; [now left|reflexivity]|]. destruct (text_lt (i_str u) (i_str w)) eqn:A; [exists u; split; [now left|reflexivity]|].
  destruct (text_lt (i_str w) (i_str u)) eqn:B.
  - destruct IH as (v & I & E). exists v. split; [now right|exact E].
  - exists w. split; [now left|]. symmetry. now apply text_lt_total.
Qed.
Lemma insert_sorted : forall u l, sorted l -> sorted (insert u l).
Proof.
  induction l as [|w l IH]; cbn [insert]; intros S; [repeat constructor|]. apply StronglySorted_inv in S as [S F]. destruct (text_lt (i_str u) (i_str w)) eqn:A.
  - constructor; [now constructor|]. constructor; [exact A|]. rewrite Forall_forall in *. intros v I. eapply text_lt_trans; [exact A|now apply F].
  - destruct (text_lt (i_str w) (i_str u)) eqn:B; [|now constructor]. constructor; [now apply IH|]. rewrite Forall_forall in *. intros v I. apply insert_in in I as [->|I]; [exact B|now apply F].
Qed.
Lemma sorted_nodup : forall l, sorted l -> NoDup (map i_str l).
Proof.
  induction l as [|u l IH]; intros S; [constructor|]. apply StronglySorted_inv in S as [S F]. cbn [map]. constructor; [|now apply IH]. intros I. apply in_map_iff in I as (v & E & I). rewrite Forall_forall in F. specialize (F v I). rewrite E, text_lt_irrefl in F. discriminate.
Qed.

(** the multimap *)
Lemma minsert_perm : forall k s l, Permutation (minsert k s l) ((k, s) :: l).
Proof. induction l as [|x l IH]; cbn [minsert]; [apply Permutation_refl|]. destruct (k <? fst x); [apply Permutation_refl|]. rewrite IH. apply perm_swap. Qed.
Definition msorted (l : list (N * text)) : Prop := StronglySorted (fun x y => fst x <= fst y) l.
Lemma minsert_sorted : forall k s l, msorted l -> msorted (minsert k s l).
Proof.
  induction l as [|x l IH]; cbn [minsert]; intros S; [repeat constructor|]. apply StronglySorted_inv in S as [S F]. destruct (k <? fst x) eqn:E.
  - constructor; [now constructor|]. constructor; [cbn; lia|]. rewrite Forall_forall in *. intros y I. specialize (F y I). cbn. lia.
  - constructor; [now apply IH|]. rewrite Forall_forall in *. intros y I. apply (Permutation_in _ (minsert_perm k s l)) in I. destruct I as [<-|I]; [cbn; lia|now apply F].
Qed.
Definition ordered (f : uri -> N) (us : ulist) : list (N * text) := fold_left (fun m u => minsert (f u) (i_str u) m) us [].
Lemma ordered_gen : forall f us m, Permutation (fold_left (fun m u => minsert (f u) (i_str u) m) us m) (map (fun u => (f u, i_str u)) us ++ m) /\ (msorted m -> msorted (fold_left (fun m u => minsert (f u) (i_str u) m) us m)).
Proof.
  induction us as [|u us IH]; intros m; cbn [fold_left map app]; [split; [apply Permutation_refl|auto]|]. destruct (IH (minsert (f u) (i_str u) m)) as [P S]. split.
  - rewrite P, minsert_perm. symmetry. apply Permutation_middle.
  - intros M. apply S. now apply minsert_sorted.
Qed.
Lemma ordered_perm : forall f us, Permutation (ordered f us) (map (fun u => (f u, i_str u)) us).
Proof. intros. unfold ordered. destruct (ordered_gen f us []) as [P _]. now rewrite app_nil_r in P. Qed.
Lemma ordered_sorted : forall f us, msorted (ordered f us).
Proof. intros. unfold ordered. destruct (ordered_gen f us []) as [_ S]. apply S. constructor. Qed.

(** where the URIs come from *)
Definition cond (mk : resolver) (src dst u : uri) (h : text) : Prop :=
  let ui := uri_info mk u in let si := uri_info mk src in let di := uri_info mk dst in
  (h = i_host src /\ (n_ip4 ui = true /\ n_ip4 si = true \/ n_ip6 ui = true /\ n_ip6 si = true)) \/
  (n_local si = true /\ h = i_host dst /\ (n_ip4 ui = true /\ n_ip4 di = true \/ n_ip6 ui = true /\ n_ip6 di = true)) \/
  (n_local si = true /\ n_local di = true /\ (h = lit "127.0.0.1" /\ n_ip4 ui = true \/ h = lit "[::1]" /\ n_ip6 ui = true)).
Definition good (h : text) : Prop := h <> [] /\ ~ In 47 h.
Lemma tcp_of_family : forall mk u, n_ip4 (uri_info mk u) = true \/ n_ip6 (uri_info mk u) = true -> i_type u = TcpUri.
Proof. intros mk u. unfold uri_info. destruct (i_type u); cbn; intros [H|H]; try discriminate; reflexivity. Qed.
Lemma good_host : forall mk s u, parse s = Ok u -> n_ip4 (uri_info mk u) = true \/ n_ip6 (uri_info mk u) = true -> good (i_host u).
Proof. intros mk s u P F. apply tcp_of_family in F. destruct (parsed s u P) as (A & B & _); [rewrite F; discriminate|]. now split. Qed.

(** Everything the decision adds: [made] is the list of new hosts, in the order of the code *)
Definition made (mk : resolver) (src dst u : uri) : list text :=
  let ui := uri_info mk u in let si := uri_info mk src in let di := uri_info mk dst in
  (if n_local si then
     (if n_local di then (if n_ip4 ui then [lit "127.0.0.1"] else []) ++ (if n_ip6 ui then [lit "[::1]"] else []) else []) ++
     (if n_ip4 ui && n_ip4 di then [i_host dst] else []) ++ (if n_ip6 ui && n_ip6 di then [i_host dst] else []) else []) ++
  (if n_ip4 ui && n_ip4 si then [i_host src] else []) ++ (if n_ip6 ui && n_ip6 si then [i_host src] else []).
Definition tcp_uri (h : text) (p : N) : uri := mkUri TcpUri (lit "tcp") h (Some p) [] (lit "tcp://" ++ h ++ [58] ++ decimal p).
Lemma made_cond : forall mk src dst u h, In h (made mk src dst u) <-> cond mk src dst u h.
Proof.
  intros mk src dst u h. unfold made, cond. cbv zeta.
  destruct (n_local (uri_info mk src)), (n_local (uri_info mk dst)), (n_ip4 (uri_info mk u)), (n_ip6 (uri_info mk u)), (n_ip4 (uri_info mk src)), (n_ip6 (uri_info mk src)), (n_ip4 (uri_info mk dst)), (n_ip6 (uri_info mk dst));
    cbn [andb app]; rewrite ?in_app_iff; cbn [In]; intuition (subst; auto; try discriminate).
Qed.
Lemma made_good : forall mk s1 s2 src dst u h, parse s1 = Ok src -> parse s2 = Ok dst -> In h (made mk src dst u) -> good h.
Proof.
  intros mk s1 s2 src dst u h P1 P2 I. apply made_cond in I. unfold cond in I. cbv zeta in I.
  destruct I as [(-> & C)|[(_ & -> & C)|(_ & _ & C)]].
  - apply (good_host mk s1); tauto.
  - apply (good_host mk s2); tauto.
  - destruct C as [[-> _]|[-> _]]; split; try discriminate; cbn; lia.
Qed.
Lemma new_tcp_ok : forall h p l, good h -> p < 65536 -> new_tcp h p l = Ok (insert (tcp_uri h p) l).
Proof. intros h p l [A B] L. unfold new_tcp. now rewrite make_tcp_ok. Qed.
Lemma local_parsed : forall s u, parse s = Ok u -> i_type u = LocalUri -> i_port u = None /\ i_str u = s.
Proof.
  intros s u P T. unfold parse in P. destruct (find_text (lit "://") s) as [idx|]; [|discriminate]. cbv zeta in P. fold (type_of (firstn idx s)) in P. destruct (type_of (firstn idx s)) eqn:TT.
  all: try (injection P as <-; split; reflexivity).
  all: exfalso; repeat match type of P with match ?x with _ => _ end = _ => destruct x; try discriminate end; injection P as <-; discriminate.
Qed.
Lemma port_lt : forall s u, parse s = Ok u -> port u < 65536.
Proof.
  intros s u P. destruct (i_type u) eqn:T; try (destruct (parsed s u P) as (_ & _ & L & _); [congruence|exact L]).
  destruct (local_parsed s u P T) as [E _]. unfold port. rewrite E, T. lia.
Qed.
Lemma decide_ok : forall mk s1 s2 src dst s u l, parse s1 = Ok src -> parse s2 = Ok dst -> parse s = Ok u ->
  decide mk src dst s l = Ok (if n_catchall (uri_info mk u) then fold_left (fun l h => insert (tcp_uri h (port u)) l) (made mk src dst u) l else insert u l).
Proof.
  intros mk s1 s2 src dst s u l P1 P2 P. unfold decide. rewrite P. cbn [bind]. destruct (n_catchall (uri_info mk u)); [|reflexivity].
  pose proof (port_lt s u P) as LP. assert (G : forall h, In h (made mk src dst u) -> good h) by (intros h; apply (made_good mk s1 s2); assumption). revert G. unfold made. cbv zeta. unfold when.
  destruct (n_local (uri_info mk src)), (n_local (uri_info mk dst)), (n_ip4 (uri_info mk u)), (n_ip6 (uri_info mk u)), (n_ip4 (uri_info mk src)), (n_ip6 (uri_info mk src)), (n_ip4 (uri_info mk dst)), (n_ip6 (uri_info mk dst));
    cbn [andb app bind]; intros G; repeat (rewrite new_tcp_ok; [cbn [bind]|apply G; cbn [In]; tauto|exact LP]); reflexivity.
Qed.
Definition add_one (mk : resolver) (src dst : uri) (l : ulist) (u : uri) : ulist :=
  if n_catchall (uri_info mk u) then fold_left (fun l h => insert (tcp_uri h (port u)) l) (made mk src dst u) l else insert u l.
Lemma decide_all_ok : forall mk s1 s2 src dst ss us l, parse s1 = Ok src -> parse s2 = Ok dst -> Forall2 (fun s u => parse s = Ok u) ss us ->
  decide_all mk src dst ss l = Ok (fold_left (add_one mk src dst) us l).
Proof.
  intros mk s1 s2 src dst ss us l P1 P2 F. revert l. induction F as [|s u ss us P F IH]; intros l; [reflexivity|]. cbn [decide_all fold_left]. rewrite (decide_ok mk s1 s2 src dst s u l P1 P2 P). cbn [bind]. apply IH.
Qed.
Lemma decide_all_parses : forall mk src dst ss l r, decide_all mk src dst ss l = Ok r -> exists us, Forall2 (fun s u => parse s = Ok u) ss us.
Proof.
  induction ss as [|s ss IH]; intros l r H; [exists []; constructor|]. cbn [decide_all] in H. destruct (decide mk src dst s l) as [l'| |] eqn:D; try discriminate. cbn [bind] in H. destruct (IH _ _ H) as [us F].
  unfold decide in D. destruct (parse s) as [u| |] eqn:P; try discriminate. exists (u :: us). now constructor.
Qed.

Definition wanted (mk : resolver) (src dst : uri) (us : ulist) (v : text) : Prop :=
  exists u, In u us /\ (if n_catchall (uri_info mk u) then exists h, In h (made mk src dst u) /\ v = i_str (tcp_uri h (port u)) else v = i_str u).
Lemma fold_insert : forall (f : text -> uri) hs l, sorted l ->
  sorted (fold_left (fun l h => insert (f h) l) hs l) /\ (forall v, In v (map i_str (fold_left (fun l h => insert (f h) l) hs l)) <-> In v (map i_str l) \/ exists h, In h hs /\ v = i_str (f h)).
Proof.
  intros f. induction hs as [|h hs IH]; intros l S; cbn [fold_left]; [split; [exact S|]; intros v; split; [now left|intros [H|(h & [] & _)]; exact H]|].
  destruct (IH (insert (f h) l)) as [A B]; [now apply insert_sorted|]. split; [exact A|]. intros v. rewrite B. split.
  - intros [H|(h' & I & E)]; [|right; exists h'; split; [now right|exact E]]. apply in_map_iff in H as (u & E & I). apply insert_in in I as [->|I]; [right; exists h; split; [now left|now symmetry]|left; apply in_map_iff; eauto].
  - intros [H|(h' & [->|I] & E)].
    + left. apply in_map_iff in H as (u & E & I). apply in_map_iff. exists u. split; [exact E|now apply insert_old].
    + left. destruct (insert_new (f h') l) as (w & I & E'). apply in_map_iff. exists w. split; [congruence|exact I].
    + right. eauto.
Qed.
Lemma add_all : forall mk src dst us l, sorted l -> sorted (fold_left (add_one mk src dst) us l) /\ (forall v, In v (map i_str (fold_left (add_one mk src dst) us l)) <-> In v (map i_str l) \/ wanted mk src dst us v).
Proof.
  intros mk src dst. induction us as [|u us IH]; intros l S; cbn [fold_left]; [split; [exact S|]; intros v; split; [now left|intros [H|(u & [] & _)]; exact H]|].
  assert (X : sorted (add_one mk src dst l u) /\ forall v, In v (map i_str (add_one mk src dst l u)) <-> In v (map i_str l) \/ (if n_catchall (uri_info mk u) then exists h, In h (made mk src dst u) /\ v = i_str (tcp_uri h (port u)) else v = i_str u)).
  { unfold add_one. destruct (n_catchall (uri_info mk u)); [apply (fold_insert (fun h => tcp_uri h (port u))); exact S|]. split; [now apply insert_sorted|]. intros v. split.
    - intros H. apply in_map_iff in H as (w & E & I). apply insert_in in I as [->|I]; [now right|left; apply in_map_iff; eauto].
    - intros [H| ->]; [apply in_map_iff in H as (w & E & I); apply in_map_iff; exists w; split; [exact E|now apply insert_old]|]. destruct (insert_new u l) as (w & I & E). apply in_map_iff. eauto. }
  destruct X as [X1 X2]. destruct (IH _ X1) as [A B]. split; [exact A|]. intros v. rewrite B, X2. unfold wanted. split.
  - intros [[H|H]|(w & I & H)]; [now left|right; exists u; split; [now left|exact H]|right; exists w; split; [now right|exact H]].
  - intros [H|(w & [->|I] & H)]; [left; now left|left; now right|right; eauto].
Qed.

(** the elements are what their texts are parsed to *)
Definition consistent (l : ulist) : Prop := forall u, In u l -> parse (i_str u) = Ok u.
Lemma insert_consistent : forall u l, parse (i_str u) = Ok u -> consistent l -> consistent (insert u l).
Proof. intros u l P C v I. apply insert_in in I as [->|I]; auto. Qed.
Lemma tcp_consistent : forall h p, good h -> p < 65536 -> parse (i_str (tcp_uri h p)) = Ok (tcp_uri h p).
Proof. intros h p [A B] L. exact (make_tcp_ok h p A B L). Qed.
Lemma str_of_parse : forall s u, parse s = Ok u -> i_str u = s.
Proof.
  intros s u P. destruct (i_type u) eqn:T; try (destruct (parsed s u P) as (_ & _ & _ & _ & _ & E); [congruence|exact E]). now destruct (local_parsed s u P T).
Qed.
Lemma fold_insert_consistent : forall (f : text -> uri) hs l, (forall h, In h hs -> parse (i_str (f h)) = Ok (f h)) -> consistent l -> consistent (fold_left (fun l h => insert (f h) l) hs l).
Proof. intros f. induction hs as [|h hs IH]; intros l G C; [exact C|]. cbn [fold_left]. apply IH; [intros h' I; apply G; now right|]. apply insert_consistent; [apply G; now left|exact C]. Qed.
Lemma add_all_consistent : forall mk s1 s2 src dst us l, parse s1 = Ok src -> parse s2 = Ok dst -> (forall u, In u us -> exists s, parse s = Ok u) -> consistent l -> consistent (fold_left (add_one mk src dst) us l).
Proof.
  intros mk s1 s2 src dst us l P1 P2. revert l. induction us as [|u us IH]; intros l G C; [exact C|]. cbn [fold_left]. apply IH; [intros v I; apply G; now right|]. unfold add_one. destruct (G u (or_introl eq_refl)) as [s P].
  destruct (n_catchall (uri_info mk u)).
  - apply (fold_insert_consistent (fun h => tcp_uri h (port u))); [|exact C]. intros h I. apply tcp_consistent; [now apply (made_good mk s1 s2 src dst u)|now apply (port_lt s)].
  - apply insert_consistent; [|exact C]. pose proof (str_of_parse s u P). now subst.
Qed.
