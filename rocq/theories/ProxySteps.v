(** The network of ProxyModel.v: every step keeps the invariant of ProxySys.v. *)
From Coq Require Import List Arith Bool Lia.
From Verif Require Import Base ProxyModel ProxyProofs ProxyNet ProxySys.
Import ListNotations.

Section Steps.
Variables sim h : nat.
Notation knows := (knows sim).
Notation SI := (SI sim h).

Lemma eof_open y k : SI y -> y_closed y k = false -> y_eof y k = false.
Proof. intros S C. destruct (y_eof y k) eqn:E; [|reflexivity]. apply (s_eof _ _ _ S) in E. destruct E. congruence. Qed.

Lemma pls_one a b a' b' pl : pls a b [MProxy 0 a' b' pl] = if (a' =? a) && (b' =? b) then [pl] else [].
Proof. unfold pls. cbn. destruct (_ && _); reflexivity. Qed.
Lemma pls_cons a b m l : pls a b (m :: l) = pls a b [m] ++ pls a b l.
Proof. change (m :: l) with ([m] ++ l). apply pls_app. Qed.

Lemma no_none y i j : SI y -> i < y_cnt y -> j < y_cnt y -> i <> j -> y_closed y j = false -> y_eof y i = false ->
  ~ In None (flow y i j).
Proof.
  intros S Li Lj D Cj Ei I. pose proof (s_flow _ _ _ S i j Li Lj D Cj) as F. unfold ending in F. rewrite Ei in F. cbn in F.
  rewrite app_nil_r in F. apply (s_some _ _ _ S i (y_name y i) (y_name y j)). unfold sent in F. rewrite F. apply in_or_app. now right.
Qed.

(** If the end of [i] is the next thing under way to [j], then nothing follows it. *)
Lemma none_last y i j l : SI y -> i < y_cnt y -> j < y_cnt y -> i <> j -> y_closed y j = false ->
  flow y i j = None :: l -> l = [] /\ y_eof y i = true.
Proof.
  intros S Li Lj D Cj E. pose proof (s_flow _ _ _ S i j Li Lj D Cj) as F. rewrite E in F. unfold ending in F.
  assert (NN : ~ In None (sent y i j)) by apply (s_some _ _ _ S).
  destruct (y_eof y i && nonempty (sent y i j)) eqn:X.
  - apply andb_true_iff in X. split; [|tauto]. destruct l as [|z l]; [reflexivity|]. exfalso. apply NN.
    assert (exists l', z :: l = l' ++ [last (z :: l) None]) as (l' & W).
    { exists (removelast (z :: l)). apply app_removelast_last. discriminate. }
    rewrite W in F. change (None :: l' ++ [last (z :: l) None]) with ((None :: l') ++ [last (z :: l) None]) in F.
    rewrite app_assoc in F. apply app_inj_tail in F. destruct F as [F _]. rewrite F. apply in_or_app. right. now left.
  - exfalso. rewrite app_nil_r in F. apply NN. rewrite F. apply in_or_app. right. now left.
Qed.

Lemma none_head y i j l : SI y -> i < y_cnt y -> j < y_cnt y -> i <> j -> y_closed y j = false ->
  flow y i j = None :: l -> knows (y_leaf y j) (y_name y i).
Proof.
  intros S Li Lj D Cj E. destruct (s_know _ _ _ S i j Li Lj D Cj) as [K|(t & K)]; auto.
  - left. rewrite E. discriminate.
  - rewrite E in K. discriminate.
Qed.

Ltac names S k Lk := pose proof (s_name _ _ _ S k Lk) as [? ?].

Lemma step_join y n : SI y -> SI (ystep sim h (YJoin n) y).
Proof.
  intros S. cbn [ystep]. destruct (fresh h y n) eqn:FR; [|exact S].
  unfold fresh in FR. apply andb_true_iff in FR. destruct FR as [FR F3]. apply andb_true_iff in FR. destruct FR as [F1 F2].
  apply negb_true_iff, Nat.eqb_neq in F1, F2. rewrite forallb_forall in F3.
  assert (F4 : forall j, j < y_cnt y -> y_name y j <> n).
  { intros j L. assert (X := F3 j). rewrite in_seq, negb_true_iff, Nat.eqb_neq in X. apply X. lia. }
  clear F3. set (k := y_cnt y).
  destruct (s_out _ _ _ S k (le_n _)) as (O1 & O2 & O3 & O4 & O5).
  destruct (hub_accept sim h (y_cnt y) (y_name y) (y_eof y) (y_hub y) n (s_hub _ _ _ S) O5 F1) as (A & B & C & D & E).
  unfold leaf_do, hub_do. cbn [y_hub y_leaf y_cnt y_name y_up y_down y_closed y_eof y_hist]. rewrite E.
  rewrite !upd_same.
  destruct (leaf_hello sim h n F2) as (L1 & L2 & L3). rewrite L3, O1, O3.
  set (t := nstep (hub_cfg h) NAccept (y_hub y)) in *. set (u := nstep (leaf_cfg sim n) NHello (node0 (leaf_cfg sim n) h)) in *.
  cbn [sent_to flat_map Nat.eqb app].
  assert (NL : forall q, q < k -> q <> k) by (intros; lia).
  match goal with |- SI ?z => set (y' := z) end.
  assert (AN : forall j, j < k -> (annd sim y' j <-> annd sim y j)).
  { intros j L. unfold annd, y'. cbn. rewrite upd_other by auto. rewrite B by exact L. tauto. }
  assert (UM : forall q m, q < k -> upmsg sim y q m -> upmsg sim y' q m).
  { intros q m Lq (j & x & Lj & N & X & -> & P). exists j, x. cbn. unfold k. rewrite !upd_other by (fold k; auto). spl; auto.
    now apply AN. }
  assert (SN : forall i, i < k -> sentp (y_name y i) n (y_hist y i) = []).
  { intros i Li. destruct (sentp _ _ _) eqn:X; [reflexivity|]. destruct (s_hn _ _ _ S i n Li) as (j & Lj & Y); [congruence|].
    exfalso. exact (F4 j Lj Y). }
  assert (RN : forall j, j < k -> recd sim n (y_hist y j) = []).
  { intros i Li. destruct (recd _ _ _) eqn:X; [reflexivity|]. destruct (s_hr _ _ _ S i n Li) as [Y|(j & Lj & Y)]; [congruence|congruence|].
    exfalso. exact (F4 j Lj Y). }
  assert (PN : forall a b l, (forall m, In m l -> match m with MProxy _ a' b' _ => a' <> a \/ b' <> b | _ => True end) -> pls a b l = []).
  { intros a b l. induction l as [|m l IH]; intros X; [reflexivity|]. rewrite pls_cons, IH by (intros; apply X; now right).
    specialize (X m (or_introl eq_refl)). destruct m; cbn; try reflexivity. destruct X as [X|X]; apply Nat.eqb_neq in X; rewrite X; [reflexivity|].
    now rewrite andb_false_r. }
  assert (DN : forall j b, j < k -> pls n b (y_down y j) = []).
  { intros j b Lj. apply PN. intros m I. pose proof (s_down _ _ _ S j Lj) as X. rewrite Forall_forall in X.
    destruct (X m I) as [-> |(i & pl & Li & _ & _ & -> & _)]; [exact Logic.I|]. left. now apply F4. }
  assert (UN : forall i a, i < k -> pls a n (y_up y i) = []).
  { intros i a Li. apply PN. intros m I. destruct (s_up _ _ _ S i Li) as [(_ & r & X & F)|(_ & F)]; rewrite ?X in *; rewrite Forall_forall in F.
    - destruct I as [<-|I]; [exact Logic.I|]. destruct (F m I) as (j & x & Lj & _ & _ & -> & _). right. now apply F4.
    - destruct (F m I) as (j & x & Lj & _ & _ & -> & _). right. now apply F4. }
  assert (HS : forall q, q <= k -> q <> k -> q < k) by (intros; lia).
  constructor; unfold y'; cbn [y_hub y_leaf y_cnt y_name y_up y_down y_closed y_eof y_hist].
  - exact A.
  - intros i j Li Lj. unfold upd. destruct (i =? k) eqn:X, (j =? k) eqn:Y.
    + apply Nat.eqb_eq in X, Y. congruence.
    + intros Z. exfalso. apply Nat.eqb_neq in Y. apply (F4 j); [apply HS; [lia|auto]|auto].
    + intros Z. exfalso. apply Nat.eqb_neq in X. apply (F4 i); [apply HS; [lia|auto]|auto].
    + apply Nat.eqb_neq in X, Y. apply (s_uniq _ _ _ S); fold k; lia.
  - intros q L. unfold upd. destruct (q =? k) eqn:X; [auto|]. apply Nat.eqb_neq in X. apply (s_name _ _ _ S). fold k. lia.
  - intros q L. destruct (Nat.eq_dec q k) as [->|N]; [rewrite !upd_same; exact L1|]. rewrite !upd_other by auto. apply (s_leaf _ _ _ S). fold k. lia.
  - intros q L. rewrite !upd_other by lia. rewrite app_nil_r. apply (s_out _ _ _ S). fold k. lia.
  - intros q X. destruct (Nat.eq_dec q k) as [->|N]; [congruence|]. rewrite upd_other by auto. now apply (s_eof _ _ _ S).
  - intros q L. destruct (Nat.eq_dec q k) as [->|N].
    + rewrite !upd_same. left. split; [exact C|]. exists []. auto.
    + assert (Lq : q < k) by lia. unfold annd. cbn. rewrite !upd_other by auto. rewrite B by exact Lq.
      destruct (s_up _ _ _ S q Lq) as [(I & r & X & F)|(I & F)].
      * left. split; [exact I|]. exists r. split; [exact X|]. eapply Forall_impl; [|exact F]. intros m. now apply UM.
      * right. split; [exact I|]. eapply Forall_impl; [|exact F]. intros m. now apply UM.
  - intros q L. rewrite app_nil_r. destruct (Nat.eq_dec q k) as [->|N]; [rewrite O2; constructor|]. assert (Lq : q < k) by lia.
    eapply Forall_impl; [|exact (s_down _ _ _ S q Lq)]. intros m [-> |(i & pl & Li & Ni & X & -> & P)]; [now left|].
    right. exists i, pl. cbn. unfold k. rewrite !upd_other by (fold k; auto). spl; auto. now apply AN.
  - intros i j Li Lj Ni Cj. unfold sent, ending, recv_by, flow, sent. cbn [y_hub y_leaf y_cnt y_name y_up y_down y_closed y_eof y_hist].
    rewrite app_nil_r. destruct (Nat.eq_dec i k) as [->|Nik].
    + rewrite !upd_same, O5. rewrite !(upd_other k _ _ j) by auto. rewrite RN, DN by lia. reflexivity.
    + rewrite !(upd_other k _ _ i) by auto. destruct (Nat.eq_dec j k) as [->|Njk].
      * rewrite !upd_same, O2, SN, UN by lia. cbn [nonempty]. rewrite andb_false_r. reflexivity.
      * rewrite !(upd_other k _ _ j) by auto. apply (s_flow _ _ _ S i j); auto; fold k; lia.
  - intros i j Li Lj Ni Cj. unfold flow, headann. cbn [y_hub y_leaf y_cnt y_name y_up y_down y_closed y_eof y_hist].
    rewrite app_nil_r. destruct (Nat.eq_dec i k) as [->|Nik].
    + rewrite !upd_same. rewrite !(upd_other k _ _ j) by auto. rewrite DN by lia. cbn.
      intros [X|[_ X]]; [congruence|]. exfalso. exact (L2 _ X).
    + rewrite !(upd_other k _ _ i) by auto. destruct (Nat.eq_dec j k) as [->|Njk].
      * rewrite !upd_same, O2, UN by lia. cbn. intros [X|[_ X]]; [congruence|]. exfalso.
        destruct (s_kn _ _ _ S i n) as (j & Lj' & _ & X1 & _); [fold k; lia | exact X |]. exact (F4 j Lj' X1).
      * rewrite !(upd_other k _ _ j) by auto. apply (s_know _ _ _ S i j); auto; fold k; lia.
  - intros i j Li Lj Ni Ei. unfold sent, recv_by. cbn [y_hub y_leaf y_cnt y_name y_up y_down y_closed y_eof y_hist].
    destruct (Nat.eq_dec j k) as [->|Njk].
    + rewrite !upd_same. cbn. intros [X|X]; congruence.
    + rewrite !(upd_other k _ _ j) by auto. destruct (Nat.eq_dec i k) as [->|Nik].
      * rewrite !upd_same, SN, RN by lia. intros [X|X]; congruence.
      * rewrite !(upd_other k _ _ i) by auto. apply (s_keep _ _ _ S i j); auto; fold k; lia.
  - intros q b L K. destruct (Nat.eq_dec q k) as [->|N].
    + rewrite upd_same in K. exfalso. exact (L2 _ K).
    + rewrite !upd_other in K by auto. destruct (s_kn _ _ _ S q b) as (j & Lj & Nj & X & Y); [fold k; lia | exact K |].
      exists j. fold k in Lj. rewrite upd_other by auto. spl; auto. now apply AN.
  - intros i j Li Lj Ni Cj Ei. unfold sent. cbn [y_hub y_leaf y_cnt y_name y_up y_down y_closed y_eof y_hist]. rewrite D.
    destruct (Nat.eq_dec i k) as [->|Nik].
    + rewrite !upd_same. rewrite !(upd_other k _ _ j) by auto. exists []. cbn. split; [reflexivity|]. split; [|congruence].
      intros X. apply (s_dn _ _ _ S) in X. destruct X as [_ [(i & Li' & X) _]]. exfalso. exact (F4 i Li' X).
    + rewrite !(upd_other k _ _ i) by auto. destruct (Nat.eq_dec j k) as [->|Njk].
      * rewrite !upd_same, SN, UN by lia. exists []. cbn. split; [reflexivity|]. split; [|congruence].
        intros X. apply (s_dn _ _ _ S) in X. destruct X as [_ [_ (i' & Li' & X)]]. exfalso. exact (F4 i' Li' X).
      * rewrite !(upd_other k _ _ j) by auto. apply (s_dests _ _ _ S i j); auto; fold k; lia.
  - intros i a b. destruct (Nat.eq_dec i k) as [->|N]; [rewrite upd_same; cbn; auto | rewrite upd_other by auto; apply (s_some _ _ _ S)].
  - intros q b L. destruct (Nat.eq_dec q k) as [->|N]; [rewrite !upd_same; reflexivity|]. rewrite !upd_other by auto. apply (s_calls _ _ _ S). fold k. lia.
  - intros q p key x L. destruct (Nat.eq_dec q k) as [->|N].
    + rewrite upd_same. cbn. intros [X|[]]. discriminate.
    + rewrite upd_other by auto. intros I. destruct (s_user _ _ _ S q p key x) as (i & Li & Ni & ->); [fold k; lia | exact I |].
      exists i. fold k in Li. rewrite upd_other by auto. spl; auto.
  - intros q b L. destruct (Nat.eq_dec q k) as [->|N]; [rewrite !upd_same; cbn; congruence|]. rewrite !upd_other by auto. intros X.
    destruct (s_hn _ _ _ S q b) as (j & Lj & E1); [fold k; lia | exact X |]. exists j. fold k in Lj. rewrite upd_other by auto. auto.
  - intros q a L. destruct (Nat.eq_dec q k) as [->|N]; [rewrite !upd_same; cbn; congruence|]. rewrite !upd_other by auto. intros X.
    destruct (s_hr _ _ _ S q a) as [->|(j & Lj & E1)]; [fold k; lia | exact X | now left |]. right. exists j. fold k in Lj. rewrite upd_other by auto. auto.
  - intros a b. rewrite D. intros X. apply (s_dn _ _ _ S) in X. destruct X as [XN [(i & Li & X) (j & Lj & Y)]]. fold k in Li, Lj. split; [exact XN|]. split.
    + exists i. rewrite upd_other by auto. auto.
    + exists j. rewrite upd_other by auto. auto.
Qed.

(** [leaf_do] after something was taken from what is under way. *)
Lemma leaf_do_eq y k o D' :
  leaf_do sim k o (mkSys (y_hub y) (y_leaf y) (y_cnt y) (y_name y) (y_up y) (upd k D' (y_down y)) (y_closed y) (y_eof y) (y_hist y)) =
  let t := nstep (leaf_cfg sim (y_name y k)) o (y_leaf y k) in
  mkSys (y_hub y) (upd k t (y_leaf y)) (y_cnt y) (y_name y) (upd k (y_up y k ++ sent_to 0 (n_log t)) (y_up y)) (upd k D' (y_down y))
        (y_closed y) (y_eof y) (upd k (y_hist y k ++ n_log t) (y_hist y)).
Proof. reflexivity. Qed.

Lemma knows_own y k : SI y -> k < y_cnt y -> ~ knows (y_leaf y k) (y_name y k).
Proof.
  intros S L K. destruct (s_kn _ _ _ S k _ L K) as (j & Lj & N & E & _). apply N. apply (s_uniq _ _ _ S); auto.
Qed.

Lemma name_neq y i j : SI y -> i < y_cnt y -> j < y_cnt y -> i <> j -> y_name y i <> y_name y j.
Proof. intros S Li Lj N E. apply N. now apply (s_uniq _ _ _ S). Qed.

(** Sending to [j]: one message. *)
Lemma sentp_one a b a' b' m pre : (forall e, In e pre -> match e with ESend _ _ => False | _ => True end) ->
  sentp a b (pre ++ [ESend 0 (MProxy 0 a' b' (Some m))]) = if (a' =? a) && (b' =? b) then [Some m] else [].
Proof.
  intros H. rewrite sentp_app.
  assert (E : sentp a b pre = []).
  { unfold sentp. replace (sent_to 0 pre) with (@nil msg); [reflexivity|]. induction pre as [|e pre IH]; [reflexivity|].
    cbn. assert (X := H e (or_introl eq_refl)). destruct e; try contradiction; apply IH; intros; apply H; now right. }
  rewrite E. unfold sentp. cbn [sent_to flat_map Nat.eqb app]. apply pls_one.
Qed.

Lemma head_app y i F G : headann sim y i F -> headann sim y i (F ++ G).
Proof. intros (t & ->). now exists (t ++ G). Qed.

Lemma name_index y j : SI y -> j < y_cnt y -> n_info (y_hub y) j <> (0, 0) -> annd sim y j.
Proof. intros S L N. destruct (h_info _ _ _ _ _ _ (s_hub _ _ _ S) j L); [contradiction | assumption]. Qed.

Lemma step_connect y k n : SI y -> SI (ystep sim h (YConnect k n) y).
Proof.
  intros S. cbn [ystep]. destruct ((k <? y_cnt y) && negb (y_closed y k) && negb (n =? y_name y k) && known y n) eqn:G; [|exact S].
  rewrite !andb_true_iff in G. destruct G as [[[G1 G2] G3] G4]. apply Nat.ltb_lt in G1. apply negb_true_iff in G2, G3.
  apply Nat.eqb_neq in G3. unfold known in G4. apply existsb_exists in G4. destruct G4 as (j & Ij & G4).
  apply in_seq in Ij. apply andb_true_iff in G4. destruct G4 as [Ej G4]. apply Nat.eqb_eq in Ej. subst n.
  assert (Aj : annd sim y j).
  { apply name_index; auto; [lia|]. intros E. rewrite E in G4. discriminate. }
  assert (Lj : j < y_cnt y) by lia. assert (Njk : j <> k) by congruence. clear Ij G4.
  destruct (find (sim, y_name y j) (n_names (y_leaf y k))) as [p|] eqn:F; [exact S|].
  assert (NK : ~ knows (y_leaf y k) (y_name y j)) by (intros (p & X); congruence).
  destruct (leaf_connect sim h (y_name y k) (y_leaf y k) (y_name y j) (s_leaf _ _ _ S k G1) NK G3) as (A & B & C).
  unfold leaf_do. set (t := nstep _ _ _) in *. rewrite C.
  assert (SP : forall a b, sentp a b [ESend 0 (MProxy 0 (y_name y k) (y_name y j) (Some (MAnn sim (y_name y k))))] =
               if (y_name y k =? a) && (y_name y j =? b) then [Some (MAnn sim (y_name y k))] else []).
  { intros a b. apply (sentp_one a b _ _ _ []). intros e []. }
  apply leaf_step; auto.
  - cbn. constructor; [|constructor]. exists j, (MAnn sim (y_name y k)). spl; auto. now left.
  - exists []. reflexivity.
  - intros b. rewrite SP. destruct (_ && _); reflexivity.
  - intros q Lq Nq Cq HK. rewrite SP, Nat.eqb_refl in HK |- *. cbn [andb] in *.
    destruct (y_name y j =? y_name y q) eqn:X.
    + apply Nat.eqb_eq in X. apply (s_uniq _ _ _ S) in X; auto. subst q.
      destruct (flow y k j) as [|z zs] eqn:EF; [right; now exists []|].
      assert (K0 : knows (y_leaf y j) (y_name y k) \/ headann sim y k (flow y k j)).
      { apply (s_know _ _ _ S k j); auto. left. rewrite EF. discriminate. }
      destruct K0 as [K0|K0]; [now left|]. right. rewrite <- EF. now apply head_app.
    + rewrite app_nil_r. destruct HK as [HK|HK]; [congruence|]. apply B in HK. destruct HK as [HK|HK].
      * apply (s_know _ _ _ S k q); auto.
      * apply Nat.eqb_neq in X. congruence.
  - intros i Li Ni F' HK. destruct (s_know _ _ _ S i k Li G1 Ni G2 HK) as [X|X]; [left; apply B; now left | now right].
  - intros i Li Ni Ei HK. apply B. rewrite sentp_app, SP, Nat.eqb_refl, recd_app in HK. cbn [andb] in HK.
    destruct (y_name y j =? y_name y i) eqn:X; [right; apply Nat.eqb_eq in X; auto|]. left.
    rewrite !app_nil_r in HK. apply (s_keep _ _ _ S i k); auto.
  - intros b K. apply B in K. destruct K as [K| ->]; [now apply (s_kn _ _ _ S) | exists j; auto].
  - cbn. intros p key x [X|[]]. discriminate.
  - cbn. intros a X. congruence.
Qed.

Lemma step_send y k n x : SI y -> SI (ystep sim h (YSend k n x) y).
Proof.
  intros S. cbn [ystep]. destruct ((k <? y_cnt y) && negb (y_closed y k)) eqn:G; [|exact S].
  apply andb_true_iff in G. destruct G as [G1 G2]. apply Nat.ltb_lt in G1. apply negb_true_iff in G2.
  destruct (find (sim, n) (n_names (y_leaf y k))) as [p|] eqn:F; [|exact S].
  assert (K : knows (y_leaf y k) n) by (eexists; exact F).
  destruct (s_kn _ _ _ S k n G1 K) as (j & Lj & Njk & Ej & Aj). subst n.
  destruct (leaf_send sim h (y_name y k) (y_leaf y k) (y_name y j) p x (s_leaf _ _ _ S k G1) F) as (A & B & C).
  unfold leaf_do. set (t := nstep _ _ _) in *. rewrite C.
  assert (KB : forall b, knows t b <-> knows (y_leaf y k) b) by (intros b; unfold ProxyNet.knows; rewrite B; tauto).
  assert (SP : forall a b, sentp a b [ECall p (sim, y_name y j) x; ESend 0 (MProxy 0 (y_name y k) (y_name y j) (Some (MUser x)))] =
               if (y_name y k =? a) && (y_name y j =? b) then [Some (MUser x)] else []).
  { intros a b. apply (sentp_one a b _ _ _ [ECall p (sim, y_name y j) x]). intros e [<-|[]]. exact I. }
  apply leaf_step; auto.
  - cbn. constructor; [|constructor]. exists j, (MUser x). spl; auto. right. right. eauto.
  - exists []. reflexivity.
  - intros b. rewrite SP, Nat.eqb_refl. cbn [andb calls flat_map]. unfold keqb. cbn [fst snd]. rewrite Nat.eqb_refl. cbn [andb].
    destruct (y_name y j =? b); reflexivity.
  - intros q Lq Nq Cq HK. 
    assert (KQ : knows (y_leaf y k) (y_name y q)).
    { rewrite SP, Nat.eqb_refl in HK. cbn [andb] in HK. destruct HK as [HK|HK]; [|now apply KB].
      destruct (y_name y j =? y_name y q) eqn:X; [|congruence]. apply Nat.eqb_eq in X. now rewrite <- X. }
    destruct (s_know _ _ _ S k q) as [X|X]; auto. right. now apply head_app.
  - intros i Li Ni F' HK. destruct (s_know _ _ _ S i k Li G1 Ni G2 HK) as [X|X]; [left; now apply KB | now right].
  - intros i Li Ni Ei HK. apply KB. rewrite sentp_app, SP, Nat.eqb_refl, recd_app in HK. cbn [andb] in HK.
    destruct (y_name y j =? y_name y i) eqn:X; [apply Nat.eqb_eq in X; now rewrite <- X|].
    cbn in HK. rewrite !app_nil_r in HK. apply (s_keep _ _ _ S i k); auto.
  - intros b Kb. apply KB in Kb. now apply (s_kn _ _ _ S).
  - cbn. intros p' key x' [X|[X|[]]]; discriminate.
  - cbn. intros a X. congruence.
Qed.

Lemma step_down y k : SI y -> SI (ystep sim h (YDown k) y).
Proof.
  intros S. cbn [ystep]. destruct ((k <? y_cnt y) && negb (y_closed y k)) eqn:G; [|exact S].
  apply andb_true_iff in G. destruct G as [G1 G2]. apply Nat.ltb_lt in G1. apply negb_true_iff in G2.
  destruct (y_down y k) as [|m r] eqn:D; [exact S|].
  rewrite leaf_do_eq. cbv zeta.
  assert (Hdn : forall q, q <> k -> upd k r (y_down y) q = y_down y q) by (intros; now apply upd_other).
  assert (DM : downmsg sim y k m).
  { pose proof (s_down _ _ _ S k G1) as X. rewrite D in X. now inversion X. }
  pose proof (s_leaf _ _ _ S k G1) as LK.
  destruct DM as [-> |(i & pl & Li & Nik & Ai & -> & Pl)].
  - (* the reply of the registry *)
    destruct (leaf_hub_reply sim h (y_name y k) (y_leaf y k) true LK) as (A & B & C).
    set (t := nstep _ _ _) in *. rewrite C.
    assert (KB : forall b, knows t b <-> knows (y_leaf y k) b) by (intros b; unfold ProxyNet.knows; rewrite B; tauto).
    assert (RC : forall q, q < y_cnt y -> recd sim (y_name y q) [EReply 0 (0, h) true] = []).
    { intros q Lq. cbn. destruct (keqb (0, h) (sim, y_name y q)) eqn:X; [|reflexivity]. apply keqb_eq in X. injection X as _ X.
      destruct (s_name _ _ _ S q Lq). congruence. }
    apply leaf_step; auto.
    + constructor.
    + rewrite upd_same. exists [MReply true]. exact D.
    + intros q Lq Nq. rewrite upd_same, RC, D by auto. reflexivity.
    + intros q Lq Nq Cq HK. cbn in HK. destruct HK as [HK|HK]; [congruence|]. cbn. rewrite app_nil_r. apply (s_know _ _ _ S k q); auto.
      right. split; [auto|]. now apply KB.
    + intros q Lq Nq F' HK. unfold F' in *. rewrite upd_same in HK |- *.
      destruct (s_know _ _ _ S q k) as [X|X]; auto.
      * unfold flow. rewrite D, pls_cons. exact HK.
      * left. now apply KB.
      * right. unfold flow in X. rewrite D, pls_cons in X. exact X.
    + intros q Lq Nq Eq HK. apply KB. rewrite sentp_app, recd_app, RC in HK by auto. cbn in HK. rewrite !app_nil_r in HK.
      apply (s_keep _ _ _ S q k); auto.
    + intros b Kb. apply KB in Kb. now apply (s_kn _ _ _ S).
    + cbn. intros p' key x' [X|[]]; discriminate.
    + intros a X. left. cbn in X. unfold keqb in X. cbn [fst snd] in X. destruct (h =? a) eqn:E; [apply Nat.eqb_eq in E; auto|].
      rewrite andb_false_r in X. now elim X.
  - assert (Na : y_name y i <> y_name y k) by (apply (name_neq y); auto).
    destruct (s_name _ _ _ S i Li) as [_ Nh].
    assert (EF : flow y i k = pl :: pls (y_name y i) (y_name y k) r ++ pls (y_name y i) (y_name y k) (y_up y i)).
    { unfold flow. rewrite D, pls_cons, pls_one, !Nat.eqb_refl. reflexivity. }
    assert (PO : forall q, q < y_cnt y -> q <> i -> pls (y_name y q) (y_name y k) [MProxy 0 (y_name y i) (y_name y k) pl] = []).
    { intros q Lq Nq. rewrite pls_one. assert (X : (y_name y i =? y_name y q) = false); [|now rewrite X].
      apply Nat.eqb_neq. apply (name_neq y); auto. }
    destruct pl as [m|].
    + (* a message from i *)
      specialize (Pl m eq_refl).
      assert (KM : knows (y_leaf y k) (y_name y i) \/ m = MAnn sim (y_name y i)).
      { destruct (s_know _ _ _ S i k) as [X|(w & X)]; auto.
        - left. rewrite EF. discriminate.
        - right. rewrite EF in X. injection X as X _. exact X. }
      destruct (leaf_recv sim h (y_name y k) (y_leaf y k) (y_name y i) m LK Na Nh Pl KM) as (A & B & (p & C)).
      set (t := nstep _ _ _) in *. rewrite C.
      set (L := event_of sim (y_name y k) p (y_name y i) m) in *.
      assert (RC : forall a, recd sim a L = if y_name y i =? a then [Some m] else []).
      { intros a. unfold L. destruct Pl as [-> |[(ok & ->)|(x & ->)]]; cbn; unfold keqb; cbn; rewrite Nat.eqb_refl; cbn [andb];
          destruct (y_name y i =? a); reflexivity. }
      assert (RCo : forall q, q < y_cnt y -> q <> i -> recd sim (y_name y q) L = []).
      { intros q Lq Nq. rewrite RC. assert (X : (y_name y i =? y_name y q) = false); [|now rewrite X].
        apply Nat.eqb_neq. apply (name_neq y); auto. }
      assert (SA : forall b, sentp (y_name y k) b (event_of sim (y_name y k) p (y_name y i) (MAnn sim (y_name y i))) =
                   if y_name y i =? b then [Some (MReply true)] else []).
      { intros b.
        pose proof (sentp_one (y_name y k) b (y_name y k) (y_name y i) (MReply true) [EAnn p sim (y_name y i)]) as X.
        rewrite Nat.eqb_refl in X. apply X. intros e [<-|[]]. exact Logic.I. }
      assert (SP : forall b, sentp (y_name y k) b L <> [] -> b = y_name y i).
      { intros b. unfold L. destruct Pl as [-> |[(ok & ->)|(x & ->)]]; [|intros X; now elim X|intros X; now elim X].
        rewrite SA. destruct (y_name y i =? b) eqn:X; [|congruence]. intros _. apply Nat.eqb_eq in X. auto. }
      assert (UL : Forall (upmsg sim y k) (sent_to 0 L)).
      { unfold L. destruct Pl as [-> |[(ok & ->)|(x & ->)]]; cbn; try constructor; [|constructor].
        exists i, (MReply true). spl; auto. right. left. eauto. }
      (* k has sent to i, so i knows k *)
      assert (BK : y_closed y i = false -> m = MAnn sim (y_name y i) -> knows (y_leaf y i) (y_name y k)).
      { intros Ci _. apply (s_keep _ _ _ S k i); auto; [apply (eof_open y k S G2)|]. left. intros X.
        pose proof (s_flow _ _ _ S i k Li G1 Nik G2) as F. rewrite X in F. unfold ending in F. rewrite (eof_open y i S Ci) in F. cbn in F.
        rewrite EF in F. destruct (recv_by sim y k i); discriminate. }
      apply leaf_step; auto.
      * rewrite upd_same. eexists [_]. exact D.
      * intros q Lq Nq. rewrite upd_same, D, pls_cons. destruct (Nat.eq_dec q i) as [->|Nqi].
        -- rewrite RC, Nat.eqb_refl, pls_one, !Nat.eqb_refl. reflexivity.
        -- rewrite RCo, PO by auto. reflexivity.
      * intros b. unfold L. destruct Pl as [-> |[(ok & ->)|(x & ->)]]; try reflexivity.
        rewrite SA. destruct (y_name y i =? b); reflexivity.
      * intros q Lq Nq Cq HK. 
        destruct (Nat.eq_dec q i) as [->|Nqi].
        -- destruct (knows_dec sim (y_leaf y k) (y_name y i)) as [K|K].
           ++ destruct (s_know _ _ _ S k i) as [X|X]; auto. right. now apply head_app.
           ++ destruct KM as [KM|KM]; [contradiction|]. left. now apply BK.
        -- assert (KQ : knows (y_leaf y k) (y_name y q)).
           { destruct HK as [HK|HK].
             - apply SP in HK. exfalso. apply Nqi. apply (s_uniq _ _ _ S); auto.
             - apply B in HK. destruct HK as [HK|HK]; [exact HK|]. exfalso. apply Nqi. apply (s_uniq _ _ _ S); auto. }
           destruct (s_know _ _ _ S k q) as [X|X]; auto. right. now apply head_app.
      * intros q Lq Nq F' HK. unfold F' in *. rewrite upd_same in HK |- *. destruct (Nat.eq_dec q i) as [->|Nqi].
        -- left. apply B. now right.
        -- destruct (s_know _ _ _ S q k) as [X|X]; auto.
           ++ unfold flow. rewrite D, pls_cons, PO by auto. exact HK.
           ++ left. apply B. now left.
           ++ right. unfold flow in X. rewrite D, pls_cons, PO in X by auto. exact X.
      * intros q Lq Nq Eq HK. apply B. destruct (Nat.eq_dec q i) as [->|Nqi]; [now right|]. left.
        rewrite sentp_app, recd_app, RCo in HK by auto. rewrite (app_nil_r (recd _ _ _)) in HK.
        destruct (sentp (y_name y k) (y_name y q) L) as [|z zs] eqn:X.
        -- rewrite app_nil_r in HK. apply (s_keep _ _ _ S q k); auto.
        -- exfalso. apply Nqi. apply (s_uniq _ _ _ S); auto. apply SP. congruence.
      * intros b Kb. apply B in Kb. destruct Kb as [Kb| ->]; [now apply (s_kn _ _ _ S)|]. exists i. auto.
      * intros p' key x' I. unfold L in I. destruct Pl as [-> |[(ok & ->)|(x & ->)]]; cbn in I.
        -- destruct I as [I|[I|[]]]; discriminate.
        -- destruct I as [I|[]]; discriminate.
        -- destruct I as [I|[]]. injection I as <- <- <-. exists i. auto.
      * intros a X. rewrite RC in X. destruct (y_name y i =? a) eqn:E; [|congruence]. apply Nat.eqb_eq in E. right. eauto.
    + (* the end of i *)
      destruct (none_last y i k _ S Li G1 Nik G2 EF) as [FE Ei].
      pose proof (none_head y i k _ S Li G1 Nik G2 EF) as Ki.
      destruct (leaf_end sim h (y_name y k) (y_leaf y k) (y_name y i) LK Na Nh Ki) as (A & B & (p & C)).
      set (t := nstep _ _ _) in *. rewrite C. clear Pl.
      assert (RC : forall a, recd sim a [EGone p (sim, y_name y i)] = if y_name y i =? a then [None] else []).
      { intros a. cbn. unfold keqb. cbn. rewrite Nat.eqb_refl. cbn. destruct (_ =? a); reflexivity. }
      assert (RCo : forall q, q < y_cnt y -> q <> i -> recd sim (y_name y q) [EGone p (sim, y_name y i)] = []).
      { intros q Lq Nq. rewrite RC. assert (X : (y_name y i =? y_name y q) = false); [|now rewrite X].
        apply Nat.eqb_neq. apply (name_neq y); auto. }
      assert (Ci : y_closed y i = true) by now apply (s_eof _ _ _ S).
      apply leaf_step; auto.
      * constructor.
      * rewrite upd_same. eexists [_]. exact D.
      * intros q Lq Nq. rewrite upd_same, D, pls_cons. destruct (Nat.eq_dec q i) as [->|Nqi].
        -- rewrite RC, Nat.eqb_refl, pls_one, !Nat.eqb_refl. reflexivity.
        -- rewrite RCo, PO by auto. reflexivity.
      * intros q Lq Nq Cq HK. cbn in HK. destruct HK as [HK|HK]; [congruence|]. cbn. rewrite app_nil_r. apply (s_know _ _ _ S k q); auto.
        right. split; [auto|]. now apply B.
      * intros q Lq Nq F' HK. unfold F' in *. rewrite upd_same in HK |- *. destruct (Nat.eq_dec q i) as [->|Nqi].
        -- rewrite FE in HK. destruct HK as [HK|[HK _]]; congruence.
        -- destruct (s_know _ _ _ S q k) as [X|X]; auto.
           ++ unfold flow. rewrite D, pls_cons, PO by auto. exact HK.
           ++ left. apply B. split; [exact X|]. apply (name_neq y); auto.
           ++ right. unfold flow in X. rewrite D, pls_cons, PO in X by auto. exact X.
      * intros q Lq Nq Eq HK. assert (Nqi : q <> i) by congruence. apply B. split; [|apply (name_neq y); auto].
        rewrite sentp_app, recd_app, RCo in HK by auto. cbn in HK. rewrite !app_nil_r in HK. apply (s_keep _ _ _ S q k); auto.
      * intros b Kb. apply B in Kb. now apply (s_kn _ _ _ S).
      * cbn. intros p' key x' [X|[]]; discriminate.
      * intros a X. rewrite RC in X. destruct (y_name y i =? a) eqn:E; [|congruence]. apply Nat.eqb_eq in E. right. eauto.
Qed.

Lemma step_close y k : SI y -> SI (ystep sim h (YClose k) y).
Proof.
  intros S. cbn [ystep]. destruct (k <? y_cnt y) eqn:G; [|exact S]. apply Nat.ltb_lt in G.
  assert (CL : forall q, upd k true (y_closed y) q = false -> y_closed y q = false).
  { intros q. unfold upd. destruct (q =? k); [discriminate|auto]. }
  constructor; cbn [y_hub y_leaf y_cnt y_name y_up y_down y_closed y_eof y_hist]; try apply S.
  - intros q L. rewrite upd_other by lia. now apply (s_out _ _ _ S).
  - intros q E. apply (s_eof _ _ _ S) in E. unfold upd. destruct (q =? k); tauto.
  - intros i j Li Lj D Cj. apply (s_flow _ _ _ S i j); auto.
  - intros i j Li Lj D Cj HK. apply (s_know _ _ _ S i j); auto. destruct HK as [HK|[HK HK']]; [now left | right; auto].
  - intros i j Li Lj D Cj Ei. apply (s_dests _ _ _ S i j); auto.
Qed.

Lemma step_up y k : SI y -> SI (ystep sim h (YUp k) y).
Proof.
  intros S. cbn [ystep]. destruct ((k <? y_cnt y) && negb (y_eof y k)) eqn:G; [|exact S].
  apply andb_true_iff in G. destruct G as [G1 G2]. apply Nat.ltb_lt in G1. apply negb_true_iff in G2.
  destruct (y_up y k) as [|m r] eqn:U; [exact S|].
  unfold hub_do. cbn [y_hub y_leaf y_cnt y_name y_up y_down y_closed y_eof y_hist].
  destruct (s_name _ _ _ S k G1) as [Nz Nh].
  assert (UO : forall q, y_cnt y <= q -> upd k r (y_up y) q = []).
  { intros q L. rewrite upd_other by lia. now apply (s_out _ _ _ S). }
  assert (UE : forall q, y_eof y q = true -> y_closed y q = true /\ upd k r (y_up y) q = []).
  { intros q E. assert (q <> k) by congruence. rewrite upd_other by auto. now apply (s_eof _ _ _ S). }
  destruct (s_up _ _ _ S k G1) as [(I & r' & E & F)|(I & F)].
  - rewrite U in E. injection E as -> <-.
    destruct (hub_ann sim h _ _ _ (y_hub y) k (s_hub _ _ _ S) (s_uniq _ _ _ S) G1 G2 Nz I) as (A & B & C & D & E).
    set (t := nstep _ _ _) in *. rewrite E.
    assert (DN : forall q, sent_to q [EAnn k sim (y_name y k); ESend k (MReply true)] = if k =? q then [MReply true] else []).
    { intros q. cbn. destruct (k =? q); reflexivity. }
    assert (PD : forall a b q, pls a b (sent_to q [EAnn k sim (y_name y k); ESend k (MReply true)]) = []).
    { intros a b q. rewrite DN. destruct (k =? q); reflexivity. }
    assert (PU : forall a b q, pls a b (upd k r (y_up y) q) = pls a b (y_up y q)).
    { intros a b q. destruct (Nat.eq_dec q k) as [->|N]; [|now rewrite upd_other]. rewrite upd_same, U, pls_cons. reflexivity. }
    apply hub_step with (tn := fun _ _ => []); auto.
    + intros j Lj Aj. destruct (Nat.eq_dec j k) as [->|N]; [exact C|]. rewrite B by auto. exact Aj.
    + intros q L. spl; [now apply UO | | now apply (s_out _ _ _ S)]. rewrite DN. destruct (k =? q) eqn:X; [apply Nat.eqb_eq in X; lia | reflexivity].
    + intros q L. destruct (Nat.eq_dec q k) as [->|N].
      * right. split; [exact C|]. rewrite upd_same. exact F.
      * rewrite upd_other, B by auto. exact (s_up _ _ _ S q L).
    + intros q L. rewrite DN. destruct (k =? q); constructor; [now left | constructor].
    + intros i j Li Lj N Cj. rewrite PD, PU, !app_nil_r. spl; auto. congruence.
    + intros i j Li Lj N Cj Ei. rewrite PU, D. apply (s_dests _ _ _ S i j); auto.
    + rewrite D. apply (s_dn _ _ _ S).
  - rewrite U in F. inversion F as [|? ? F1 F2]; subst. destruct F1 as (j & x & Lj & Njk & Aj & -> & Px).
    destruct (hub_relay sim h _ _ _ (y_hub y) k j x (s_hub _ _ _ S) (s_uniq _ _ _ S) G1 G2 Lj I Aj) as (A & B & C).
    set (t := nstep _ _ _) in *.
    assert (PU : forall i q, i < y_cnt y -> q < y_cnt y -> pls (y_name y i) (y_name y q) (y_up y i) =
                 (if (i =? k) && (q =? j) then [Some x] else []) ++ pls (y_name y i) (y_name y q) (upd k r (y_up y) i)).
    { intros i q Li Lq. destruct (Nat.eq_dec i k) as [->|N].
      - rewrite upd_same, U, pls_cons, pls_one, !Nat.eqb_refl. cbn [andb]. f_equal.
        destruct (Nat.eq_dec q j) as [->|Nq]; [now rewrite !Nat.eqb_refl|]. assert (X := Nq). apply Nat.eqb_neq in X. rewrite X.
        assert (Y : (y_name y j =? y_name y q) = false); [|now rewrite Y]. apply Nat.eqb_neq. apply (name_neq y); auto.
      - rewrite upd_other by auto. apply Nat.eqb_neq in N. now rewrite N. }
    assert (UPS : forall q, q < y_cnt y -> n_info t q = (0, 0) /\ (exists r0, upd k r (y_up y) q = MAnn sim (y_name y q) :: r0 /\ Forall (upmsg sim y q) r0) \/
                  n_info t q = (sim, y_name y q) /\ Forall (upmsg sim y q) (upd k r (y_up y) q)).
    { intros q L. rewrite B. destruct (Nat.eq_dec q k) as [->|N]; [rewrite upd_same; right; auto|]. rewrite upd_other by auto. exact (s_up _ _ _ S q L). }
    destruct (y_eof y j) eqn:Ej; destruct C as [D E]; rewrite E.
    + assert (Cj : y_closed y j = true) by now apply (s_eof _ _ _ S).
      apply hub_step with (tn := fun _ _ => []); auto.
      * intros q Lq Aq. rewrite B. exact Aq.
      * intros q L. spl; [now apply UO | reflexivity | now apply (s_out _ _ _ S)].
      * intros q L. constructor.
      * intros i q Li Lq N Cq. assert (X : (q =? j) = false) by (apply Nat.eqb_neq; congruence).
        rewrite (PU i q), X, andb_false_r, !app_nil_r by auto. spl; auto. congruence.
      * intros i q Li Lq N Cq Ei. assert (X : (q =? j) = false) by (apply Nat.eqb_neq; congruence).
        destruct (s_dests _ _ _ S i q Li Lq N Cq Ei) as (R & E1 & E2). rewrite (PU i q), X, andb_false_r in E1 by auto.
        exists R. rewrite D. auto.
      * rewrite D. apply (s_dn _ _ _ S).
    + assert (DN : forall q, sent_to q [ESend j (MProxy 0 (y_name y k) (y_name y j) (Some x))] =
                   if j =? q then [MProxy 0 (y_name y k) (y_name y j) (Some x)] else []).
      { intros q. cbn. destruct (j =? q); reflexivity. }
      assert (PD : forall i q, i < y_cnt y -> q < y_cnt y ->
        pls (y_name y i) (y_name y q) (sent_to q [ESend j (MProxy 0 (y_name y k) (y_name y j) (Some x))]) =
        if (i =? k) && (q =? j) then [Some x] else []).
      { intros i q Li Lq. rewrite DN, (Nat.eqb_sym j q). destruct (q =? j) eqn:X; [|rewrite andb_false_r; reflexivity].
        apply Nat.eqb_eq in X. subst q. rewrite pls_one, Nat.eqb_refl, !andb_true_r.
        destruct (Nat.eq_dec i k) as [->|N]; [now rewrite !Nat.eqb_refl|]. assert (Y := N). apply Nat.eqb_neq in Y. rewrite Y.
        assert (Z : (y_name y k =? y_name y i) = false); [|now rewrite Z]. apply Nat.eqb_neq. apply (name_neq y); auto. }
      apply hub_step with (tn := fun _ _ => []); auto.
      * intros q Lq Aq. rewrite B. exact Aq.
      * intros q L. spl; [now apply UO | | now apply (s_out _ _ _ S)]. rewrite DN. destruct (j =? q) eqn:X; [apply Nat.eqb_eq in X; lia | reflexivity].
      * intros q L. rewrite DN. destruct (j =? q) eqn:X; constructor; [|constructor]. apply Nat.eqb_eq in X. subst q.
        right. exists k, (Some x). rewrite B. spl; auto. intros z [= <-]. exact Px.
      * intros i q Li Lq N Cq. rewrite (PU i q), PD, !app_nil_r by auto. spl; auto. congruence.
      * intros i q Li Lq N Cq Ei. destruct (s_dests _ _ _ S i q Li Lq N Cq Ei) as (R & E1 & E2). rewrite (PU i q) in E1 by auto.
        exists (R ++ if (i =? k) && (q =? j) then [Some x] else []). rewrite <- app_assoc. split; [exact E1|]. rewrite D, E2.
        destruct ((i =? k) && (q =? j)) eqn:X.
        -- apply andb_true_iff in X. destruct X as [X1 X2]. apply Nat.eqb_eq in X1, X2. subst i q.
           split; [intros _ Y; now apply app_eq_nil in Y | right; reflexivity].
        -- rewrite app_nil_r. split; [|auto]. intros [Y|Y]; [exact Y|]. injection Y as Y1 Y2. exfalso.
           apply (s_uniq _ _ _ S) in Y1; auto. apply (s_uniq _ _ _ S) in Y2; auto. subst. rewrite !Nat.eqb_refl in X. discriminate.
      * intros a b X. apply D in X. destruct X as [X|X]; [now apply (s_dn _ _ _ S)|]. injection X as -> ->. spl; eauto. apply (name_neq y); auto.
Qed.

Lemma step_eof y k : SI y -> SI (ystep sim h (YEof k) y).
Proof.
  intros S. cbn [ystep]. destruct ((k <? y_cnt y) && y_closed y k && negb (y_eof y k)) eqn:G; [|exact S].
  rewrite !andb_true_iff in G. destruct G as [[G1 G3] G2]. apply Nat.ltb_lt in G1. apply negb_true_iff in G2.
  destruct (y_up y k) as [|m r] eqn:U; [|exact S].
  unfold hub_do. cbn [y_hub y_leaf y_cnt y_name y_up y_down y_closed y_eof y_hist].
  assert (I : annd sim y k).
  { destruct (s_up _ _ _ S k G1) as [(_ & r & E & _)|(I & _)]; [congruence | exact I]. }
  destruct (hub_close sim h _ _ _ (y_hub y) k (s_hub _ _ _ S) (s_uniq _ _ _ S) G1 G2 I) as (A & B & C & DI & D).
  set (t := nstep _ _ _) in *.
  assert (D' : forall j, j < y_cnt y -> j <> k -> y_closed y j = false -> annd sim y j ->
    sent_to j (n_log t) = if nonempty (sent y k j) then [MProxy 0 (y_name y k) (y_name y j) None] else []).
  { intros j Lj N Cj Aj. rewrite (D j Lj N Aj), (eof_open y j S Cj).
    destruct (s_dests _ _ _ S k j G1 Lj (not_eq_sym N) Cj G2) as (R & E1 & E2). rewrite U in E1. cbn in E1. rewrite app_nil_r in E1. subst R.
    destruct (in_dec _ _ _) as [X|X].
    - apply E2, nonempty_true in X. now rewrite X.
    - destruct (nonempty (sent y k j)) eqn:Y; [|reflexivity]. apply nonempty_true, E2 in Y. contradiction. }
  assert (SA : forall j, j < y_cnt y -> j <> k -> y_closed y j = false -> sent y k j <> [] -> annd sim y j).
  { intros j Lj N Cj X. destruct (s_kn _ _ _ S k (y_name y j) G1) as (q & Lq & _ & Eq & Aq).
    - apply (s_keep _ _ _ S j k); auto. apply (eof_open y j S Cj).
    - apply (s_uniq _ _ _ S) in Eq; auto. now subst. }
  assert (D2 : forall j, j < y_cnt y -> j <> k -> y_closed y j = false ->
    sent_to j (n_log t) = if nonempty (sent y k j) then [MProxy 0 (y_name y k) (y_name y j) None] else []).
  { intros j Lj N Cj. destruct (nonempty (sent y k j)) eqn:X.
    - rewrite (D' j Lj N Cj), X; [reflexivity|]. apply SA; auto. now apply nonempty_true.
    - destruct (sent_to j (n_log t)) as [|m r] eqn:Y; [reflexivity|].
      destruct (DI j m) as (_ & Aj & _ & _); [rewrite Y; now left|]. rewrite (D' j Lj N Cj Aj), X in Y. discriminate. }
  assert (PD : forall i j, i < y_cnt y -> j < y_cnt y -> i <> j -> y_closed y j = false ->
    pls (y_name y i) (y_name y j) (sent_to j (n_log t)) = if (i =? k) && nonempty (sent y k j) then [None] else []).
  { intros i j Li Lj N Cj. assert (Njk : j <> k) by congruence. rewrite (D2 j Lj Njk Cj).
    destruct (nonempty (sent y k j)); [|now rewrite andb_false_r]. rewrite pls_one, Nat.eqb_refl, !andb_true_r.
    destruct (Nat.eq_dec i k) as [->|Ni]; [now rewrite !Nat.eqb_refl|]. assert (Y := Ni). apply Nat.eqb_neq in Y. rewrite Y.
    assert (Z : (y_name y k =? y_name y i) = false); [|now rewrite Z]. apply Nat.eqb_neq. apply (name_neq y); auto. }
  apply hub_step with (tn := fun i j => if (i =? k) && nonempty (sent y k j) then [None] else []); auto.
  - intros j Lj Aj. rewrite B. exact Aj.
  - intros q L. destruct (s_out _ _ _ S q L) as (X & _ & _ & _ & Y). rewrite upd_other by lia. spl; auto.
    destruct (sent_to q (n_log t)) as [|m r] eqn:Z; [reflexivity|]. destruct (DI q m) as (W & _); [rewrite Z; now left|]. lia.
  - intros q. unfold upd. destruct (q =? k) eqn:X; [|apply (s_eof _ _ _ S)]. apply Nat.eqb_eq in X. subst q. auto.
  - intros q E. unfold upd. destruct (q =? k); auto.
  - intros q L. rewrite B. exact (s_up _ _ _ S q L).
  - intros q L. apply Forall_forall. intros m X. destruct (DI q m X) as (_ & _ & -> & Y).
    right. exists k, None. rewrite B. spl; auto; [|discriminate].
    intros ->. apply (s_dn _ _ _ S) in Y. destruct Y as [Y _]. congruence.
  - intros i j Li Lj N Cj. rewrite PD by auto. destruct (Nat.eq_dec i k) as [->|Ni].
    + rewrite U, Nat.eqb_refl, upd_same. cbn [andb]. unfold ending. rewrite G2. cbn. rewrite app_nil_r. spl; auto.
      intros X FN. apply (s_keep _ _ _ S k j); auto. right. intros Y. apply X. pose proof (s_flow _ _ _ S k j Li Lj N Cj) as Z.
      rewrite FN, Y in Z. unfold ending in Z. rewrite G2 in Z. cbn in Z. rewrite app_nil_r in Z. now rewrite Z.
    + assert (Y := Ni). apply Nat.eqb_neq in Y. rewrite Y. cbn [andb app]. rewrite !app_nil_r, upd_other by auto. spl; auto. congruence.
  - intros i j Li Lj N Cj. destruct (Nat.eq_dec i k) as [->|Ni]; [rewrite upd_same; discriminate|]. rewrite upd_other by auto. rewrite C.
    intros Ei. apply (s_dests _ _ _ S i j); auto.
  - rewrite C. apply (s_dn _ _ _ S).
Qed.

Lemma sys0_SI : SI (sys0 h).
Proof.
  constructor; cbn; try (intros; lia); try (intros; discriminate); try tauto.
  all: intros; try tauto.
  - constructor; cbn; auto; try (intros; lia).
    + intros k q. split; [discriminate | lia].
    + constructor.
  - intros i j L. lia.
Qed.

Lemma run_SI l y : SI y -> SI (yrun sim h l y).
Proof.
  revert y. induction l as [|o l IH]; intros y S; [exact S|]. cbn [yrun fold_left]. apply IH.
  destruct o; [apply step_join | apply step_connect | apply step_send | apply step_up | apply step_down | apply step_close | apply step_eof]; exact S.
Qed.
End Steps.
