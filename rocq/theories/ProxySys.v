(** The network of ProxyModel.v: all participants talk through the registry.  The invariant. *)
From Coq Require Import List Arith Bool Lia Permutation.
From Verif Require Import Base ProxyModel ProxyProofs ProxyNet.
Import ListNotations.

(** The registry: [cnt] participants with names [name] have connected, those in [eof] have left. *)
Record HI (sim h cnt : nat) (name : nat -> nat) (eof : nat -> bool) (s : node) : Prop := {
  h_fine : n_health s = Fine;
  h_next : n_next s = cnt;
  h_map : n_map s = [];
  h_via : forall p, n_via s p = None;
  h_peers : forall k, In k (n_peers s) <-> k < cnt /\ eof k = false;
  h_info : forall k, k < cnt -> n_info s k = (0, 0) \/ n_info s k = (sim, name k);
  h_names : forall k q, find k (n_names s) = Some q <-> q < cnt /\ eof q = false /\ n_info s q = k /\ k = (sim, name q);
  h_dests : NoDup (n_dests s) }.

Section Hub.
Variables sim h : nat.
Notation hc := (hub_cfg h).

Lemma hub_alive s k : alive hc s k = mem k (n_peers s).
Proof. unfold alive. cbn. apply orb_false_r. Qed.

Lemma hub_send s cnt name eof k m : HI sim h cnt name eof s -> k < cnt -> eof k = false ->
  send hc k m s = out [ESend k m] s.
Proof.
  intros H L E. unfold send. cbn [send_fuel]. rewrite hub_alive.
  assert (A : mem k (n_peers s) = true) by (apply mem_In, (h_peers _ _ _ _ _ _ H); auto).
  rewrite A, (h_via _ _ _ _ _ _ H). reflexivity.
Qed.

Lemma HI_out e cnt name eof s : HI sim h cnt name eof s -> HI sim h cnt name eof (out e s).
Proof. intros []. constructor; auto. Qed.
Lemma HI_clear cnt name eof s : HI sim h cnt name eof s -> HI sim h cnt name eof (clear s).
Proof. intros []. constructor; auto. Qed.

Lemma hub_accept cnt name eof s n : HI sim h cnt name eof s -> eof cnt = false -> n <> 0 ->
  let t := nstep hc NAccept s in
  HI sim h (S cnt) (upd cnt n name) eof t /\ (forall k, k < cnt -> n_info t k = n_info s k) /\ n_info t cnt = (0, 0) /\
  n_dests t = n_dests s /\ n_log t = [].
Proof.
  intros H E N. unfold nstep. assert (H' := HI_clear _ _ _ _ H). rewrite (h_fine _ _ _ _ _ _ H').
  pose proof (h_next _ _ _ _ _ _ H') as NX. unfold add_peer. rewrite NX.
  spl; cbn; auto.
  - destruct H. constructor; cbn; auto.
    + intros p. destruct (p =? cnt); auto.
    + intros k. rewrite in_app_iff, h_peers0. cbn. split.
      * intros [[L X]|[<-|[]]]; [split; [lia|auto] | split; [lia|auto]].
      * intros [L X]. destruct (Nat.eq_dec k cnt) as [->|D]; [right; now left | left; split; [lia|auto]].
    + intros k L. unfold upd. destruct (k =? cnt) eqn:X; [now left|]. apply Nat.eqb_neq in X. apply h_info0. lia.
    + intros k q. rewrite h_names0. unfold upd. split.
      * intros (L & X & I & J). assert (X' : (q =? cnt) = false) by (apply Nat.eqb_neq; lia). rewrite X'.
        spl; auto.
      * intros (L & X & I & J). destruct (q =? cnt) eqn:Y; [subst k; congruence|].
        apply Nat.eqb_neq in Y. spl; auto. lia.
  - intros k L. assert (X' : (k =? cnt) = false) by (apply Nat.eqb_neq; lia). now rewrite X'.
  - now rewrite Nat.eqb_refl.
Qed.

Definition uniq (cnt : nat) (name : nat -> nat) : Prop :=
  forall i j, i < cnt -> j < cnt -> name i = name j -> i = j.

Lemma hub_ann cnt name eof s k : HI sim h cnt name eof s -> uniq cnt name -> k < cnt -> eof k = false -> name k <> 0 ->
  n_info s k = (0, 0) ->
  let t := nstep hc (NData k (MAnn sim (name k))) s in
  HI sim h cnt name eof t /\ (forall j, j <> k -> n_info t j = n_info s j) /\ n_info t k = (sim, name k) /\
  n_dests t = n_dests s /\ n_log t = [EAnn k sim (name k); ESend k (MReply true)].
Proof.
  intros H U L E N I. assert (H' := HI_clear _ _ _ _ H). unfold nstep. rewrite (h_fine _ _ _ _ _ _ H').
  assert (A : alive hc (clear s) k = true) by (rewrite hub_alive; apply mem_In, (h_peers _ _ _ _ _ _ H'); auto).
  unfold real. rewrite A, (h_via _ _ _ _ _ _ H'). cbn [andb recv]. rewrite (h_fine _ _ _ _ _ _ H'), A. cbn [negb].
  unfold announce. cbn [hub_cfg c_any negb andb]. change (mkCfg h 0 true true) with hc.
  assert (F : find (sim, name k) (n_names (clear s)) = None).
  { destruct (find _ _) as [q|] eqn:F; [|reflexivity]. apply (h_names _ _ _ _ _ _ H') in F. destruct F as (Lq & _ & Iq & [= Nq]).
    assert (k = q) by (apply U; auto). subst q. cbn in Iq. rewrite I in Iq. injection Iq as _ Z. congruence. }
  unfold associate. cbn [out set_info n_names]. rewrite F.
  set (u := set_names _ _).
  assert (HU : HI sim h cnt name eof u).
  { unfold u. destruct H'. constructor; cbn; auto.
    - intros j Lj. destruct (j =? k) eqn:X; [apply Nat.eqb_eq in X; subst; now right | now apply h_info0].
    - intros key q. rewrite find_app. change (n_names (clear s)) with (n_names s) in *. destruct (find key (n_names s)) as [q'|] eqn:Fq.
      + apply h_names0 in Fq. destruct Fq as (Lq & Eq & Iq & ->). split.
        * intros [= <-]. spl; auto. destruct (q' =? k) eqn:X; [apply Nat.eqb_eq in X; subst; reflexivity | exact Iq].
        * intros (Lq' & _ & _ & X). f_equal. apply U; auto. congruence.
      + split.
        * destruct (keqb key (sim, name k)) eqn:X; [|discriminate]. intros [= <-]. apply keqb_eq in X. subst key.
          rewrite Nat.eqb_refl. auto.
        * intros (Lq & Eq & Iq & ->). destruct (q =? k) eqn:X.
          -- apply Nat.eqb_eq in X. subst. now rewrite keqb_refl.
          -- assert (Q : find (sim, name q) (n_names s) = Some q) by (apply h_names0; auto). congruence. }
  rewrite (hub_send u cnt name eof k) by auto. cbn [n_health out]. rewrite (h_fine _ _ _ _ _ _ HU).
  rewrite (same_alive hc u) by apply same_out. rewrite hub_alive.
  assert (A' : mem k (n_peers u) = true) by (apply mem_In, (h_peers _ _ _ _ _ _ HU); auto). rewrite A'.
  spl.
  - now apply HI_out.
  - intros j D. unfold u. cbn. apply Nat.eqb_neq in D. now rewrite D.
  - unfold u. cbn. now rewrite Nat.eqb_refl.
  - reflexivity.
  - reflexivity.
Qed.

Lemma hub_relay cnt name eof s k j m : HI sim h cnt name eof s -> uniq cnt name -> k < cnt -> eof k = false -> j < cnt ->
  n_info s k = (sim, name k) -> n_info s j = (sim, name j) ->
  let t := nstep hc (NData k (MProxy 0 (name k) (name j) (Some m))) s in
  HI sim h cnt name eof t /\ n_info t = n_info s /\
  if eof j then n_dests t = n_dests s /\ n_log t = [ELost (name k) (name j)]
  else (forall e, In e (n_dests t) <-> In e (n_dests s) \/ e = ((sim, name k), name j)) /\
       n_log t = [ESend j (MProxy 0 (name k) (name j) (Some m))].
Proof.
  intros H U L E Lj I Ij. assert (H' := HI_clear _ _ _ _ H). unfold nstep. rewrite (h_fine _ _ _ _ _ _ H').
  assert (A : alive hc (clear s) k = true) by (rewrite hub_alive; apply mem_In, (h_peers _ _ _ _ _ _ H'); auto).
  unfold real. rewrite A, (h_via _ _ _ _ _ _ H'). cbn [andb].
  assert (R : recv hc (MProxy 0 (name k) (name j) (Some m)) k (clear s) =
              relay hc k 0 (name k) (name j) (Some m) (clear s)).
  { cbn [recv]. rewrite (h_fine _ _ _ _ _ _ H'), A. cbn [negb hub_cfg c_cap Nat.eqb]. change (n_info (clear s) k) with (n_info s k).
    rewrite I. cbn [snd]. now rewrite Nat.eqb_refl. }
  rewrite R. unfold relay. change (n_info (clear s) k) with (n_info s k). rewrite I. cbn [fst].
  destruct (eof j) eqn:Ej.
  - assert (F : find (sim, name j) (n_names (clear s)) = None).
    { destruct (find _ _) as [q|] eqn:F; [|reflexivity]. apply (h_names _ _ _ _ _ _ H') in F. destruct F as (Lq & Eq & _ & [= X]).
      assert (j = q) by (apply U; auto). congruence. }
    rewrite F. cbn [n_health out]. rewrite (h_fine _ _ _ _ _ _ H'). rewrite (same_alive hc (clear s)) by apply same_out. rewrite A.
    spl; try reflexivity. now apply HI_out.
  - assert (F : find (sim, name j) (n_names (clear s)) = Some j) by (apply (h_names _ _ _ _ _ _ H'); auto).
    rewrite F, (hub_send (clear s) cnt name eof j) by auto.
    assert (HO : HI sim h cnt name eof (out [ESend j (MProxy 0 (name k) (name j) (Some m))] (clear s))) by now apply HI_out.
    set (u := out _ _) in *. change (n_dests u) with (n_dests s).
    destruct (existsb _ _) eqn:X.
    + rewrite (h_fine _ _ _ _ _ _ HO), (same_alive hc (clear s)) by apply same_out. rewrite A.
      spl; try reflexivity; [exact HO|]. intros e. split; [now left|]. intros [Q| ->]; [exact Q|].
      apply existsb_exists in X. destruct X as ([k0 b0] & Q & X). cbn in X. apply andb_true_iff in X. destruct X as [X1 X2].
      apply keqb_eq in X1. apply Nat.eqb_eq in X2. subst. exact Q.
    + cbn [n_health set_dests]. rewrite (h_fine _ _ _ _ _ _ HO).
      assert (A2 : alive hc (set_dests (n_dests s ++ [((sim, name k), name j)]) u) k = true) by exact A. rewrite A2.
      assert (NI : ~ In ((sim, name k), name j) (n_dests s)).
      { intros Q. assert (Y : existsb (fun e => keqb (sim, name k) (fst e) && (name j =? snd e)) (n_dests s) = true); [|congruence].
        apply existsb_exists. exists ((sim, name k), name j). split; [exact Q|]. cbn. now rewrite keqb_refl, Nat.eqb_refl. }
      spl; try reflexivity.
      * destruct HO. constructor; cbn; auto.
        clear -NI h_dests0. unfold u in h_dests0. cbn in h_dests0. revert NI h_dests0. generalize (n_dests s). intros l NI ND.
        apply (Permutation.Permutation_NoDup (l := (sim, name k, name j) :: l)).
        -- apply Permutation.Permutation_cons_append.
        -- now constructor.
      * intros e. cbn. rewrite in_app_iff. cbn. intuition.
Qed.

Lemma sent_to_flat {A} k (f : A -> list ev) l : sent_to k (flat_map f l) = flat_map (fun x => sent_to k (f x)) l.
Proof. induction l as [|x l IH]; [reflexivity|]. cbn [flat_map]. now rewrite sent_to_app, IH. Qed.

Lemma flat_map_one {A B} (dec : forall x y : A, {x = y} + {x <> y}) (f : A -> list B) x0 l :
  NoDup l -> (forall x, x <> x0 -> f x = []) ->
  flat_map f l = if List.in_dec dec x0 l then f x0 else [].
Proof.
  intros ND F. induction ND as [|x l NI ND IH]; [reflexivity|]. cbn [flat_map]. rewrite IH.
  destruct (List.in_dec dec x0 l) as [I|I], (List.in_dec dec x0 (x :: l)) as [J|J]; cbn in J.
  - rewrite F; [reflexivity|]. intros ->. contradiction.
  - tauto.
  - destruct J as [-> |J]; [apply app_nil_r | contradiction].
  - rewrite F; [reflexivity|]. intros ->. tauto.
Qed.

Definition e_dec (x y : key * nat) : {x = y} + {x <> y}.
Proof. decide equality; [apply Nat.eq_dec | decide equality; apply Nat.eq_dec]. Defined.

Lemma notify_log cnt name eof s k : HI sim h cnt name eof s ->
  notify hc k s =
  out (flat_map (fun e : key * nat => if keqb (n_info s k) (fst e)
                    then match find (fst (n_info s k), snd e) (n_names s) with
                         | None => []
                         | Some q => [ESend q (MProxy 0 (snd (n_info s k)) (snd e) None)]
                         end
                    else []) (n_dests s)) s.
Proof.
  intros H. unfold notify. generalize (n_info s k). intros key. generalize (n_dests s) as l. intros l. revert s H.
  induction l as [|e l IH]; intros s H; cbn [fold_left flat_map].
  - unfold out. destruct s. cbn. now rewrite app_nil_r.
  - destruct (keqb key (fst e)); [|now apply IH]. destruct (find _ (n_names s)) as [q|] eqn:F; [|now apply IH].
    pose proof (proj1 (h_names _ _ _ _ _ _ H _ _) F) as (Lq & Eq & _).
    rewrite (hub_send s cnt name eof q _ H Lq Eq). rewrite (IH (out _ s)) by now apply HI_out.
    cbn [out n_names]. unfold out. cbn. now rewrite <- app_assoc.
Qed.

Lemma hub_close cnt name eof s k : HI sim h cnt name eof s -> uniq cnt name -> k < cnt -> eof k = false ->
  n_info s k = (sim, name k) ->
  let t := nstep hc (NClose k) s in
  HI sim h cnt name (upd k true eof) t /\ n_info t = n_info s /\ n_dests t = n_dests s /\
  (forall j m, In m (sent_to j (n_log t)) -> j < cnt /\ n_info s j = (sim, name j) /\ m = MProxy 0 (name k) (name j) None /\
     In ((sim, name k), name j) (n_dests s)) /\
  forall j, j < cnt -> j <> k -> n_info s j = (sim, name j) ->
    sent_to j (n_log t) = if List.in_dec e_dec ((sim, name k), name j) (n_dests s)
                          then if eof j then [] else [MProxy 0 (name k) (name j) None] else [].
Proof.
  intros H U L E I. assert (H' := HI_clear _ _ _ _ H). unfold nstep. rewrite (h_fine _ _ _ _ _ _ H').
  assert (A : alive hc (clear s) k = true) by (rewrite hub_alive; apply mem_In, (h_peers _ _ _ _ _ _ H'); auto).
  unfold real. rewrite A, (h_via _ _ _ _ _ _ H'). cbn [andb].
  unfold shutdown. rewrite (h_map _ _ _ _ _ _ H'). cbn [length shutdown_fuel].
  rewrite (h_map _ _ _ _ _ _ H'). cbn [filter map fold_left].
  set (u := set_map [] (clear s)).
  assert (HU : HI sim h cnt name eof u) by (destruct H'; constructor; auto).
  rewrite (h_fine _ _ _ _ _ _ HU).
  assert (A1 : alive hc u k = true) by exact A. rewrite A1. cbn [negb].
  rewrite (notify_log cnt name eof u k HU). set (es := flat_map _ _).
  cbn [n_health out]. rewrite (h_fine _ _ _ _ _ _ HU). cbn [n_info out].
  change (n_info u) with (n_info s) in *. rewrite I.
  spl; try reflexivity.
  - destruct HU. constructor; cbn [n_health n_next n_map n_via n_peers n_info n_names n_dests set_peers set_names out]; auto.
    + intros j. rewrite filter_In, h_peers0, negb_true_iff, Nat.eqb_neq. unfold upd. split.
      * intros [[Lj Ej] D]. apply Nat.eqb_neq in D. now rewrite D.
      * intros [Lj Ej]. destruct (j =? k) eqn:D; [discriminate|]. apply Nat.eqb_neq in D. auto.
    + intros key q. rewrite find_erase. unfold upd. split.
      * destruct (keqb (sim, name k) key) eqn:X; [discriminate|]. intros F. apply h_names0 in F. destruct F as (Lq & Eq & Iq & ->).
        spl; auto. destruct (q =? k) eqn:D; [|exact Eq]. apply Nat.eqb_eq in D. subst. now rewrite keqb_refl in X.
      * intros (Lq & Eq & Iq & ->). destruct (q =? k) eqn:D; [discriminate|]. rewrite keqb_neq; [now apply h_names0|].
        intros [= X]. apply Nat.eqb_neq in D. apply D, U; auto.
  - intros j m. cbn [n_log set_peers set_names out]. change (n_log u) with (@nil ev). cbn [app].
    rewrite sent_to_app. cbn [sent_to flat_map]. rewrite app_nil_r. unfold es. rewrite sent_to_flat.
    change (n_dests u) with (n_dests s). change (n_info u k) with (n_info s k). rewrite I. cbn [fst snd].
    intros X. apply in_flat_map in X. destruct X as ([key b] & X & Y). cbn [fst snd] in Y.
    destruct (keqb (sim, name k) key) eqn:Z; [|destruct Y]. apply keqb_eq in Z. subst key.
    destruct (find (sim, b) (n_names u)) as [q|] eqn:F; [|destruct Y]. apply (h_names _ _ _ _ _ _ HU) in F. destruct F as (Lq & Eq & Iq & [= ->]).
    cbn in Y. destruct (q =? j) eqn:W; [|destruct Y]. apply Nat.eqb_eq in W. subst q. destruct Y as [<-|[]]. spl; auto.
  - intros j Lj D Ij. cbn [n_log set_peers set_names out]. change (n_log u) with (@nil ev). cbn [app].
    rewrite sent_to_app. cbn [sent_to flat_map]. rewrite app_nil_r. unfold es. rewrite sent_to_flat.
    change (n_dests u) with (n_dests s). change (n_info u k) with (n_info s k). rewrite I. cbn [fst snd].
    rewrite (flat_map_one e_dec _ ((sim, name k), name j)).
    + destruct (in_dec _ _ _); [|reflexivity]. cbn [fst snd]. rewrite keqb_refl. destruct (eof j) eqn:Ej.
      * destruct (find _ _) as [q|] eqn:F; [|reflexivity]. apply (h_names _ _ _ _ _ _ HU) in F. destruct F as (Lq & Eq & _ & [= X]).
        assert (j = q) by (apply U; auto). congruence.
      * assert (F : find (sim, name j) (n_names u) = Some j) by (apply (h_names _ _ _ _ _ _ HU); auto).
        rewrite F. cbn. now rewrite Nat.eqb_refl.
    + apply H.
    + intros [key b] N. cbn [fst snd]. destruct (keqb (sim, name k) key) eqn:X; [|reflexivity]. apply keqb_eq in X. subst key.
      destruct (find _ _) as [q|] eqn:F; [|reflexivity]. apply (h_names _ _ _ _ _ _ HU) in F. destruct F as (Lq & Eq & _ & [= Y]).
      cbn. destruct (q =? j) eqn:Z; [|reflexivity]. apply Nat.eqb_eq in Z. subst q. exfalso. apply N. now rewrite Y.
Qed.
End Hub.

Section Net.
Variables sim h : nat.
Notation knows := (knows sim).

Definition annd (y : sys) (j : nat) : Prop := n_info (y_hub y) j = (sim, y_name y j).
(** What is under way from [i] to [j]. *)
Definition flow (y : sys) (i j : nat) : list (option msg) :=
  pls (y_name y i) (y_name y j) (y_down y j) ++ pls (y_name y i) (y_name y j) (y_up y i).
Definition sent (y : sys) (i j : nat) : list (option msg) := sentp (y_name y i) (y_name y j) (y_hist y i).
Definition recv_by (y : sys) (j i : nat) : list (option msg) := recd sim (y_name y i) (y_hist y j).
Definition nonempty {A} (l : list A) : bool := match l with [] => false | _ => true end.
Definition ending (y : sys) (i j : nat) : list (option msg) := if y_eof y i && nonempty (sent y i j) then [None] else [].
Definition upmsg (y : sys) (k : nat) (m : msg) : Prop :=
  exists j x, j < y_cnt y /\ j <> k /\ annd y j /\ m = MProxy 0 (y_name y k) (y_name y j) (Some x) /\ plain sim (y_name y k) x.
Definition downmsg (y : sys) (k : nat) (m : msg) : Prop :=
  m = MReply true \/
  exists i pl, i < y_cnt y /\ i <> k /\ annd y i /\ m = MProxy 0 (y_name y i) (y_name y k) pl /\
    forall x, pl = Some x -> plain sim (y_name y i) x.
Definition headann (y : sys) (i : nat) (l : list (option msg)) : Prop := exists t, l = Some (MAnn sim (y_name y i)) :: t.

Record SI (y : sys) : Prop := {
  s_hub : HI sim h (y_cnt y) (y_name y) (y_eof y) (y_hub y);
  s_uniq : uniq (y_cnt y) (y_name y);
  s_name : forall k, k < y_cnt y -> y_name y k <> 0 /\ y_name y k <> h;
  s_leaf : forall k, k < y_cnt y -> LI sim h (y_name y k) (y_leaf y k);
  s_out : forall k, y_cnt y <= k -> y_up y k = [] /\ y_down y k = [] /\ y_hist y k = [] /\ y_closed y k = false /\ y_eof y k = false;
  s_eof : forall k, y_eof y k = true -> y_closed y k = true /\ y_up y k = [];
  s_up : forall k, k < y_cnt y ->
    (n_info (y_hub y) k = (0, 0) /\ exists r, y_up y k = MAnn sim (y_name y k) :: r /\ Forall (upmsg y k) r) \/
    (annd y k /\ Forall (upmsg y k) (y_up y k));
  s_down : forall k, k < y_cnt y -> Forall (downmsg y k) (y_down y k);
  s_flow : forall i j, i < y_cnt y -> j < y_cnt y -> i <> j -> y_closed y j = false ->
    sent y i j ++ ending y i j = recv_by y j i ++ flow y i j;
  s_know : forall i j, i < y_cnt y -> j < y_cnt y -> i <> j -> y_closed y j = false ->
    flow y i j <> [] \/ (y_closed y i = false /\ knows (y_leaf y i) (y_name y j)) ->
    knows (y_leaf y j) (y_name y i) \/ headann y i (flow y i j);
  s_keep : forall i j, i < y_cnt y -> j < y_cnt y -> i <> j -> y_eof y i = false ->
    sent y j i <> [] \/ recv_by y j i <> [] -> knows (y_leaf y j) (y_name y i);
  s_kn : forall k b, k < y_cnt y -> knows (y_leaf y k) b -> exists j, j < y_cnt y /\ j <> k /\ y_name y j = b /\ annd y j;
  s_dests : forall i j, i < y_cnt y -> j < y_cnt y -> i <> j -> y_closed y j = false -> y_eof y i = false ->
    exists R, sent y i j = R ++ pls (y_name y i) (y_name y j) (y_up y i) /\
      (In ((sim, y_name y i), y_name y j) (n_dests (y_hub y)) <-> R <> []);
  s_some : forall i a b, ~ In None (sentp a b (y_hist y i));
  s_calls : forall k b, k < y_cnt y -> users (sentp (y_name y k) b (y_hist y k)) = calls sim b (y_hist y k);
  s_user : forall k p key x, k < y_cnt y -> In (EUser p key x) (y_hist y k) ->
    exists i, i < y_cnt y /\ i <> k /\ key = (sim, y_name y i);
  s_hn : forall k b, k < y_cnt y -> sentp (y_name y k) b (y_hist y k) <> [] -> exists j, j < y_cnt y /\ y_name y j = b;
  s_hr : forall k a, k < y_cnt y -> recd sim a (y_hist y k) <> [] -> a = h \/ exists i, i < y_cnt y /\ y_name y i = a;
  s_dn : forall a b, In ((sim, a), b) (n_dests (y_hub y)) ->
    a <> b /\ (exists i, i < y_cnt y /\ y_name y i = a) /\ (exists j, j < y_cnt y /\ y_name y j = b) }.

Lemma upd_same {A} k (x : A) f : upd k x f k = x.
Proof. unfold upd. now rewrite Nat.eqb_refl. Qed.
Lemma upd_other {A} k (x : A) f q : q <> k -> upd k x f q = f q.
Proof. intros N. unfold upd. apply Nat.eqb_neq in N. now rewrite N. Qed.

Lemma nonempty_true {A} (l : list A) : nonempty l = true <-> l <> [].
Proof. destruct l; cbn; split; congruence. Qed.

Lemma pls_up_some y k r a b : Forall (upmsg y k) r -> ~ In None (pls a b r).
Proof.
  intros F I. apply in_flat_map in I. destruct I as (m & I & J). rewrite Forall_forall in F.
  destruct (F m I) as (j & x & _ & _ & _ & -> & _). destruct (_ && _); [destruct J as [J|[]]; discriminate | destruct J].
Qed.

(** A step of participant [k], in which it does [L] and takes something from what is under way to it. *)
Lemma leaf_step y k t L dn : SI y -> k < y_cnt y -> y_closed y k = false ->
  LI sim h (y_name y k) t ->
  Forall (upmsg y k) (sent_to 0 L) ->
  (forall q, q <> k -> dn q = y_down y q) ->
  (exists pre, y_down y k = pre ++ dn k) ->
  (forall i, i < y_cnt y -> i <> k ->
     recd sim (y_name y i) L ++ pls (y_name y i) (y_name y k) (dn k) = pls (y_name y i) (y_name y k) (y_down y k)) ->
  (forall b, users (sentp (y_name y k) b L) = calls sim b L) ->
  (forall j, j < y_cnt y -> j <> k -> y_closed y j = false ->
     sentp (y_name y k) (y_name y j) L <> [] \/ knows t (y_name y j) ->
     knows (y_leaf y j) (y_name y k) \/ headann y k (flow y k j ++ sentp (y_name y k) (y_name y j) L)) ->
  (forall i, i < y_cnt y -> i <> k ->
     let F := pls (y_name y i) (y_name y k) (dn k) ++ pls (y_name y i) (y_name y k) (y_up y i) in
     F <> [] \/ (y_closed y i = false /\ knows (y_leaf y i) (y_name y k)) -> knows t (y_name y i) \/ headann y i F) ->
  (forall i, i < y_cnt y -> i <> k -> y_eof y i = false ->
     sentp (y_name y k) (y_name y i) (y_hist y k ++ L) <> [] \/ recd sim (y_name y i) (y_hist y k ++ L) <> [] ->
     knows t (y_name y i)) ->
  (forall b, knows t b -> exists j, j < y_cnt y /\ j <> k /\ y_name y j = b /\ annd y j) ->
  (forall p key x, In (EUser p key x) L -> exists i, i < y_cnt y /\ i <> k /\ key = (sim, y_name y i)) ->
  (forall a, recd sim a L <> [] -> a = h \/ exists i, i < y_cnt y /\ y_name y i = a) ->
  SI (mkSys (y_hub y) (upd k t (y_leaf y)) (y_cnt y) (y_name y) (upd k (y_up y k ++ sent_to 0 L) (y_up y)) dn
            (y_closed y) (y_eof y) (upd k (y_hist y k ++ L) (y_hist y))).
Proof.
  intros S Lk Ck Lt HU Hdn HD HR HC KO KI KK KN HE HN.
  assert (Ek : y_eof y k = false).
  { destruct (y_eof y k) eqn:E; [|reflexivity]. apply (s_eof _ S) in E. destruct E. congruence. }
  constructor; cbn [y_hub y_leaf y_cnt y_name y_up y_down y_closed y_eof y_hist]; try apply S.
  - intros q Lq. destruct (Nat.eq_dec q k) as [->|N]; [rewrite upd_same; exact Lt | rewrite upd_other by auto; now apply (s_leaf _ S)].
  - intros q Lq. rewrite !upd_other, Hdn by lia. now apply (s_out _ S).
  - intros q E. assert (q <> k) by congruence. rewrite upd_other by auto. now apply (s_eof _ S).
  - intros q Lq. destruct (Nat.eq_dec q k) as [->|N].
    + rewrite upd_same. destruct (s_up _ S k Lq) as [(I & r & E & F)|(I & F)].
      * left. split; [exact I|]. exists (r ++ sent_to 0 L). rewrite E. split; [reflexivity|].
        apply Forall_app. split; [exact F | exact HU].
      * right. split; [exact I|]. apply Forall_app. split; [exact F | exact HU].
    + rewrite upd_other by auto. exact (s_up _ S q Lq).
  - intros q Lq. destruct (Nat.eq_dec q k) as [->|N].
    + destruct HD as (pre & E). pose proof (s_down _ S k Lq) as F. rewrite E in F. now apply Forall_app in F.
    + rewrite Hdn by auto. exact (s_down _ S q Lq).
  - intros i j Li Lj D Cj. unfold sent, ending, recv_by, flow, sent. cbn [y_hub y_leaf y_cnt y_name y_up y_down y_closed y_eof y_hist].
    pose proof (s_flow _ S i j Li Lj D Cj) as F. unfold sent, ending, recv_by, flow, sent in F.
    destruct (Nat.eq_dec i k) as [->|Ni].
    + rewrite !upd_same, !(upd_other k _ _ j), !(Hdn j) by auto. rewrite Ek in F |- *. cbn [andb] in F |- *. rewrite app_nil_r in F |- *.
      rewrite sentp_app, F, pls_app, <- !app_assoc. reflexivity.
    + rewrite !(upd_other k _ _ i) by auto. destruct (Nat.eq_dec j k) as [->|Nj].
      * rewrite !upd_same, F, recd_app, <- !app_assoc. f_equal. rewrite <- (HR i Li Ni), <- app_assoc. reflexivity.
      * rewrite !(upd_other k _ _ j), !(Hdn j) by auto. exact F.
  - intros i j Li Lj D Cj. unfold flow, headann. cbn [y_hub y_leaf y_cnt y_name y_up y_down y_closed y_eof y_hist].
    destruct (Nat.eq_dec i k) as [->|Ni].
    + rewrite !upd_same, !(upd_other k _ _ j), !(Hdn j) by auto. rewrite pls_app. intros HK.
      pose proof (s_know _ S k j Li Lj D Cj) as K0. specialize (KO j Lj (not_eq_sym D) Cj).
      change (pls (y_name y k) (y_name y j) (sent_to 0 L)) with (sentp (y_name y k) (y_name y j) L) in *.
      rewrite app_assoc in HK |- *. change (pls (y_name y k) (y_name y j) (y_down y j) ++ pls (y_name y k) (y_name y j) (y_up y k)) with (flow y k j) in *.
      destruct (sentp (y_name y k) (y_name y j) L) as [|z zs] eqn:EZ.
      * rewrite app_nil_r in HK |- *. destruct HK as [HK|[_ HK]]; [apply K0; now left|].
        rewrite app_nil_r in KO. apply KO. now right.
      * apply KO. left. discriminate.
    + rewrite !(upd_other k _ _ i) by auto. destruct (Nat.eq_dec j k) as [->|Nj].
      * rewrite !upd_same. intros HK. exact (KI i Li Ni HK).
      * rewrite !(upd_other k _ _ j), !(Hdn j) by auto. apply (s_know _ S i j); auto.
  - intros i j Li Lj D Ei. unfold sent, recv_by. cbn [y_hub y_leaf y_cnt y_name y_up y_down y_closed y_eof y_hist].
    destruct (Nat.eq_dec j k) as [->|Nj].
    + rewrite !upd_same. apply KK; auto.
    + rewrite !(upd_other k _ _ j) by auto. apply (s_keep _ S i j); auto.
  - intros q b Lq. destruct (Nat.eq_dec q k) as [->|N]; [rewrite upd_same; apply KN | rewrite upd_other by auto; now apply (s_kn _ S)].
  - intros i j Li Lj D Cj Ei. unfold sent. cbn [y_hub y_leaf y_cnt y_name y_up y_down y_closed y_eof y_hist].
    destruct (s_dests _ S i j Li Lj D Cj Ei) as (R & E & I). exists R. split; [|exact I].
    destruct (Nat.eq_dec i k) as [->|Ni].
    + rewrite !upd_same, sentp_app. unfold sent in E. rewrite E, pls_app, <- app_assoc. reflexivity.
    + rewrite !(upd_other k _ _ i) by auto. exact E.
  - intros i a b. destruct (Nat.eq_dec i k) as [->|Ni].
    + rewrite upd_same, sentp_app. intros I. apply in_app_or in I. destruct I as [I|I]; [now apply (s_some _ S) in I|].
      now apply (pls_up_some y k _ a b) in I.
    + rewrite upd_other by auto. apply (s_some _ S).
  - intros q b Lq. destruct (Nat.eq_dec q k) as [->|N].
    + rewrite upd_same, sentp_app, users_app, calls_app, HC. f_equal. now apply (s_calls _ S).
    + rewrite upd_other by auto. now apply (s_calls _ S).
  - intros q p key x Lq. destruct (Nat.eq_dec q k) as [->|N].
    + rewrite upd_same. intros I. apply in_app_or in I. destruct I as [I|I]; [now apply (s_user _ S) in I | now apply (HE p key x)].
    + rewrite upd_other by auto. now apply (s_user _ S).
  - intros q b Lq. destruct (Nat.eq_dec q k) as [->|N].
    + rewrite upd_same, sentp_app. intros E. destruct (sentp (y_name y k) b (y_hist y k)) as [|z zs] eqn:EZ.
      * cbn in E. unfold sentp in E. destruct (pls (y_name y k) b (sent_to 0 L)) as [|z zs] eqn:EP; [congruence|].
        assert (I : In z (pls (y_name y k) b (sent_to 0 L))) by (rewrite EP; now left).
        apply in_flat_map in I. destruct I as (m & I & J). rewrite Forall_forall in HU.
        destruct (HU m I) as (j & x & Lj & _ & _ & -> & _). destruct (_ && _) eqn:X; [|destruct J].
        apply andb_true_iff in X. destruct X as [_ X]. apply Nat.eqb_eq in X. eauto.
      * apply (s_hn _ S k b Lq). rewrite EZ. discriminate.
    + rewrite upd_other by auto. now apply (s_hn _ S).
  - intros q a Lq. destruct (Nat.eq_dec q k) as [->|N].
    + rewrite upd_same, recd_app. intros E. destruct (recd sim a (y_hist y k)) as [|z zs] eqn:EZ.
      * now apply HN.
      * apply (s_hr _ S k a Lq). rewrite EZ. discriminate.
    + rewrite upd_other by auto. now apply (s_hr _ S).
Qed.

(** A step of the registry. *)
Lemma hub_step y t up' dn eof' tn : SI y ->
  HI sim h (y_cnt y) (y_name y) eof' t ->
  (forall j, j < y_cnt y -> annd y j -> n_info t j = (sim, y_name y j)) ->
  (forall k, y_cnt y <= k -> up' k = [] /\ dn k = [] /\ eof' k = false) ->
  (forall k, eof' k = true -> y_closed y k = true /\ up' k = []) ->
  (forall k, y_eof y k = true -> eof' k = true) ->
  (forall k, k < y_cnt y ->
    (n_info t k = (0, 0) /\ exists r, up' k = MAnn sim (y_name y k) :: r /\ Forall (upmsg y k) r) \/
    (n_info t k = (sim, y_name y k) /\ Forall (upmsg y k) (up' k))) ->
  (forall k, k < y_cnt y -> Forall (fun m => m = MReply true \/
     exists i pl, i < y_cnt y /\ i <> k /\ n_info t i = (sim, y_name y i) /\ m = MProxy 0 (y_name y i) (y_name y k) pl /\
     forall x, pl = Some x -> plain sim (y_name y i) x) (dn k)) ->
  (forall i j, i < y_cnt y -> j < y_cnt y -> i <> j -> y_closed y j = false ->
     pls (y_name y i) (y_name y j) (dn j) ++ pls (y_name y i) (y_name y j) (up' i) =
     pls (y_name y i) (y_name y j) (y_up y i) ++ tn i j /\
     (if eof' i && nonempty (sent y i j) then [None] else []) = ending y i j ++ tn i j /\
     (tn i j <> [] -> flow y i j = [] -> knows (y_leaf y j) (y_name y i))) ->
  (forall i j, i < y_cnt y -> j < y_cnt y -> i <> j -> y_closed y j = false -> eof' i = false ->
    exists R, sent y i j = R ++ pls (y_name y i) (y_name y j) (up' i) /\
      (In ((sim, y_name y i), y_name y j) (n_dests t) <-> R <> [])) ->
  (forall a b, In ((sim, a), b) (n_dests t) ->
    a <> b /\ (exists i, i < y_cnt y /\ y_name y i = a) /\ (exists j, j < y_cnt y /\ y_name y j = b)) ->
  SI (mkSys t (y_leaf y) (y_cnt y) (y_name y) up' (fun k => y_down y k ++ dn k) (y_closed y) eof' (y_hist y)).
Proof.
  intros S HT HA HO HE HM HU HD HF HX HDN.
  assert (UM : forall k m, upmsg y k m -> upmsg (mkSys t (y_leaf y) (y_cnt y) (y_name y) up' (fun k => y_down y k ++ dn k) (y_closed y) eof' (y_hist y)) k m).
  { intros k m (j & x & Lj & N & A & E & P). exists j, x. cbn. spl; auto. unfold annd. cbn. now apply HA. }
  assert (FL : forall i j, i < y_cnt y -> j < y_cnt y -> i <> j -> y_closed y j = false ->
    pls (y_name y i) (y_name y j) (y_down y j ++ dn j) ++ pls (y_name y i) (y_name y j) (up' i) = flow y i j ++ tn i j).
  { intros i j Li Lj D Cj. destruct (HF i j Li Lj D Cj) as (E & _ & _). rewrite pls_app, <- app_assoc, E. unfold flow. now rewrite app_assoc. }
  constructor; cbn [y_hub y_leaf y_cnt y_name y_up y_down y_closed y_eof y_hist]; try apply S; auto.
  - intros k L. destruct (HO k L) as (-> & -> & ->). destruct (s_out _ S k L) as (_ & -> & -> & -> & _). auto.
  - intros k L. destruct (HU k L) as [(I & r & E & F)|(I & F)].
    + left. split; [exact I|]. exists r. split; [exact E|]. eapply Forall_impl; [|exact F]. apply UM.
    + right. split; [exact I|]. eapply Forall_impl; [|exact F]. apply UM.
  - intros k L. apply Forall_app. split.
    + eapply Forall_impl; [|exact (s_down _ S k L)]. intros m [-> |(i & pl & Li & N & A & E & P)]; [now left|].
      right. exists i, pl. spl; auto. unfold annd. cbn. now apply HA.
    + exact (HD k L).
  - intros i j Li Lj D Cj. unfold sent, ending, recv_by, flow, sent. cbn [y_hub y_leaf y_cnt y_name y_up y_down y_closed y_eof y_hist].
    rewrite (FL i j Li Lj D Cj). destruct (HF i j Li Lj D Cj) as (_ & E & _). unfold sent in E. rewrite E.
    pose proof (s_flow _ S i j Li Lj D Cj) as F. unfold sent, recv_by in F. rewrite app_assoc, F, <- app_assoc. reflexivity.
  - intros i j Li Lj D Cj. unfold flow, headann. cbn [y_hub y_leaf y_cnt y_name y_up y_down y_closed y_eof y_hist].
    rewrite (FL i j Li Lj D Cj). destruct (HF i j Li Lj D Cj) as (_ & _ & E). intros HK.
    destruct (flow y i j) as [|z zs] eqn:EF.
    + cbn [app] in *. destruct (tn i j) as [|w ws] eqn:ET.
      * pose proof (s_know _ S i j Li Lj D Cj) as K0. rewrite EF in K0. apply K0. exact HK.
      * left. apply E; [discriminate | reflexivity].
    + assert (K0 : knows (y_leaf y j) (y_name y i) \/ headann y i (flow y i j)).
      { apply (s_know _ S i j Li Lj D Cj). left. rewrite EF. discriminate. }
      destruct K0 as [K0|(w & K0)]; [now left|]. right. rewrite EF in K0. rewrite K0. now exists (w ++ tn i j).
  - intros i j Li Lj D Ei. apply (s_keep _ S i j Li Lj D). destruct (y_eof y i) eqn:E; [|reflexivity].
    apply HM in E. congruence.
  - intros k b L K. destruct (s_kn _ S k b L K) as (j & Lj & N & E & A). exists j. spl; auto. unfold annd. cbn. now apply HA.
Qed.
End Net.
