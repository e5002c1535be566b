(** Proofs about DashMapModel.v *)
From Coq Require Import String Ascii NArith ZArith List Bool Lia.
From Verif Require TextSpec UriProofs.
From Verif Require Import Base TextModel TextProofs YamlModel YamlProofs ParticipantModel DashMapModel.
Import ListNotations.
Open Scope Z_scope.
Open Scope list_scope.

(** * What is to be shown of a service *)
Definition has (d : sdesc) (k : string) (v : text) : Prop := supp_find (lit k) (v_supp d) = Some v.
Definition type_is (d : sdesc) (s : string) : Prop := has d "controller.type" (lit s).
Definition label_shown (x : mlabel) (y : text * text * string) : Prop :=
  fst (fst y) = ml_key x /\ snd (fst y) = ml_value x /\ ((ml_kind x = 1 /\ snd y = "optional"%string) \/ (ml_kind x = 2 /\ snd y = "mandatory"%string)).
Section Shown.
  Variable yaml : text -> res node.
  Definition spec_shown (d : sdesc) (topic media labels : string) (s : spec_dto) : Prop :=
    has d topic (sd_topic s) /\ has d media (sd_media s) /\ exists t n l, has d labels t /\ yaml t = Ok n /\ r_mlabels n = Ok l /\ Forall2 label_shown l (sd_labels s).
  Inductive shown (d : sdesc) : slot -> entry -> Prop :=
  | ShCan : type_is d "CAN" -> shown d CanC (ECtrl (v_id d) (v_name d) (v_net d))
  | ShEth : type_is d "Ethernet" -> shown d EthC (ECtrl (v_id d) (v_name d) (v_net d))
  | ShFlex : type_is d "FlexRay" -> shown d FlexC (ECtrl (v_id d) (v_name d) (v_net d))
  | ShLin : type_is d "LIN" -> shown d LinC (ECtrl (v_id d) (v_name d) (v_net d))
  | ShPub s : type_is d "DataPublisher" -> spec_shown d "PubSub::topic" "PubSub::pubMediaType" "PubSub::pubLabels" s -> shown d PubS (EServ (v_id d) (v_name d) (v_net d) s)
  | ShSub s : type_is d "DataSubscriber" -> spec_shown d "PubSub::topic" "PubSub::subMediaType" "PubSub::subLabels" s -> shown d SubS (EServ (v_id d) (v_name d) (v_net d) s)
  | ShCli s : type_is d "RpcClient" -> spec_shown d "Rpc::client::functionName" "Rpc::client::mediaType" "Rpc::client::labels" s -> shown d CliS (EServ (v_id d) (v_name d) (v_net d) s)
  | ShSrv s : type_is d "RpcServer" -> spec_shown d "Rpc::server::functionName" "Rpc::server::mediaType" "Rpc::server::labels" s -> shown d SrvS (EServ (v_id d) (v_name d) (v_net d) s)
  | ShSubI t p : type_is d "DataSubscriberInternal" -> has d "PubSub::subIntParentServiceId" t -> stou t = Ok p -> shown d SubI (EIntern (v_id d) (v_name d) (v_net d) p)
  | ShSrvI t p : type_is d "RpcServerInternal" -> has d "Rpc::serverinternal::parentServiceId" t -> stou t = Ok p -> shown d SrvI (EIntern (v_id d) (v_name d) (v_net d) p).
  (** one entry for a controller, the name of a network for a link to a bus, nothing for anything else *)
  Definition service_shown (d : sdesc) (l : list (slot * entry)) : Prop :=
    match v_type d with
    | SvController => exists k e, l = [(k, e)] /\ shown d k e
    | SvLink => l = match v_ntype d with NtCan => [(CanN, ENet (v_net d))] | NtEthernet => [(EthN, ENet (v_net d))] | NtFlexray => [(FlexN, ENet (v_net d))]
                                       | NtLin => [(LinN, ENet (v_net d))] | _ => [] end
    | _ => l = []
    end.

  Lemma text_eqb_spec : forall a b, reflect (a = b) (text_eqb a b).
  Proof. intros a b. unfold text_eqb. destruct (list_eq_dec N.eq_dec a b); constructor; assumption. Qed.
  Lemma supp_ok : forall d k v, supp d k = Ok v <-> has d k v.
  Proof. intros d k v. unfold supp, has. destruct (supp_find (lit k) (v_supp d)); split; congruence. Qed.
  Lemma bind_ok : forall {A B} (r : res A) (f : A -> res B) b, (x <- r ;; f x) = Ok b <-> exists a, r = Ok a /\ f a = Ok b.
  Proof. intros A B [a| |] f b; cbn; split; [eauto|intros (x & E & H); now injection E as ->|discriminate|intros (x & E & _); discriminate|discriminate|intros (x & E & _); discriminate]. Qed.
  Lemma label_dto_ok : forall x y, label_dto x = Ok y <-> label_shown x y.
  Proof.
    intros [k v z] [[a b] c]. unfold label_dto, label_kind, label_shown. cbn. destruct (z =? 1) eqn:E1; [apply Z.eqb_eq in E1|apply Z.eqb_neq in E1; destruct (z =? 2) eqn:E2; [apply Z.eqb_eq in E2|apply Z.eqb_neq in E2]]; cbn; split;
      try (intros X; injection X as <- <- <-); intuition (try congruence; try lia).
  Qed.
  Lemma mapM_ok : forall {A B} (f : A -> res B) (P : A -> B -> Prop), (forall x y, f x = Ok y <-> P x y) -> forall l m, mapM f l = Ok m <-> Forall2 P l m.
  Proof.
    intros A B f P H. induction l as [|x l IH]; intros m; cbn.
    - split; [intros X; injection X as <-; constructor|intros X; inversion X; reflexivity].
    - rewrite bind_ok. split.
      + intros (y & E & X). rewrite bind_ok in X. destruct X as (r & R & X). injection X as <-. constructor; [now apply H|now apply IH].
      + intros X. inversion X as [|? y ? r E R]; subst. exists y. split; [now apply H|]. apply bind_ok. exists r. split; [now apply IH|reflexivity].
  Qed.
  Lemma make_spec_ok : forall d t m l s, make_spec yaml d t m l = Ok s <-> spec_shown d t m l s.
  Proof.
    intros d t m l s. unfold make_spec, spec_shown, labels_dto. rewrite bind_ok. split.
    - intros (a & A & X). rewrite bind_ok in X. destruct X as (b & B & X). rewrite bind_ok in X. destruct X as (c & C & X). injection X as <-. cbn.
      rewrite bind_ok in C. destruct C as (x & X & C). rewrite bind_ok in C. destruct C as (n & N & C). rewrite bind_ok in C. destruct C as (v & V & C).
      split; [now apply supp_ok|]. split; [now apply supp_ok|]. exists x, n, v. split; [now apply supp_ok|]. split; [exact N|]. split; [exact V|]. now apply (mapM_ok _ _ label_dto_ok).
    - intros (A & B & x & n & v & X & N & V & C). exists (sd_topic s). split; [now apply supp_ok|]. apply bind_ok. exists (sd_media s). split; [now apply supp_ok|].
      apply bind_ok. exists (sd_labels s). split; [|now destruct s]. apply bind_ok. exists x. split; [now apply supp_ok|]. apply bind_ok. exists n. split; [exact N|].
      apply bind_ok. exists v. split; [exact V|]. now apply (mapM_ok _ _ label_dto_ok).
  Qed.
  Lemma has_fun : forall d k a b, has d k a -> has d k b -> a = b.
  Proof. unfold has. congruence. Qed.
  Lemma data_eq : forall d ct, has d "controller.type" ct -> data_dto yaml d =
    (s <- (if text_eqb ct (lit "DataSubscriber") then make_spec yaml d "PubSub::topic" "PubSub::subMediaType" "PubSub::subLabels"
          else if text_eqb ct (lit "DataPublisher") then make_spec yaml d "PubSub::topic" "PubSub::pubMediaType" "PubSub::pubLabels" else Exn) ;;
    Ok (EServ (v_id d) (v_name d) (v_net d) s)).
  Proof. intros d ct H. unfold data_dto. apply supp_ok in H. now rewrite H. Qed.
  Lemma controller_entry_ok : forall d k e, controller_entry yaml d = Ok (k, e) <-> shown d k e.
  Proof.
    intros d k e. split.
    - unfold controller_entry. rewrite bind_ok. intros (ct & C & X). cbv zeta beta in X. pose proof C as C'. apply supp_ok in C'.
      destruct (text_eqb_spec ct (lit "CAN")) as [->|N1]. { injection X as <- <-. now constructor. }
      destruct (text_eqb_spec ct (lit "Ethernet")) as [->|N2]. { injection X as <- <-. now constructor. }
      destruct (text_eqb_spec ct (lit "FlexRay")) as [->|N3]. { injection X as <- <-. now constructor. }
      destruct (text_eqb_spec ct (lit "LIN")) as [->|N4]. { injection X as <- <-. now constructor. }
      unfold data_dto, rpc_dto, intern_dto in X. rewrite C in X. cbn [bind] in X.
      destruct (text_eqb_spec ct (lit "DataPublisher")) as [->|N5].
      { change (text_eqb (lit "DataPublisher") (lit "DataSubscriber")) with false in X. cbv iota in X. rewrite !bind_ok in X. destruct X as (e' & E & X). injection X as <- <-.
        apply bind_ok in E. destruct E as (s & S & E). injection E as <-. apply make_spec_ok in S. now constructor. }
      destruct (text_eqb_spec ct (lit "DataSubscriber")) as [->|N6].
      { rewrite bind_ok in X. destruct X as (e' & E & X). injection X as <- <-.
        apply bind_ok in E. destruct E as (s & S & E). injection E as <-. apply make_spec_ok in S. now constructor. }
      destruct (text_eqb_spec ct (lit "DataSubscriberInternal")) as [->|N7].
      { rewrite bind_ok in X. destruct X as (e' & E & X). injection X as <- <-.
        apply bind_ok in E. destruct E as (p & S & E). injection E as <-. apply bind_ok in S. destruct S as (t & T & S). apply supp_ok in T. now apply (ShSubI d t). }
      destruct (text_eqb_spec ct (lit "RpcClient")) as [->|N8].
      { rewrite bind_ok in X. destruct X as (e' & E & X). injection X as <- <-.
        apply bind_ok in E. destruct E as (s & S & E). injection E as <-. apply make_spec_ok in S. now constructor. }
      destruct (text_eqb_spec ct (lit "RpcServer")) as [->|N9].
      { rewrite bind_ok in X. destruct X as (e' & E & X). injection X as <- <-.
        apply bind_ok in E. destruct E as (s & S & E). injection E as <-. apply make_spec_ok in S. now constructor. }
      destruct (text_eqb_spec ct (lit "RpcServerInternal")) as [->|N10]; [|discriminate].
      { rewrite bind_ok in X. destruct X as (e' & E & X). injection X as <- <-.
        apply bind_ok in E. destruct E as (p & S & E). injection E as <-. apply bind_ok in S. destruct S as (t & T & S). apply supp_ok in T. now apply (ShSrvI d t). }
    - intros H. unfold controller_entry, data_dto, rpc_dto, intern_dto. destruct H as [C|C|C|C|s C S|s C S|s C S|s C S|t p C T S|t p C T S]; pose proof (proj2 (supp_ok _ _ _) C) as C'; rewrite C'; cbn [bind];
        try reflexivity; try (apply make_spec_ok in S); try (apply supp_ok in T; rewrite T; cbn [bind]);
        repeat match goal with |- context [text_eqb (lit ?a) (lit ?b)] => let v := eval vm_compute in (text_eqb (lit a) (lit b)) in change (text_eqb (lit a) (lit b)) with v end; cbv iota; rewrite S; reflexivity.
  Qed.
  Lemma service_entry_ok : forall d l, service_entry yaml d = Ok l <-> service_shown d l.
  Proof.
    intros d l. unfold service_entry, service_shown. destruct (v_type d); try (split; [intros X; injection X; auto|intros ->; reflexivity]).
    rewrite bind_ok. split.
    - intros ((k, e) & E & X). injection X as <-. apply controller_entry_ok in E. eauto.
    - intros (k & e & -> & S). exists (k, e). split; [now apply controller_entry_ok|reflexivity].
  Qed.
End Shown.

(** * The update of a simulation *)
Definition state_shown (s : Z) (t : string) : Prop := In (s, t) states.
Lemma map_state_ok : forall s t, map_state s = Ok t <-> state_shown s t.
Proof.
  intros s t. unfold map_state, state_shown. destruct (find (fun p => fst p =? s) states) as [[a b]|] eqn:E.
  - apply find_some in E. destruct E as [I X]. cbn in X. apply Z.eqb_eq in X. subst a. split.
    + intros Y. injection Y as <-. exact I.
    + intros J. cbn in I, J. cbn. repeat match goal with H : _ \/ _ |- _ => destruct H | H : False |- _ => destruct H end; congruence.
  - split; [discriminate|]. intros J. apply (find_none _ _ E) in J. cbn in J. rewrite Z.eqb_refl in J. discriminate.
Qed.
Definition status_shown (p : pstat) (x : string * text * Z) : Prop :=
  state_shown (ps_state p) (fst (fst x)) /\ snd (fst x) = ps_reason p /\ snd x = Z.quot (ps_time p) 1000000 mod 2 ^ 64.
Lemma status_dto_ok : forall p x, status_dto p = Ok x <-> status_shown p x.
Proof.
  intros p [[a b] c]. unfold status_dto, status_shown. rewrite bind_ok. cbn [fst snd]. split.
  - intros (s & S & X). injection X as <- <- <-. apply map_state_ok in S. auto.
  - intros (S & -> & ->). exists a. split; [now apply map_state_ok|reflexivity].
Qed.
Lemma foldM_ok : forall {A B} (f : B -> A -> res B) l b c, foldM f l b = Ok c ->
  forall (P : list A -> B -> Prop), P [] b -> (forall d x b1 b2, P d b1 -> f b1 x = Ok b2 -> P (d ++ [x]) b2) -> P l c.
Proof.
  intros A B f l b c H P P0 PS. assert (G : forall l d b, P d b -> foldM f l b = Ok c -> P (d ++ l) c).
  { clear l b H P0. induction l as [|x l IH]; intros d b Q H; cbn in H; [injection H as <-; now rewrite app_nil_r|].
    apply bind_ok in H. destruct H as (b' & E & H). replace (d ++ x :: l) with ((d ++ [x]) ++ l) by (rewrite <- app_assoc; reflexivity). apply (IH _ b'); eauto. }
  exact (G l [] b P0 H).
Qed.
Lemma foldM_total : forall {A B} (f : B -> A -> res B) l b, (forall x b, In x l -> exists c, f b x = Ok c) -> exists c, foldM f l b = Ok c.
Proof.
  intros A B f. induction l as [|x l IH]; intros b H; cbn; [eauto|]. destruct (H x b (or_introl eq_refl)) as (c & C). rewrite C. cbn. apply IH. intros y b' I. apply H. now right.
Qed.

(** the DTO of a name *)
Definition get (n : text) (l : list pdto) : option pdto := find (fun p => text_eqb (q_name p) n) l.
Definition got (n : text) (l : list pdto) : pdto := match get n l with Some p => p | None => mkPdto n [] [] end.
Lemma names_with : forall n f l, (forall p, q_name (f p) = q_name p) ->
  map q_name (with_part n f l) = if existsb (fun p => text_eqb (q_name p) n) l then map q_name l else map q_name l ++ [n].
Proof.
  intros n f l H. induction l as [|p l IH]; cbn; [now rewrite H|]. destruct (text_eqb_spec (q_name p) n) as [E|E]; cbn; [now rewrite H|]. rewrite IH. destruct (existsb _ l); reflexivity.
Qed.
Lemma exists_name : forall n l, existsb (fun p => text_eqb (q_name p) n) l = true <-> In n (map q_name l).
Proof.
  intros n l. rewrite existsb_exists, in_map_iff. split; intros (p & A & B).
  - destruct (text_eqb_spec (q_name p) n); [eauto|discriminate].
  - exists p. split; [exact B|]. destruct (text_eqb_spec (q_name p) n); [reflexivity|contradiction].
Qed.
Lemma nodup_with : forall n f l, (forall p, q_name (f p) = q_name p) -> NoDup (map q_name l) -> NoDup (map q_name (with_part n f l)).
Proof.
  intros n f l H D. rewrite names_with by exact H. destruct (existsb _ l) eqn:E; [exact D|]. rewrite NoDup_Add with (l := map q_name l) (a := n); [split; [exact D|]|].
  - intros I. apply exists_name in I. congruence.
  - rewrite <- (app_nil_r (map q_name l)) at 1. apply Add_app.
Qed.
Lemma in_with : forall n f l m, (forall p, q_name (f p) = q_name p) -> In m (map q_name (with_part n f l)) <-> m = n \/ In m (map q_name l).
Proof.
  intros n f l m H. rewrite names_with by exact H. destruct (existsb _ l) eqn:E.
  - apply exists_name in E. split; [auto|intros [->|]; auto].
  - rewrite in_app_iff. cbn. intuition.
Qed.
Lemma got_with : forall n f l m, (forall p, q_name (f p) = q_name p) -> got m (with_part n f l) = if text_eqb n m then f (got n l) else got m l.
Proof.
  intros n f l m H. unfold got, get. induction l as [|p l IH]; cbn.
  - rewrite H. cbn. destruct (text_eqb_spec n m) as [->|N]; reflexivity.
  - destruct (text_eqb_spec (q_name p) n) as [E|E]; cbn.
    + rewrite H. rewrite E. destruct (text_eqb_spec n m) as [->|N]; reflexivity.
    + destruct (text_eqb_spec (q_name p) m) as [E'|E']; [|exact IH]. destruct (text_eqb_spec n m) as [->|N]; [contradiction|reflexivity].
Qed.
Lemma got_name : forall n l, q_name (got n l) = n.
Proof. intros n l. unfold got, get. destruct (find _ l) eqn:E; [|reflexivity]. apply find_some in E. destruct E as [_ E]. destruct (text_eqb_spec (q_name p) n); [assumption|discriminate]. Qed.
Lemma got_in : forall l p, NoDup (map q_name l) -> In p l -> got (q_name p) l = p.
Proof.
  intros l p. induction l as [|x l IH]; [intros _ []|]. cbn. intros D [->|I]; inversion D as [|? ? A B]; subst.
  - unfold got, get. cbn. destruct (text_eqb_spec (q_name p) (q_name p)); [reflexivity|contradiction].
  - unfold got, get in *. cbn. destruct (text_eqb_spec (q_name x) (q_name p)) as [E|E]; [|now apply IH]. exfalso. apply A. rewrite E. apply in_map. exact I.
Qed.
Lemma Forall2_snoc : forall {A B} (P : A -> B -> Prop) l m x y, Forall2 P l m -> P x y -> Forall2 P (l ++ [x]) (m ++ [y]).
Proof. intros. apply Forall2_app; [assumption|]. constructor; [assumption|constructor]. Qed.
Lemma filter_snoc : forall {A} (f : A -> bool) l x, filter f (l ++ [x]) = filter f l ++ if f x then [x] else [].
Proof. intros. rewrite filter_app. cbn. destruct (f x); reflexivity. Qed.

Definition by_status (n : text) (s : pstat) : bool := text_eqb (ps_part s) n.
Definition by_service (n : text) (cd : bool * sdesc) : bool := fst cd && text_eqb (v_part (snd cd)) n.
(** the state of the list of DTOs after parts of the update *)
Definition upto yaml (cs : list text) (ss : list pstat) (ds : list (bool * sdesc)) (l : list pdto) : Prop :=
  NoDup (map q_name l) /\
  (forall n, In n (map q_name l) <-> In n cs \/ In n (map ps_part ss) \/ In n (map (fun cd => v_part (snd cd)) (filter fst ds))) /\
  forall n, Forall2 status_shown (filter (by_status n) ss) (q_statuses (got n l)) /\
            exists ls, Forall2 (fun cd x => service_shown yaml (snd cd) x) (filter (by_service n) ds) ls /\ q_entries (got n l) = concat ls.
Lemma bulk_ok : forall yaml b z, bulk_dto yaml b = Ok z -> upto yaml (b_connected b) (b_statuses b) (b_services b) (z_parts z) /\ Forall2 state_shown (b_states b) (z_states z).
Proof.
  intros yaml b z H. unfold bulk_dto in H. apply bind_ok in H. destruct H as (st & ST & H). cbv zeta in H.
  set (p0 := fold_left _ (b_connected b) []) in H. apply bind_ok in H. destruct H as (p1 & P1 & H). apply bind_ok in H. destruct H as (p2 & P2 & H). injection H as <-. cbn [z_parts z_states].
  split; [|now apply (mapM_ok _ _ map_state_ok)].
  assert (U0 : upto yaml (b_connected b) [] [] p0).
  { unfold p0. clear. assert (G : forall cs done l, upto yaml done [] [] l -> upto yaml (done ++ cs) [] [] (fold_left (fun l n => with_part n (fun p => p) l) cs l)).
    { induction cs as [|n cs IH]; intros done l U; cbn; [now rewrite app_nil_r|]. replace (done ++ n :: cs) with ((done ++ [n]) ++ cs) by (rewrite <- app_assoc; reflexivity). apply IH.
      destruct U as (A & B & C). split; [now apply nodup_with|]. split.
      - intros m. rewrite in_with by reflexivity. rewrite B, in_app_iff. cbn. intuition.
      - intros m. rewrite got_with by reflexivity. destruct (text_eqb_spec n m) as [->|]; apply C. }
    apply (G (b_connected b) [] []). split; [constructor|]. split; [cbn; tauto|]. intros n. split; [constructor|]. exists []. split; [constructor|reflexivity]. }
  assert (U1 : upto yaml (b_connected b) (b_statuses b) [] p1).
  { apply (foldM_ok _ _ _ _ P1 (fun d l => upto yaml (b_connected b) d [] l) U0). intros d s l1 l2 U E. apply bind_ok in E. destruct E as (x & X & E). injection E as <-. apply status_dto_ok in X.
    destruct U as (A & B & C). split; [now apply nodup_with|]. split.
    - intros m. rewrite in_with by reflexivity. rewrite B, map_app, in_app_iff. cbn. intuition.
    - intros m. rewrite got_with by reflexivity. rewrite filter_snoc. unfold by_status at 2. destruct (text_eqb_spec (ps_part s) m) as [<-|].
      + destruct (C (ps_part s)) as [C1 C2]. split; [cbn; now apply Forall2_snoc|exact C2].
      + rewrite app_nil_r. apply C. }
  apply (foldM_ok _ _ _ _ P2 (fun d l => upto yaml (b_connected b) (b_statuses b) d l) U1). intros d [cr sd] l1 l2 U E. destruct U as (A & B & C). cbn [fst snd] in E. destruct cr.
  - apply bind_ok in E. destruct E as (x & X & E). injection E as <-. apply service_entry_ok in X. split; [now apply nodup_with|]. split.
    + intros m. rewrite in_with by reflexivity. rewrite B, filter_snoc, map_app, in_app_iff. cbn. intuition.
    + intros m. rewrite got_with by reflexivity. rewrite filter_snoc. unfold by_service at 2. cbn [fst snd andb]. destruct (text_eqb_spec (v_part sd) m) as [<-|].
      * destruct (C (v_part sd)) as [C1 (ls & C2 & C3)]. split; [exact C1|]. exists (ls ++ [x]). split; [now apply Forall2_snoc|]. cbn. rewrite C3, concat_app. cbn. now rewrite app_nil_r.
      * rewrite app_nil_r. apply C.
  - injection E as <-. split; [exact A|]. split.
    + intros m. rewrite B, filter_snoc. cbn. now rewrite app_nil_r.
    + intros m. rewrite filter_snoc. cbn. rewrite app_nil_r. apply C.
Qed.
Lemma bulk_total : forall yaml b, (exists z, bulk_dto yaml b = Ok z) <->
  (forall s, In s (b_states b) -> exists t, state_shown s t) /\ (forall s, In s (b_statuses b) -> exists t, state_shown (ps_state s) t) /\
  (forall d, In (true, d) (b_services b) -> exists l, service_shown yaml d l).
Proof.
  intros yaml b. split.
  - intros (z & H). pose proof (bulk_ok _ _ _ H) as ((_ & _ & C) & S). repeat split.
    + intros s I. clear -S I. induction S as [|x y l m P F IH]; [destruct I|]. destruct I as [<-|I]; [eauto|now apply IH].
    + intros s I. destruct (C (ps_part s)) as [F _]. assert (J : In s (filter (by_status (ps_part s)) (b_statuses b))).
      { apply filter_In. split; [exact I|]. unfold by_status. destruct (text_eqb_spec (ps_part s) (ps_part s)); [reflexivity|contradiction]. }
      clear -F J. induction F as [|x y l m P F IH]; [destruct J|]. destruct J as [<-|I]; [destruct P; eauto|now apply IH].
    + intros d I. destruct (C (v_part d)) as [_ (ls & F & _)]. assert (J : In (true, d) (filter (by_service (v_part d)) (b_services b))).
      { apply filter_In. split; [exact I|]. unfold by_service. cbn. destruct (text_eqb_spec (v_part d) (v_part d)); [reflexivity|contradiction]. }
      clear -F J. induction F as [|x y l m P F IH]; [destruct J|]. destruct J as [E|I]; [rewrite E in P; cbn in P; eauto|now apply IH].
  - intros (A & B & C). unfold bulk_dto.
    assert (X : exists st, mapM map_state (b_states b) = Ok st).
    { clear -A. induction (b_states b) as [|s l IH]; [now exists []|]. destruct (A s (or_introl eq_refl)) as (t & T). apply map_state_ok in T. destruct IH as (m & M); [intros; apply A; now right|]. exists (t :: m). cbn. now rewrite T, M. }
    destruct X as (st & ST). rewrite ST. cbn [bind]. cbv zeta.
    edestruct (foldM_total (fun l s => x <- status_dto s ;; Ok (with_part (ps_part s) (add_status x) l)) (b_statuses b)) as (p1 & P1).
    { intros s l I. destruct (B s I) as (t & T). apply map_state_ok in T. unfold status_dto. rewrite T. cbn. eauto. }
    rewrite P1. cbn [bind].
    edestruct (foldM_total (fun l (cd : bool * sdesc) => if fst cd : bool then (x <- service_entry yaml (snd cd) ;; Ok (with_part (v_part (snd cd)) (add_entries x) l)) else Ok l) (b_services b)) as (p2 & P2).
    { intros [[] d] l I; cbn [fst snd]; [|eauto]. destruct (C d I) as (x & X). apply service_entry_ok in X. rewrite X. cbn. eauto. }
    rewrite P2. cbn [bind]. eauto.
Qed.

(** * Numbers *)
(** * Numbers *)
Lemma leading_read : forall s acc n, Forall (fun c => digit c = true) s -> read_digits 10 acc s = Some n -> leading acc s = n.
Proof.
  induction s as [|c s IH]; intros acc n F H; cbn in *; [congruence|]. inversion F as [|? ? D F']; subst. rewrite D. unfold digit in D. unfold digit_of in H. rewrite D in H.
  destruct ((c - 48 <? 10)%N) eqn:E; [|discriminate]. apply (IH _ _ F'). rewrite <- H. f_equal. rewrite N.mul_comm. reflexivity.
Qed.
Lemma stou_digits : forall s n, s <> [] -> Forall (fun c => digit c = true) s -> read_digits 10 0 s = Some n -> stou s = if (2 ^ 64 <=? n)%N then Exn else Ok n.
Proof.
  intros s n NE F H. pose proof (leading_read s 0%N n F H) as L. destruct s as [|c s]; [now elim NE|]. inversion F as [|? ? D _]; subst. unfold stou.
  assert (B : skip_blanks (c :: s) = c :: s). { cbn. unfold digit in D. unfold blank. replace (((9 <=? c) && (c <=? 13) || (c =? 32))%N) with false by lia. reflexivity. }
  rewrite B. assert (R : (48 <= c <= 57)%N) by (unfold digit in D; lia). replace (c =? 45)%N with false by lia. replace (c =? 43)%N with false by lia. rewrite D. reflexivity.
Qed.
Lemma stou_decimal : forall n, stou (decimal n) = if (2 ^ 64 <=? n)%N then Exn else Ok n.
Proof. intros n. apply stou_digits; [apply UriProofs.decimal_nonempty|apply UriProofs.decimal_digits|apply read_digits_decimal]. Qed.

(** * Names of metrics *)
Lemma join_inj : forall c l m, Forall (fun t => ~ In c t) l -> Forall (fun t => ~ In c t) m -> l <> [] -> m <> [] -> TextSpec.join [c] l = TextSpec.join [c] m -> l = m.
Proof.
  assert (cut : forall (c : N) a b x y, ~ In c a -> ~ In c b -> a ++ c :: x = b ++ c :: y -> a = b /\ x = y).
  { induction a as [|h a IH]; intros [|g b] x y A B E; cbn in *.
    - injection E as ->. auto.
    - exfalso. apply B. left. congruence.
    - exfalso. apply A. left. congruence.
    - injection E as -> E. destruct (IH b x y) as [-> ->]; auto. }
  intros c. induction l as [|a l IH]; intros [|b m] F G NL NM E; try contradiction. inversion F as [|? ? F1 F2]; subst. inversion G as [|? ? G1 G2]; subst. destruct l as [|a' l], m as [|b' m].
  - cbn in E. now subst.
  - rewrite join_cons in E. cbn [TextSpec.join] in E. exfalso. apply F1. rewrite E. apply in_or_app. right. now left.
  - rewrite join_cons in E. cbn [TextSpec.join] in E. exfalso. apply G1. rewrite <- E. apply in_or_app. right. now left.
  - rewrite !join_cons in E. apply cut in E; [|assumption|assumption]. destruct E as [-> E]. f_equal. apply IH; auto; discriminate.
Qed.
Lemma join_snoc : forall c l, l <> [] -> TextSpec.join [c] (l ++ [[]]) = TextSpec.join [c] l ++ [c].
Proof.
  intros c. induction l as [|a l IH]; intros N; [contradiction|]. destruct l as [|b l]; [cbn; now rewrite ?app_nil_r|]. change ((a :: b :: l) ++ [[]]) with (a :: b :: (l ++ [[]])). rewrite !join_cons. change (b :: l ++ [[]]) with ((b :: l) ++ [[]]). rewrite IH by discriminate. now rewrite <- !app_assoc.
Qed.
Lemma split_join : forall c l, l <> [] -> Forall (fun t => ~ In c t) l -> last l [] <> [] -> split [c] (TextSpec.join [c] l) = Ok l.
Proof.
  intros c l NE F LE. unfold split. destruct (split_spec c (length (TextSpec.join [c] l)) (TextSpec.join [c] l) (Nat.le_refl _)) as (m & E & G & J & NM & _). rewrite E. f_equal.
  assert (NJ : TextSpec.join [c] l <> []).
  { destruct l as [|a [|b r]]; [contradiction|exact LE|]. rewrite join_cons. destruct a; discriminate. }
  specialize (NM NJ). destruct J as [J|J].
  - now apply (join_inj c).
  - exfalso. apply LE. rewrite <- join_snoc in J by exact NM. apply join_inj in J; [rewrite <- J; apply last_last| |assumption| |assumption].
    + apply Forall_app. split; [exact G|]. constructor; [intros []|constructor].
    + intros X. now apply app_eq_nil in X as [_ X].
Qed.

(** * Metrics *)
Section Met.
  Variable F : Type.
  Variable json_int : text -> res Z.
  Variable json_floats : text -> res F.
  Definition name_shown (name : text) (mn : list text) : Prop :=
    Forall (fun t => ~ In 47%N t) mn /\ (TextSpec.join (lit "/") mn = name \/ TextSpec.join (lit "/") mn ++ lit "/" = name) /\ split (lit "/") name = Ok mn.
  Definition head_shown (pn : text) (m : metric) (h : head) : Prop := h_ts h = x_time m /\ h_pn h = pn /\ name_shown (x_name m) (h_mn h).
  Definition kind_in (l : list mkind) (m : metric) : bool :=
    existsb (fun k => match k, x_kind m with MkCounter, MkCounter | MkStatistic, MkStatistic | MkStringList, MkStringList | MkAttribute, MkAttribute | MkOther, MkOther => true | _, _ => false end) l.
  Definition upto_met pn (l : list metric) (d : met_dto F) : Prop :=
    Forall2 (fun m y => head_shown pn m (fst y) /\ snd y = x_value m) (filter (kind_in [MkAttribute; MkStringList]) l) (y_attributes F d) /\
    Forall2 (fun m y => head_shown pn m (fst y) /\ json_int (x_value m) = Ok (snd y)) (filter (kind_in [MkCounter]) l) (y_counters F d) /\
    Forall2 (fun m y => head_shown pn m (fst y) /\ json_floats (x_value m) = Ok (snd y)) (filter (kind_in [MkStatistic]) l) (y_statistics F d) /\
    Forall (fun m => x_kind m <> MkOther) l.
  Lemma split_slash : forall s, exists l, split (lit "/") s = Ok l /\ name_shown s l.
  Proof.
    intros s. destruct (split_spec 47%N (length s) s (Nat.le_refl _)) as (l & A & B & C & _). exists l. split; [exact A|]. split; [exact B|]. split; [exact C|exact A].
  Qed.
  Lemma metrics_ok : forall pn l d, metrics_dto F json_int json_floats pn l = Ok d -> upto_met pn l d.
  Proof.
    intros pn l d H. apply (foldM_ok _ _ _ _ H (fun l d => upto_met pn l d)); [repeat split; constructor|]. clear. intros l m d1 d2 (A & B & C & D) E. unfold metric_step in E.
    destruct (split_slash (x_name m)) as (mn & S & N). rewrite S in E. cbn [bind] in E.
    assert (HS : head_shown pn m (mkHead (x_time m) pn mn)) by (repeat split; [apply N|apply N|exact S]).
    unfold upto_met. rewrite !filter_snoc. unfold kind_in at 2 4 6. cbn [existsb].
    assert (FN : x_kind m <> MkOther -> Forall (fun m => x_kind m <> MkOther) (l ++ [m])) by (intros X; apply Forall_app; split; [exact D|]; constructor; [exact X|constructor]).
    destruct (x_kind m); cbn [orb]; rewrite ?app_nil_r.
    - apply bind_ok in E. destruct E as (v & V & E). injection E as <-. cbn. repeat split; auto; [|apply FN; discriminate]. apply Forall2_snoc; auto.
    - apply bind_ok in E. destruct E as (v & V & E). injection E as <-. cbn. repeat split; auto; [|apply FN; discriminate]. apply Forall2_snoc; auto.
    - injection E as <-. cbn. repeat split; auto; [|apply FN; discriminate]. apply Forall2_snoc; auto.
    - injection E as <-. cbn. repeat split; auto; [|apply FN; discriminate]. apply Forall2_snoc; auto.
    - discriminate.
  Qed.
  Definition metric_fine (m : metric) : Prop :=
    match x_kind m with MkCounter => exists v, json_int (x_value m) = Ok v | MkStatistic => exists v, json_floats (x_value m) = Ok v | MkOther => False | _ => True end.
  Lemma metrics_total : forall pn l, (exists d, metrics_dto F json_int json_floats pn l = Ok d) <-> Forall metric_fine l.
  Proof.
    intros pn l. split.
    - intros (d & H). apply (foldM_ok _ _ _ _ H (fun l d => Forall metric_fine l)); [constructor|]. clear. intros l m d1 d2 A E. apply Forall_app. split; [exact A|]. constructor; [|constructor].
      unfold metric_step in E. unfold metric_fine. destruct (split_slash (x_name m)) as (mn & S & N). rewrite S in E. cbn [bind] in E. destruct (x_kind m); try exact I; try discriminate;
        apply bind_ok in E; destruct E as (v & V & _); eauto.
    - intros H. unfold metrics_dto. apply foldM_total. intros m d I. rewrite Forall_forall in H. specialize (H m I). unfold metric_fine in H. unfold metric_step.
      destruct (split_slash (x_name m)) as (mn & S & N). rewrite S. cbn [bind]. destruct (x_kind m); try (destruct H as (v & V); rewrite V; cbn); eauto; contradiction.
  Qed.
  (** * The worker *)
  Lemma worker_ok : forall yaml l sent ok, worker yaml F json_int json_floats l = (sent, ok) ->
    exists pre post, l = pre ++ post /\ Forall2 (fun u q => to_request yaml F json_int json_floats u = Ok q) pre sent /\
      (if ok : bool then post = [] else exists u r, post = u :: r /\ forall q, to_request yaml F json_int json_floats u <> Ok q).
  Proof.
    intros yaml. induction l as [|u l IH]; intros sent ok H; cbn in H.
    - injection H as <- <-. exists [], []. repeat split; constructor.
    - destruct (to_request yaml F json_int json_floats u) as [q| |] eqn:E; [destruct (worker yaml F json_int json_floats l) as [s o] eqn:W|..].
      + injection H as <- <-. destruct (IH _ _ eq_refl) as (pre & post & -> & A & B). exists (u :: pre), post. repeat split; auto.
      + injection H as <- <-. exists [], (u :: l). repeat split; [constructor|]. exists u, l. split; [reflexivity|]. intros q. now rewrite E.
      + injection H as <- <-. exists [], (u :: l). repeat split; [constructor|]. exists u, l. split; [reflexivity|]. intros q. now rewrite E.
  Qed.
End Met.
