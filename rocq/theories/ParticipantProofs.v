From Coq Require Import String Ascii NArith ZArith List Bool Lia Permutation Sorted.
From Verif Require Import Base TextModel YamlModel YamlProofs ParticipantModel.
Import ListNotations.
Open Scope Z_scope.
Open Scope list_scope.

Definition registered (l : list act) : list desc := flat_map (fun a => match a with Registered d => [d] | _ => [] end) l.
Definition announced (l : list act) : list desc := flat_map (fun a => match a with Announced d => [d] | _ => [] end) l.
Definition logs (l : list act) (s : st) : st :=
  mkSt (s_ctrls s) (s_next s) (s_life s) (s_mon s) (s_sysc s) (s_netsim s) (s_sync s) (s_sinks s) (s_log s ++ l).
Definition added (k : kind) (d : desc) (s : st) : st :=
  mkSt (s_ctrls s ++ [(k, d)]) ((s_next s + 1) mod 2 ^ 64)%N (s_life s) (s_mon s) (s_sysc s) (s_netsim s) (s_sync s) (s_sinks s) (s_log s ++ [Registered d; Announced d]).
Definition mismatch (a : act) : Prop := match a with Mismatch _ => True | _ => False end.
Definition quiet (a : act) : Prop := match a with Registered _ | Announced _ => False | _ => True end.

Lemma kind_eqb_eq : forall a b, kind_eqb a b = true <-> a = b.
Proof. intros a b. unfold kind_eqb. destruct (kind_eq_dec a b); split; congruence. Qed.
Lemma is_nil_eq : forall A (l : list A), is_nil l = true <-> l = [].
Proof. intros A [|x l]; cbn; split; congruence. Qed.
Lemma st_eta : forall s, mkSt (s_ctrls s) (s_next s) (s_life s) (s_mon s) (s_sysc s) (s_netsim s) (s_sync s) (s_sinks s) (s_log s) = s.
Proof. now intros []. Qed.
Lemma logs_nil : forall s, logs [] s = s.
Proof. intros s. unfold logs. rewrite app_nil_r. apply st_eta. Qed.
Lemma logs_logs : forall l l' s, logs l' (logs l s) = logs (l ++ l') s.
Proof. intros. unfold logs. cbn. now rewrite app_assoc. Qed.
Lemma log_logs : forall a s, log a s = logs [a] s.
Proof. reflexivity. Qed.
Lemma exists_in : forall k n s, exists_ k n s = true <-> exists d, In (k, d) (s_ctrls s) /\ d_name d = n.
Proof.
  intros k n s. unfold exists_. rewrite existsb_exists. split.
  - intros [[k' d] [H E]]. apply andb_true_iff in E. destruct E as [E1 E2]. cbn [fst snd] in E1, E2. apply kind_eqb_eq in E1. apply text_eqb_eq in E2.
    subst k'. eauto.
  - intros [d [H E]]. exists (k, d). split; [exact H|]. cbn. apply andb_true_iff. split; [now apply kind_eqb_eq|now apply text_eqb_eq].
Qed.
Lemma exists_logs : forall l k n s, exists_ k n (logs l s) = exists_ k n s. Proof. reflexivity. Qed.

(** the services a participant has after it has joined *)
Definition core : list (kind * string) :=
  [(KController, "SystemController"%string); (KDiscovery, "ServiceDiscovery"%string); (KReqRep, "RequestReplyService"%string);
   (KLifecycle, "LifecycleService"%string); (KTimeSync, "TimeSyncService"%string); (KMonitor, "SystemMonitor"%string)].
Definition Ready (s : st) : Prop := forall k n, In (k, n) core -> exists_ k (lit n) s = true.

Lemma ready_more : forall s s', Ready s -> incl (s_ctrls s) (s_ctrls s') -> Ready s'.
Proof.
  intros s s' R H k n K. specialize (R k n K). apply exists_in in R. destruct R as [d [A B]]. apply exists_in. exists d. auto.
Qed.

Section Step.
  Variable c : pcfg.
  Variable srt : list label -> list label.

  Lemma update_shape : forall A (eqb : A -> A -> bool) n conf passed s, exists l,
    update eqb n conf passed s = (logs l s, Some (match conf with Some v => v | None => passed end)) /\ Forall mismatch l.
  Proof.
    intros A eqb n [v|] passed s; unfold update, bnd, when, upd, ret.
    - destruct (negb (eqb v passed)).
      + exists [Mismatch n]. rewrite log_logs. split; [reflexivity|]. repeat constructor.
      + exists []. rewrite logs_nil. split; [reflexivity|constructor].
    - exists []. rewrite logs_nil. split; [reflexivity|constructor].
  Qed.
  Definition sink_act (d : desc) (sinks : list text) (n : text) : act :=
    match sink_index 0 n sinks with Some i => SinkAdded d i | None => NoSink (d_name d) n end.
  Lemma add_sinks_shape : forall d use s, add_sinks d use s = (logs (map (sink_act d (s_sinks s)) use) s, Some tt).
  Proof.
    intros d use. unfold add_sinks. induction use as [|n use IH]; intros s.
    - cbn. now rewrite logs_nil.
    - cbn [each]. unfold bnd at 1.
      assert (E : (match sink_index 0 n (s_sinks s) with Some i => upd (log (SinkAdded d i)) s | None => upd (log (NoSink (d_name d) n)) s end)
                  = (logs [sink_act d (s_sinks s) n] s, Some tt)) by (unfold sink_act; destruct (sink_index 0 n (s_sinks s)); reflexivity).
      rewrite E, IH. cbn [s_sinks logs map]. rewrite logs_logs. reflexivity.
  Qed.
  Lemma quiet_sink_act : forall d sinks use, Forall quiet (map (sink_act d sinks) use).
  Proof. intros d sinks use. apply Forall_forall. intros a H. apply in_map_iff in H. destruct H as [n [<- _]]. unfold sink_act. destruct (sink_index 0 n sinks); exact I. Qed.

  Lemma create_ready : forall k n net supp s, Ready s ->
    create c k n net supp s = if is_nil n || exists_ k n s then (s, None)
                              else let d := mkDesc (p_name c) net n (nettype k) (s_next s) (internal k) supp in (added k d s, Some d).
  Proof.
    intros k n net supp s R. unfold create, bnd at 1, create0, throw. destruct (is_nil n); cbn [orb]; [reflexivity|].
    destruct (exists_ k n s) eqn:E; [reflexivity|]. unfold bnd, ret. cbn [s_ctrls s_next s_life s_mon s_sysc s_netsim s_sync s_sinks s_log log].
    unfold get_discovery.
    match goal with |- context [exists_ KDiscovery (lit "ServiceDiscovery") ?x] => assert (D : exists_ KDiscovery (lit "ServiceDiscovery") x = true) end.
    { assert (R' : Ready (mkSt (s_ctrls s ++ [(k, mkDesc (p_name c) net n (nettype k) (s_next s) (internal k) supp)]) ((s_next s + 1) mod 2 ^ 64)%N (s_life s) (s_mon s) (s_sysc s) (s_netsim s) (s_sync s) (s_sinks s)
        (s_log s ++ [Registered (mkDesc (p_name c) net n (nettype k) (s_next s) (internal k) supp)]))).
      { eapply ready_more; [exact R|]. cbn. apply incl_appl, incl_refl. }
      apply R'. cbn. tauto. }
    rewrite D. unfold ret, upd, log, added. cbn [s_ctrls s_next s_life s_mon s_sysc s_netsim s_sync s_sinks s_log]. rewrite <- !app_assoc. reflexivity.
  Qed.
  Lemma get_ready : forall k s, Ready s -> get c k s = (s, Some tt).
  Proof.
    intros k s R. assert (G : forall k n, In (k, n) core -> exists_ k (lit n) s = true) by exact R.
    destruct k; try reflexivity; unfold get, get_or_create, get_lifecycle, get_discovery;
      (rewrite (G _ "LifecycleService"%string) || rewrite (G _ "SystemMonitor"%string) || rewrite (G _ "SystemController"%string)
       || rewrite (G _ "RequestReplyService"%string) || rewrite (G _ "ServiceDiscovery"%string)); try reflexivity; cbn; tauto.
  Qed.

  (** What a call is for *)
  Inductive target := TNamed (k : kind) (n : text) | TLife | TSync | TMon | TSysc | TNetSim | TNone.
  Definition target_of (o : op) : target :=
    match o with
    | OBus b n _ => TNamed (bus_kind b) n | OPub n _ _ _ => TNamed KPub n | OSub n _ => TNamed KSub n | OSubInt _ _ u => TNamed KSubInt u
    | OClient n _ _ => TNamed KClient n | OServer n _ => TNamed KServer n | OServerInt _ _ u => TNamed KServerInt u
    | OLifecycle _ => TLife | OTimeSync => TSync | OMonitor => TMon | OController => TSysc | ONetSim => TNetSim | OGet _ => TNone
    end.
  Definition set_flag (t : target) (s : st) : st :=
    match t with
    | TLife => mkSt (s_ctrls s) (s_next s) true (s_mon s) (s_sysc s) (s_netsim s) (s_sync s) (s_sinks s) (s_log s)
    | TMon => mkSt (s_ctrls s) (s_next s) (s_life s) true (s_sysc s) (s_netsim s) (s_sync s) (s_sinks s) (s_log s)
    | TSysc => mkSt (s_ctrls s) (s_next s) (s_life s) (s_mon s) true (s_netsim s) (s_sync s) (s_sinks s) (s_log s)
    | TNetSim => mkSt (s_ctrls s) (s_next s) (s_life s) (s_mon s) (s_sysc s) true (s_sync s) (s_sinks s) (s_log s)
    | _ => s
    end.
  (** the first entry of the configuration with that name *)
  Definition entry {A} (name_of : A -> text) (l : list A) (n : text) : option A := find (fun x => text_eqb (name_of x) n) l.
  Definition labels_ok (sp : spec) : Prop := Forall (fun x => ml_kind x = 1 \/ ml_kind x = 2) (sp_labels sp).
  (** what has to hold of the arguments and the configuration *)
  Definition acceptable (o : op) : Prop :=
    match o with
    | OPub n sp h _ => (h <= 1)%N /\ labels_ok sp /\ (forall x z, entry sv_name (p_pubs c) n = Some x -> sv_history x = Some z -> z <= 1)
    | OSub _ sp | OServer _ sp | OClient _ sp _ => labels_ok sp
    | OLifecycle v => v = true
    | _ => True
    end.
  Definition taken (t : target) (s : st) : bool :=
    match t with TNamed k n => is_nil n || exists_ k n s | TLife => s_life s | TMon => s_mon s | TSysc => s_sysc s | TNetSim => s_netsim s | TSync => s_sync s | TNone => false end.

  Lemma from_public_ok : forall l, (ml_kind l = 1 \/ ml_kind l = 2) -> exists x, from_public l = Ok x.
  Proof. intros [k v z] [H|H]; cbn in H; subst z; cbn; eauto. Qed.
  Lemma from_public_all : forall l, (Forall (fun x => ml_kind x = 1 \/ ml_kind x = 2) l /\ exists v, mapM from_public l = Ok v) \/
    (~ Forall (fun x => ml_kind x = 1 \/ ml_kind x = 2) l /\ mapM from_public l = Exn).
  Proof.
    induction l as [|x l IH]; [left; cbn; split; [constructor|eauto]|]. cbn [mapM]. unfold from_public at 1 3.
    destruct (Z.eqb_spec (ml_kind x) 2) as [E|E].
    - cbn [bind]. destruct IH as [[F [v ->]]|[F ->]]; cbn [bind]; [left; split; [constructor; auto|eauto]|right]. split; [|reflexivity].
      intros G. apply F. now inversion G.
    - destruct (Z.eqb_spec (ml_kind x) 1) as [E1|E1].
      + cbn [bind]. destruct IH as [[F [v ->]]|[F ->]]; cbn [bind]; [left; split; [constructor; auto|eauto]|right]. split; [|reflexivity].
        intros G. apply F. now inversion G.
      + right. cbn [bind]. split; [|reflexivity]. intros G. inversion G; subst. tauto.
  Qed.
  Lemma lift_labels : forall sp s, (labels_ok sp /\ exists v, mapM from_public (sp_labels sp) = Ok v /\ lift (mapM from_public (sp_labels sp)) s = (s, Some v)) \/
    (~ labels_ok sp /\ lift (mapM from_public (sp_labels sp)) s = (s, None)).
  Proof.
    intros sp s. destruct (from_public_all (sp_labels sp)) as [[F [v E]]|[F E]]; rewrite E; [left|right]; split; auto. eexists. split; reflexivity.
  Qed.

  (** the labels of a service before they are sorted *)
  Definition conf_labels (l : list svc) (n : text) (sp : spec) : list label :=
    match entry sv_name l n with Some x => match sv_labels x with Some v => v | None => match mapM from_public (sp_labels sp) with Ok v => v | _ => [] end end
                               | None => match mapM from_public (sp_labels sp) with Ok v => v | _ => [] end end.
  Definition conf_topic (l : list svc) (n : text) (sp : spec) : text :=
    match entry sv_name l n with Some x => match sv_topic x with Some v => v | None => sp_topic sp end | None => sp_topic sp end.
  Definition conf_net (b : bus) (n net : text) : text :=
    match entry ct_name (bus_config c b) n with Some x => match ct_net x with Some v => v | None => net end | None => net end.
  Definition conf_history (n : text) (h : N) : Z :=
    match entry sv_name (p_pubs c) n with Some x => match sv_history x with Some v => v | None => Z.of_N h end | None => Z.of_N h end.
  Definition final_labels (l : list label) : list mlabel := fold_left add_label (map to_public (srt l)) [].
  (** network and supplemental data of the service a call makes *)
  Definition made (o : op) : text * list (string * sval) :=
    match o with
    | OBus b n net => (conf_net b n net, ctype (bus_type b))
    | OPub n sp _ u => (u, ctype "DataPublisher" ++ [("PubSub::topic"%string, SText (conf_topic (p_pubs c) n sp)); ("PubSub::pubUUID"%string, SText u);
                             ("PubSub::pubMediaType"%string, SText (sp_media sp)); ("PubSub::pubLabels"%string, SLabels (final_labels (conf_labels (p_pubs c) n sp)))])
    | OSub n sp => (default, ctype "DataSubscriber" ++ [("PubSub::topic"%string, SText (conf_topic (p_subs c) n sp)); ("PubSub::subMediaType"%string, SText (sp_media sp));
                             ("PubSub::subLabels"%string, SLabels (final_labels (conf_labels (p_subs c) n sp)))])
    | OSubInt p l _ => (l, ctype "DataSubscriberInternal" ++ [("PubSub::subIntParentServiceId"%string, SText (decimal p))])
    | OClient n sp u => (u, ctype "RpcClient" ++ [("Rpc::client::functionName"%string, SText (conf_topic (p_clients c) n sp)); ("Rpc::client::mediaType"%string, SText (sp_media sp));
                               ("Rpc::client::labels"%string, SLabels (final_labels (conf_labels (p_clients c) n sp))); ("Rpc::client::UUID"%string, SText u)])
    | OServer n sp => (default, ctype "RpcServer" ++ [("Rpc::server::functionName"%string, SText (conf_topic (p_servers c) n sp)); ("Rpc::server::mediaType"%string, SText (sp_media sp));
                               ("Rpc::server::labels"%string, SLabels (final_labels (conf_labels (p_servers c) n sp)))])
    | OServerInt p cl _ => (cl, ctype "RpcServerInternal" ++ [("Rpc::serverinternal::clientUUID"%string, SText cl); ("Rpc::serverinternal::parentServiceId"%string, SText (decimal p))])
    | _ => ([], [])
    end.
  Definition uses {A} (name_of : A -> text) (sinks : A -> list text) (l : list A) (n : text) : list text := match entry name_of l n with Some x => sinks x | None => [] end.
  Definition extra (o : op) (d : desc) (sinks : list text) : list act :=
    match o with
    | OBus b n _ => map (sink_act d sinks) (uses ct_name ct_sinks (bus_config c b) n)
    | OPub n _ h _ => HistoryLength d (Z.to_N (conf_history n h)) :: map (sink_act d sinks) (uses sv_name sv_sinks (p_pubs c) n)
    | OSub n _ => map (sink_act d sinks) (uses sv_name sv_sinks (p_subs c) n)
    | _ => []
    end.

  Inductive Step (o : op) (s : st) : st * option (option desc) -> Prop :=
  | SFail l : Forall mismatch l -> (~ acceptable o \/ taken (target_of o) s = true) -> Step o s (logs l s, None)
  | SNew k n l : target_of o = TNamed k n -> acceptable o -> taken (target_of o) s = false -> Forall mismatch l ->
      (let d := mkDesc (p_name c) (fst (made o)) n (nettype k) (s_next s) (internal k) (snd (made o)) in
       Step o s (logs (extra o d (s_sinks s)) (added k d (logs l s)), Some (Some d)))
  | SFlag : (forall k n, target_of o <> TNamed k n) -> target_of o <> TSync -> acceptable o -> taken (target_of o) s = false -> Step o s (set_flag (target_of o) s, Some None)
  | SSync d a b : o = OTimeSync -> s_sync s = false -> s_ctrls s = a ++ (KTimeSync, d) :: b -> (forall x, In x a -> fst x <> KTimeSync) ->
      Step o s (mkSt (s_ctrls s) (s_next s) (s_life s) (s_mon s) (s_sysc s) (s_netsim s) true (s_sinks s) (s_log s ++ [Registered d]), Some None).

  Lemma entry_name : forall A (f : A -> text) l n x, entry f l n = Some x -> f x = n.
  Proof. intros A f l n x H. apply find_some in H. now apply text_eqb_eq. Qed.
  Lemma by_name_entry : forall A (f : A -> text) r l n, by_name f r l n = match entry f l n with Some x => x | None => r end.
  Proof. reflexivity. Qed.
  Lemma find_first : forall A (f : A -> bool) l x, find f l = Some x -> exists a b, l = a ++ x :: b /\ (forall y, In y a -> f y = false) /\ f x = true.
  Proof.
    induction l as [|y l IH]; intros x H; [discriminate|]. cbn in H. destruct (f y) eqn:E.
    - injection H as ->. exists [], l. repeat split; auto. intros z [].
    - destruct (IH x H) as (a & b & -> & A1 & A2). exists (y :: a), b. repeat split; auto. intros z [<-|Z]; auto.
  Qed.

  Lemma mk_fail : forall o s l x, x = (logs l s, None) -> Forall mismatch l -> (~ acceptable o \/ taken (target_of o) s = true) -> Step o s x.
  Proof. intros. subst. now apply SFail. Qed.
  Lemma mk_new : forall o s x k n l d, target_of o = TNamed k n -> acceptable o -> taken (target_of o) s = false -> Forall mismatch l ->
    d = mkDesc (p_name c) (fst (made o)) n (nettype k) (s_next s) (internal k) (snd (made o)) ->
    x = (logs (extra o d (s_sinks s)) (added k d (logs l s)), Some (Some d)) -> Step o s x.
  Proof. intros. subst. now apply SNew. Qed.

  Lemma ready_logs : forall l s, Ready s -> Ready (logs l s). Proof. intros l s R. exact R. Qed.
  Lemma entry_none_nil : forall A (f : A -> text) l n x, match entry f l n with Some y => f y | None => x end = match entry f l n with Some y => n | None => x end.
  Proof. intros. destruct (entry f l n) eqn:E; [now apply entry_name in E|reflexivity]. Qed.

  Lemma merge_shape : forall l n sp s, exists m,
    (labels_ok sp /\ Forall mismatch m /\ merge srt n (svc_named l n) sp s = (logs m s, Some (conf_topic l n sp, final_labels (conf_labels l n sp)))) \/
    (~ labels_ok sp /\ Forall mismatch m /\ merge srt n (svc_named l n) sp s = (logs m s, None)).
  Proof.
    intros l n sp s. unfold merge, svc_named. rewrite by_name_entry.
    set (x := match entry sv_name l n with Some x => x | None => mkSvc n None None None [] replay0 end).
    destruct (update_shape _ text_eqb n (sv_topic x) (sp_topic sp) s) as [m1 [E1 F1]]. unfold bnd. rewrite E1.
    destruct (lift_labels sp (logs m1 s)) as [[Hl [v [E2 E3]]]|[Hl E3]]; rewrite E3.
    - destruct (update_shape _ (list_eqb label_eqb) n (sv_labels x) v (logs m1 s)) as [m2 [E4 F4]]. rewrite E4, logs_logs.
      exists (m1 ++ m2). left. split; [exact Hl|]. split; [now apply Forall_app|]. unfold ret. f_equal. f_equal. unfold conf_topic, conf_labels, final_labels. rewrite E2.
      subst x. destruct (entry sv_name l n) as [y|]; reflexivity.
    - exists m1. right. split; [exact Hl|]. split; [exact F1|reflexivity].
  Qed.
  Lemma svc_named_name : forall l n, sv_name (svc_named l n) = n.
  Proof. intros. unfold svc_named. rewrite by_name_entry. destruct (entry sv_name l n) eqn:E; [now apply entry_name in E|reflexivity]. Qed.
  Lemma svc_named_sinks : forall l n, sv_sinks (svc_named l n) = uses sv_name sv_sinks l n.
  Proof. intros. unfold svc_named, uses. rewrite by_name_entry. now destruct (entry sv_name l n). Qed.

  Lemma step_shape : forall o s, Ready s -> Step o s (step c srt o s).
  Proof.
    intros o s R. destruct o as [b n net|n sp h u|n sp|p l u|n sp u|n sp|p cl u|v| | | | |k]; unfold step.
    - rewrite by_name_entry. set (x := match entry ct_name (bus_config c b) n with Some x => x | None => mkCtrl n None [] replay0 end).
      destruct (update_shape _ text_eqb n (ct_net x) net s) as [m [E F]]. unfold bnd at 1. rewrite E.
      assert (N : ct_name x = n) by (subst x; destruct (entry ct_name (bus_config c b) n) eqn:En; [now apply entry_name in En|reflexivity]).
      unfold bnd at 1. rewrite create_ready by exact R. rewrite N, exists_logs. destruct (is_nil n || exists_ (bus_kind b) n s) eqn:T.
      + eapply mk_fail; [reflexivity|exact F|]. right. exact T.
      + unfold bnd, ret. cbv zeta. rewrite add_sinks_shape. eapply mk_new with (l := m); [reflexivity|exact I|exact T|exact F|reflexivity|].
        cbn [made fst snd extra s_sinks added logs s_next]. unfold conf_net, uses. subst x. destruct (entry ct_name (bus_config c b) n); reflexivity.
    - destruct (N.ltb_spec 1 h) as [H|H].
      { eapply mk_fail with (l := []); [now rewrite logs_nil|constructor|]. left. cbn. intros [A _]. lia. }
      assert (P1 : forall A (f : svc -> option A) d, match f (svc_named (p_pubs c) n) with Some v => v | None => d end
        = match entry sv_name (p_pubs c) n with Some x => match f x with Some v => v | None => d end | None => match f (mkSvc n None None None [] replay0) with Some v => v | None => d end end).
      { intros A f d. unfold svc_named. rewrite by_name_entry. now destruct (entry sv_name (p_pubs c) n). }
      destruct (update_shape _ text_eqb n (sv_topic (svc_named (p_pubs c) n)) (sp_topic sp) s) as [m1 [E1 F1]]. unfold bnd at 1. rewrite E1.
      destruct (update_shape _ Z.eqb n (sv_history (svc_named (p_pubs c) n)) (Z.of_N h) (logs m1 s)) as [m2 [E2 F2]]. unfold bnd at 1. rewrite E2, logs_logs.
      unfold bnd at 1. destruct (lift_labels sp (logs (m1 ++ m2) s)) as [[Hl [v [E3 E4]]]|[Hl E4]]; rewrite E4.
      2:{ eapply mk_fail with (l := m1 ++ m2); [reflexivity|now apply Forall_app|]. left. cbn. tauto. }
      destruct (update_shape _ (list_eqb label_eqb) n (sv_labels (svc_named (p_pubs c) n)) v (logs (m1 ++ m2) s)) as [m3 [E5 F5]]. unfold bnd at 1. rewrite E5, logs_logs.
      rewrite !P1. cbn [sv_history sv_topic sv_labels].
      fold (conf_topic (p_pubs c) n sp) (conf_history n h).
      assert (Fm : Forall mismatch ((m1 ++ m2) ++ m3)) by (repeat (apply Forall_app; split); auto).
      destruct (Z.ltb_spec 1 (conf_history n h)) as [Hh|Hh].
      { eapply mk_fail; [reflexivity|exact Fm|]. left. cbn. intros [_ [_ A]]. unfold conf_history in Hh. destruct (entry sv_name (p_pubs c) n) as [x|] eqn:En; [|lia].
        destruct (sv_history x) as [z|] eqn:Ez; [|lia]. specialize (A x z eq_refl Ez). lia. }
      unfold bnd at 1. rewrite create_ready by exact R. rewrite svc_named_name, exists_logs. destruct (is_nil n || exists_ KPub n s) eqn:T.
      + eapply mk_fail; [reflexivity|exact Fm|]. right. exact T.
      + unfold bnd, ret, upd. cbv zeta. rewrite add_sinks_shape, log_logs, logs_logs, svc_named_sinks.
        eapply mk_new with (l := (m1 ++ m2) ++ m3); [reflexivity| |exact T|exact Fm|reflexivity|].
        * cbn. split; [lia|]. split; [exact Hl|]. intros x z Ex Ez. unfold conf_history in Hh. rewrite Ex, Ez in Hh. exact Hh.
        * unfold made, extra. cbn [fst snd]. unfold conf_labels at 1 2. rewrite E3. unfold final_labels, uses. cbn [s_sinks added logs app s_next].
          assert (L : (match entry sv_name (p_pubs c) n with Some x => match sv_labels x with Some v0 => v0 | None => v end | None => v end)
                     = conf_labels (p_pubs c) n sp) by (unfold conf_labels; now rewrite E3).
          unfold conf_labels. rewrite E3. reflexivity.
    - destruct (merge_shape (p_subs c) n sp s) as [m [[Hl [F E]]|[Hl [F E]]]]; unfold bnd at 1; rewrite E.
      + unfold bnd at 1. rewrite create_ready by exact R. rewrite svc_named_name, exists_logs. destruct (is_nil n || exists_ KSub n s) eqn:T.
        * eapply mk_fail; [reflexivity|exact F|right; exact T].
        * unfold bnd, ret. cbv zeta. rewrite add_sinks_shape, svc_named_sinks. eapply mk_new with (l := m); [reflexivity|exact Hl|exact T|exact F|reflexivity|]. reflexivity.
      + eapply mk_fail; [reflexivity|exact F|left; exact Hl].
    - unfold bnd at 1. rewrite create_ready by exact R. destruct (is_nil u || exists_ KSubInt u s) eqn:T.
      + eapply mk_fail with (l := []); [now rewrite logs_nil|constructor|right; exact T].
      + eapply mk_new with (l := []); [reflexivity|exact I|exact T|constructor|reflexivity|]. cbn [extra]. rewrite !logs_nil. reflexivity.
    - destruct (merge_shape (p_clients c) n sp s) as [m [[Hl [F E]]|[Hl [F E]]]]; unfold bnd at 1; rewrite E.
      + unfold bnd at 1. rewrite create_ready by exact R. rewrite svc_named_name, exists_logs. destruct (is_nil n || exists_ KClient n s) eqn:T.
        * eapply mk_fail; [reflexivity|exact F|right; exact T].
        * eapply mk_new with (l := m); [reflexivity|exact Hl|exact T|exact F|reflexivity|]. cbn [extra]. rewrite (logs_nil (added _ _ _)). reflexivity.
      + eapply mk_fail; [reflexivity|exact F|left; exact Hl].
    - destruct (merge_shape (p_servers c) n sp s) as [m [[Hl [F E]]|[Hl [F E]]]]; unfold bnd at 1; rewrite E.
      + unfold bnd at 1. rewrite create_ready by exact R. rewrite svc_named_name, exists_logs. destruct (is_nil n || exists_ KServer n s) eqn:T.
        * eapply mk_fail; [reflexivity|exact F|right; exact T].
        * eapply mk_new with (l := m); [reflexivity|exact Hl|exact T|exact F|reflexivity|]. cbn [extra]. rewrite (logs_nil (added _ _ _)). reflexivity.
      + eapply mk_fail; [reflexivity|exact F|left; exact Hl].
    - unfold bnd at 1. rewrite create_ready by exact R. destruct (is_nil u || exists_ KServerInt u s) eqn:T.
      + eapply mk_fail with (l := []); [now rewrite logs_nil|constructor|right; exact T].
      + eapply mk_new with (l := []); [reflexivity|exact I|exact T|constructor|reflexivity|]. cbn [extra]. rewrite !logs_nil. reflexivity.
    - destruct v; cbn [negb].
      + destruct (s_life s) eqn:T; [eapply mk_fail with (l := []); [now rewrite logs_nil|constructor|right; exact T]|].
        unfold bnd, upd, ret. rewrite get_ready by exact R. apply (SFlag (OLifecycle true)); [discriminate|discriminate|reflexivity|exact T].
      + eapply mk_fail with (l := []); [now rewrite logs_nil|constructor|left; cbn; discriminate].
    - destruct (s_sync s) eqn:T; [eapply mk_fail with (l := []); [now rewrite logs_nil|constructor|right; exact T]|].
      unfold bnd, upd, ret.
      destruct (find (fun x => kind_eqb (fst x) KTimeSync) (s_ctrls s)) as [[k d]|] eqn:Fi.
      + destruct (find_first _ _ _ _ Fi) as (a & b & Es & A1 & A2). cbn in A2. apply kind_eqb_eq in A2. subst k.
        eapply (SSync OTimeSync s d a b); auto. intros y Y. specialize (A1 y Y). intros E. apply kind_eqb_eq in E. congruence.
      + exfalso. assert (X : exists_ KTimeSync (lit "TimeSyncService") s = true) by (apply R; cbn; tauto). apply exists_in in X. destruct X as [d [X _]].
        eapply find_none in Fi; [|exact X]. cbn in Fi. discriminate.
    - destruct (s_mon s) eqn:T; [eapply mk_fail with (l := []); [now rewrite logs_nil|constructor|right; exact T]|].
      unfold bnd, upd, ret. rewrite get_ready by exact R. apply (SFlag OMonitor); [discriminate|discriminate|exact I|exact T].
    - destruct (s_sysc s) eqn:T; [eapply mk_fail with (l := []); [now rewrite logs_nil|constructor|right; exact T]|].
      unfold bnd, upd, ret. rewrite get_ready by exact R. apply (SFlag OController); [discriminate|discriminate|exact I|exact T].
    - destruct (s_netsim s) eqn:T; [eapply mk_fail with (l := []); [now rewrite logs_nil|constructor|right; exact T]|].
      unfold bnd, upd, ret. apply (SFlag ONetSim); [discriminate|discriminate|exact I|exact T].
    - unfold bnd, ret. rewrite get_ready by exact R. apply (SFlag (OGet k)); [discriminate|discriminate|exact I|reflexivity].
  Qed.
End Step.
