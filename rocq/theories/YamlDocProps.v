From Coq Require Import String Ascii NArith ZArith List Bool Lia.
From Verif Require Import Base TextModel TextProofs UriProofs YamlModel YamlProofs YamlRound YamlMore YamlDoc YamlProps.
Import ListNotations.
Open Scope string_scope.
Open Scope list_scope.
Open Scope Z_scope.

(** * C71: a configuration holds what its document says *)
(** ** Enumerations: the names and what they stand for *)
(** read exactly by the names, and refused otherwise *)
Definition reads_names {A} (rd : node -> A -> res A) (tbl : list (string * A)) : Prop :=
  forall n cur, (forall v, rd n cur = Ok v <-> named tbl n v) /\ (rd n cur = Exn <-> forall s v, In (s, v) tbl -> ~ says n s).
Ltac by_names :=
  intros n cur;
  lazymatch goal with |- (forall v, ?r = Ok v <-> named ?tbl n v) /\ _ =>
    assert (E : r = pick tbl n) by (cbv beta delta [r_level r_channel r_clock r_txmode r_stype r_sformat r_mtype r_dir r_lkind r_tktype r_tctype r_aggr] ; cbn [pick levels channels clocks txmodes stypes sformats mtypes dirs lkinds tktypes tctypes aggrs];
      repeat match goal with |- context [is_str n ?s] => destruct (is_str n s); cbn [orb]; try reflexivity end);
    rewrite E; split; [apply pick_ok; apply no_dups_str; vm_compute; reflexivity|apply pick_exn]
  end.
Theorem C71_enumerations :
  reads_names r_level levels /\ reads_names r_channel channels /\ reads_names r_clock clocks /\ reads_names r_txmode txmodes /\ reads_names r_stype stypes /\
  reads_names r_sformat sformats /\ reads_names r_mtype mtypes /\ reads_names r_dir dirs /\ reads_names r_lkind lkinds /\ reads_names r_tktype tktypes /\
  reads_names r_tctype tctypes /\ reads_names r_aggr aggrs.
Proof. repeat match goal with |- _ /\ _ => split end; by_names. Qed.
Print Assumptions C71_enumerations.
Example C71_enumerations_ex : r_level (plain (lit "Warn")) LOff = Ok LWarn /\ r_level (plain (lit "warn")) LOff = Exn /\ r_dir NNull DSend = Ok DUndefined.
Proof. repeat split; vm_compute; reflexivity. Qed.
(** Topics: upper and lower case are the same. *)
Theorem C71_topics : forall q s cur v, r_topic (NVal q s) cur = Ok v <-> exists name, In (name, v) topics /\ same_letters s (lit name).
Proof. exact topic_iff. Qed.
Print Assumptions C71_topics.
Example C71_topics_ex : r_topic (plain (lit "sErvicedIscovery")) 0%N = Ok 5%N /\ r_topic (plain (lit "foo")) 0%N = Exn.
Proof. split; vm_compute; reflexivity. Qed.

(** ** Booleans and the other bases of integers *)
Theorem C71_booleans : (forall s cur, In s ["1"; "true"; "True"; "TRUE"] -> r_bool (plain (lit s)) cur = Ok true) /\ (forall s cur, In s ["0"; "false"; "False"; "FALSE"] -> r_bool (plain (lit s)) cur = Ok false) /\
  (forall z cur, r_bool (write_int z) cur = if hi I32 <? Z.abs z then UB else Ok (negb (z =? 0))).
Proof.
  split; [|split].
  - intros s cur I. cbn [In] in I. repeat (destruct I as [<-|I]; [vm_compute; reflexivity|]). destruct I.
  - intros s cur I. cbn [In] in I. repeat (destruct I as [<-|I]; [vm_compute; reflexivity|]). destruct I.
  - intros z cur. destruct (Z.eq_dec z 0) as [->|Z0]; [vm_compute; reflexivity|]. destruct (Z.eq_dec z 1) as [->|Z1]; [vm_compute; reflexivity|].
    pose proof (read_int_any I32 z) as R. unfold read_int in R. cbn [signed] in R. unfold r_bool, read_bool.
    assert (A : exists s, arith false (write_int z) = Some s /\ scan_int true s = Some (z <? 0, Z.to_N (Z.abs z)) /\ write_int z = plain s).
    { rewrite write_int_eq. destruct (int_text_cons z) as (c & r & E & P). exists (int_text z). unfold arith, plain. rewrite E, P. cbn [andb]. rewrite <- E. split; [reflexivity|]. split; [|reflexivity].
      rewrite scan_int_any. now rewrite andb_false_r. }
    destruct A as (s & A & SC & W). rewrite A in *. rewrite SC in *.
    assert (NS : forall w, In w ["0"; "1"; "false"; "False"; "FALSE"; "true"; "True"; "TRUE"] -> text_eqb s (lit w) = false).
    { intros w I. destruct (text_eqb s (lit w)) eqn:E; [|reflexivity]. exfalso. apply text_eqb_eq in E. subst s. cbn [In] in I.
      destruct I as [<-|[<-|I]].
      - change (scan_int true (lit "0")) with (Some (false, 0%N)) in SC. injection SC as S1 S2. lia.
      - change (scan_int true (lit "1")) with (Some (false, 1%N)) in SC. injection SC as S1 S2. lia.
      - repeat (destruct I as [<-|I]; [vm_compute in SC; discriminate|]). destruct I. }
    rewrite !NS by (cbn; tauto). cbn [orb]. rewrite R. destruct (hi I32 <? Z.abs z); reflexivity.
Qed.
Print Assumptions C71_booleans.
Example C71_booleans_ex : r_bool (plain (lit "yes")) true = Exn /\ r_bool (write_int 2) false = Ok true.
Proof. split; vm_compute; reflexivity. Qed.
(** Digits after 0x, 0o and 0b are those of a number in that base; the range is checked as for decimal numbers. *)
Definition prefixes : list (string * N) := [("0x", 16); ("0X", 16); ("0o", 8); ("0O", 8); ("0b", 2); ("0B", 2)]%N.
Theorem C71_other_bases : forall t p b up ds, In (p, b) prefixes -> ds <> [] -> Forall (fun d => (d < b)%N) ds ->
  let v := Z.of_N (fold_left (fun a d => a * b + d)%N ds 0%N) in
  read_checked t (plain (lit p ++ map (digit_char up) ds)) = if v <=? hi t then Ok v else Exn.
Proof.
  intros t p b up ds I NE F. cbv zeta.
  assert (B : (b <= 16)%N) by (cbn [prefixes In] in I; repeat (destruct I as [[= <- <-]|I]; [lia|]); destruct I).
  assert (DG : forall d, (d < b)%N -> digit_of b (digit_char up d) = Some d).
  { intros d H. unfold digit_of, digit_char. destruct (d <? 10)%N eqn:T.
    - replace ((48 <=? 48 + d)%N && (48 + d <=? 57)%N) with true by lia. replace (48 + d - 48)%N with d by lia. now replace (d <? b)%N with true by lia.
    - destruct up.
      + replace ((48 <=? 55 + d)%N && (55 + d <=? 57)%N) with false by lia. replace ((97 <=? 55 + d)%N && (55 + d <=? 102)%N) with false by lia.
        replace ((65 <=? 55 + d)%N && (55 + d <=? 70)%N) with true by lia. replace (55 + d - 55)%N with d by lia. now replace (d <? b)%N with true by lia.
      + replace ((48 <=? 87 + d)%N && (87 + d <=? 57)%N) with false by lia. replace ((97 <=? 87 + d)%N && (87 + d <=? 102)%N) with true by lia.
        replace (87 + d - 87)%N with d by lia. now replace (d <? b)%N with true by lia. }
  assert (RD : forall ds acc, Forall (fun d => (d < b)%N) ds -> read_digits b acc (map (digit_char up) ds) = Some (fold_left (fun a d => a * b + d)%N ds acc)).
  { induction ds0 as [|d r IH]; intros acc G; [reflexivity|]. inversion G; subst. cbn [map read_digits fold_left]. rewrite DG by assumption. now apply IH. }
  assert (M : magnitude (lit p ++ map (digit_char up) ds) = Some (fold_left (fun a d => a * b + d)%N ds 0%N)).
  { rewrite <- RD by exact F. destruct ds as [|d r]; [now elim NE|]. cbn [prefixes In] in I. repeat (destruct I as [[= <- <-]|I]; [reflexivity|]). destruct I. }
  set (x := fold_left _ ds 0%N) in *. assert (SC : scan_int (signed t) (lit p ++ map (digit_char up) ds) = Some (false, x)).
  { unfold scan_int. cbn [prefixes In] in I. repeat (destruct I as [[= <- <-]|I]; [cbn [lit list_ascii_of_string map app] in *; now rewrite M|]). destruct I. }
  unfold read_checked, plain. rewrite SC. unfold fits, value, conv, lo, hi. cbn [fst snd]. destruct (signed t).
  - pose proof (Z.pow_pos_nonneg 2 (bits t - 1)) as PP. assert (0 <= bits t - 1) by (destruct t; cbn; lia). replace (- 2 ^ (bits t - 1) <=? Z.of_N x) with true by lia. cbn [andb].
    destruct (Z.of_N x <=? 2 ^ (bits t - 1) - 1) eqn:E; [|reflexivity]. now replace (2 ^ (bits t - 1) - 1 <? Z.of_N x) with false by lia.
  - replace (0 <=? Z.of_N x) with true by lia. cbn [andb]. destruct (Z.of_N x <=? 2 ^ bits t - 1) eqn:E; [|reflexivity]. rewrite Z.mod_small by lia. reflexivity.
Qed.
Print Assumptions C71_other_bases.
Example C71_other_bases_ex : read_checked I32 (plain (lit "0x1F")) = Ok 31 /\ read_checked U8 (plain (lit "0o400")) = Exn /\ read_checked U8 (plain (lit "0b101")) = Ok 5.
Proof. repeat split; vm_compute; reflexivity. Qed.

(** ** Whole documents *)
(** Every setting of a document that is read is held in the configuration, lists completely and in their order; what is not in the document has
    its default; required elements are there ([document_is] in YamlDoc.v spells this out for every element). *)
Theorem C71_configuration_holds_the_document : forall D n c, deserialize D n = Ok c -> document_is D n c.
Proof. exact deserialize_is. Qed.
Print Assumptions C71_configuration_holds_the_document.
Example C71_configuration_holds_the_document_ex : exists c, deserialize exD (serialize exD ex_cfg) = Ok c /\ document_is exD (serialize exD ex_cfg) c /\ p_can c <> [].
Proof. exists ex_cfg. assert (H : deserialize exD (serialize exD ex_cfg) = Ok ex_cfg) by (vm_compute; reflexivity). split; [exact H|]. split; [now apply C71_configuration_holds_the_document|discriminate]. Qed.
(** The registry's configuration likewise; nothing in it is remote. *)
Theorem C71_registry_holds_the_document : forall n c, r_rcfg n rcfg0 = Ok c -> registry_is n c.
Proof. exact registry_read_is. Qed.
Print Assumptions C71_registry_holds_the_document.
Example C71_registry_holds_the_document_ex :
  (exists c, r_rcfg (NMap [("ListenUri", plain (lit "silkit://a")); ("Experimental", NMap [("Metrics", NMap [("Sinks", NSeq [NMap [("Type", plain (lit "JsonFile"))]])])])]) rcfg0 = Ok c /\ rc_listen c = Some (lit "silkit://a") /\ me_sinks (rc_metrics c) <> []) /\
  r_rcfg (NMap [("Experimental", NMap [("Metrics", NMap [("Sinks", NSeq [NMap [("Type", plain (lit "Remote"))]])])])]) rcfg0 = Exn.
Proof. split; [eexists; split; [vm_compute; reflexivity|split; [reflexivity|discriminate]]|vm_compute; reflexivity]. Qed.
(** In particular: a document without a required element, or with an element under two of its names, is refused. *)
Theorem C71_required_elements : forall D n c, deserialize D n = Ok c ->
  (forall k m, In k ["CanControllers"; "LinControllers"; "EthernetControllers"; "FlexrayControllers"; "FlexRayControllers"; "DataPublishers"; "DataSubscribers"; "RpcServers"; "RpcClients"] ->
     In m (walk n [K k; Each]) -> walk m [K "Name"] <> []) /\
  (forall m, In m (walk n [K "Tracing"; K "TraceSinks"; Each]) -> walk m [K "Name"] <> [] /\ walk m [K "Type"] <> [] /\ walk m [K "OutputPath"] <> []) /\
  (forall m, In m (walk n [K "Tracing"; K "TraceSources"; Each]) -> walk m [K "Name"] <> [] /\ walk m [K "Type"] <> [] /\ walk m [K "InputPath"] <> []) /\
  (forall m, In m (walk n [K "Logging"; K "Sinks"; Each]) -> (exists t, In t (walk m [K "Type"]) /\ says t "File") -> walk m [K "LogName"] <> []).
Proof.
  intros D n c H. apply deserialize_is in H. destruct H as (_ & _ & _ & _ & H1 & H2 & H3 & H4 & _ & H5 & H6 & H7 & H8 & H9 & _ & H10 & _).
  assert (P : forall (A : Type) (R : node -> A -> Prop) ns vs m, Forall2 R ns vs -> In m ns -> exists v, R m v).
  { intros A R ns vs m F. induction F as [|x y l l' E F IH]; intros I; [destruct I|]. destruct I as [<-|I]; [now exists y|auto]. }
  assert (M : forall (A : Type) ns (R : node -> A -> Prop) v, must ns R v -> ns <> []) by (intros A ns R v (m & -> & _); discriminate).
  split; [|split; [|split]].
  - intros k m I J. cbn [In] in I.
    repeat (destruct I as [<-|I];
      [first [destruct (P _ _ _ _ m H1 J) as (v & V & _)|destruct (P _ _ _ _ m H2 J) as (v & V & _)|destruct (P _ _ _ _ m H3 J) as (v & V & _)
             |destruct (P _ _ _ _ m H4 (in_or_app _ _ _ (or_introl J))) as (v & (V & _) & _)|destruct (P _ _ _ _ m H4 (in_or_app _ _ _ (or_intror J))) as (v & (V & _) & _)
             |destruct (P _ _ _ _ m H5 J) as (v & V & _)|destruct (P _ _ _ _ m H6 J) as (v & V & _)|destruct (P _ _ _ _ m H7 J) as (v & V & _)|destruct (P _ _ _ _ m H8 J) as (v & V & _)]; eapply M; exact V|]). destruct I.
  - intros m J. rewrite walk_cons in J. destruct (walk n [K "Tracing"]) as [|t [|]]; cbn in H10; [destruct J| |destruct H10]. cbn [flat_map] in J. rewrite app_nil_r in J.
    destruct H10 as [H10 _]. destruct (P _ _ _ _ m H10 J) as (v & V1 & V2 & V3). repeat split; eapply M; eassumption.
  - intros m J. rewrite walk_cons in J. destruct (walk n [K "Tracing"]) as [|t [|]]; cbn in H10; [destruct J| |destruct H10]. cbn [flat_map] in J. rewrite app_nil_r in J.
    destruct H10 as [_ H10]. destruct (P _ _ _ _ m H10 J) as (v & V1 & V2 & V3). repeat split; eapply M; eassumption.
  - intros m J (t & T & F). rewrite walk_cons in J. destruct (walk n [K "Logging"]) as [|x [|]]; cbn in H9; [destruct J| |destruct H9]. cbn [flat_map] in J. rewrite app_nil_r in J.
    destruct H9 as (_ & _ & H9). destruct (P _ _ _ _ m H9 J) as (v & V1 & _ & _ & _ & _ & V2).
    destruct (walk m [K "Type"]) as [|y [|]]; cbn in V1; [destruct T| |destruct V1]. destruct T as [->|[]]. destruct V1 as (s & I & S). pose proof (says_inj _ _ _ F S) as <-.
    cbn in I. destruct I as [[= E]|[[= E]|[[= E]|[[= E]|[]]]]]. rewrite <- E in V2. eapply M; exact V2.
Qed.
Print Assumptions C71_required_elements.
Theorem C71_one_of_two_names : forall D n c, deserialize D n = Ok c ->
  (walk n [K "FlexrayControllers"] = [] \/ walk n [K "FlexRayControllers"] = []) /\
  (forall k m, In k ["RpcServers"; "RpcClients"] -> In m (walk n [K k; Each]) -> (length (walk m [K "FunctionName"] ++ walk m [K "Channel"] ++ walk m [K "RpcChannel"]) <= 1)%nat).
Proof.
  intros D n c H. apply deserialize_is in H. destruct H as (_ & _ & _ & _ & _ & _ & _ & _ & H4 & _ & _ & H7 & H8 & _). split; [exact H4|].
  assert (P : forall (A : Type) (R : node -> A -> Prop) ns vs m, Forall2 R ns vs -> In m ns -> exists v, R m v).
  { intros A R ns vs m F. induction F as [|x y l l' E F IH]; intros I; [destruct I|]. destruct I as [<-|I]; [now exists y|auto]. }
  assert (L : forall m v, rpc_is m v -> (length (walk m [K "FunctionName"] ++ walk m [K "Channel"] ++ walk m [K "RpcChannel"]) <= 1)%nat).
  { intros m v (_ & V & _). assert (G : forall (A B : Type) (R : A -> B -> Prop) x y, Forall2 R x y -> length x = length y) by (induction 1; cbn; congruence). rewrite (G _ _ _ _ _ V). destruct (sv_topic v); cbn; lia. }
  intros k m [<-|[<-|[]]] J; [destruct (P _ _ _ _ m H7 J) as (v & V)|destruct (P _ _ _ _ m H8 J) as (v & V)]; eapply L; exact V.
Qed.
Print Assumptions C71_one_of_two_names.
Example C71_one_of_two_names_ex :
  deserialize exD (NMap [("RpcClients", NSeq [NMap [("Name", plain (lit "C")); ("FunctionName", plain (lit "F")); ("Channel", plain (lit "F"))]])]) = Exn /\
  deserialize exD (NMap [("CanControllers", NSeq [NMap [("Network", plain (lit "C"))]])]) = Exn /\
  exists c, deserialize exD (NMap [("RpcClients", NSeq [NMap [("Name", plain (lit "C")); ("RpcChannel", plain (lit "F"))]])]) = Ok c /\ map sv_topic (p_clients c) = [Some (lit "F")].
Proof. split; [vm_compute; reflexivity|]. split; [vm_compute; reflexivity|]. eexists. split; [vm_compute; reflexivity|reflexivity]. Qed.
