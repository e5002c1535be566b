(** Round trips of the messages with optional fields or protocol versions, and of whole framed messages. *)
From Coq Require Import List NArith ZArith Bool Lia Sorted.
From Verif Require Import Base MessageBufferModel MessageBufferSpec MessageBufferProofs SerdesModel SerdesSpec SerdesProofs.
Import ListNotations.
Local Open Scope N_scope.

(** ** Messages with special treatment *)

Lemma flagbyte_bits : forall r c p, p < 64 ->
  let f := N.b2n r + 2 * N.b2n c + 4 * p in
  is_u 1 f /\ N.odd f = r /\ N.odd (f / 2) = c /\ f / 4 = p.
Proof.
  intros r c p Hp f. subst f.
  replace (N.b2n r + 2 * N.b2n c + 4 * p) with (N.b2n r + 2 * (N.b2n c + 2 * p)) by lia.
  assert (Hd : (N.b2n r + 2 * (N.b2n c + 2 * p)) / 2 = N.b2n c + 2 * p).
  { symmetry. apply N.div_unique with (r := N.b2n r); destruct r, c; cbn [N.b2n]; lia. }
  repeat split.
  - unfold is_u. change (256 ^ N.of_nat 1) with 256. destruct r, c; cbn [N.b2n]; lia.
  - rewrite <- N.bit0_odd. rewrite N.add_comm. apply N.testbit_0_r.
  - rewrite Hd, <- N.bit0_odd, N.add_comm. apply N.testbit_0_r.
  - symmetry. apply N.div_unique with (r := N.b2n r + 2 * N.b2n c); destruct r, c; cbn [N.b2n]; lia.
Qed.

Lemma rtne_CanSetControllerMode : forall m, wf_CanSetControllerMode m ->
  roundtrips_ne (ser_CanSetControllerMode m) des_CanSetControllerMode m.
Proof.
  intros [r c p md] [Hp Hm]. cbn in Hp, Hm.
  destruct (flagbyte_bits r c p Hp) as (Hu & H1 & H2 & H3).
  unfold ser_CanSetControllerMode, des_CanSetControllerMode, csm_flagbyte.
  cbn [csm_resetErrorHandling csm_cancelTransmitRequests csm_padding csm_mode].
  eapply rtne_bind_l; [apply rtne_u8; exact Hu|].
  eapply rt_last; [apply rtne_rt, rtne_i32; exact Hm|].
  cbv beta. rewrite H1, H2, H3. reflexivity.
Qed.
Lemma safe_CanSetControllerMode : safe_decoder des_CanSetControllerMode.
Proof. safe_record. Qed.

(** Optional trailing fields. *)
Lemma remaining_ne : forall pre bs post wp, bs <> [] ->
  (0 <? remaining (mkMbuf (pre ++ bs ++ post) wp (length pre)))%nat = true.
Proof.
  intros pre bs post wp H. unfold remaining. cbn [storage rpos].
  destruct bs as [|x bs]; [easy|]. rewrite !app_length. cbn [length].
  destruct (Nat.ltb_spec (length pre + (S (length bs) + length post)) (length pre)); [lia|].
  apply Nat.ltb_lt. lia.
Qed.
Lemma remaining_end : forall pre wp, remaining (mkMbuf pre wp (length pre)) = 0%nat.
Proof. intros. unfold remaining. cbn [storage rpos]. rewrite Nat.ltb_irrefl. lia. Qed.

Lemma rtne_if_remaining : forall A w (f g : R A) a,
  roundtrips_ne w f a -> roundtrips_ne w (r_if_remaining f g) a.
Proof.
  intros A w f g a (bs & Hne & Hw & Hr). exists bs. split; [exact Hne|]. split; [exact Hw|].
  intros pre post wp. unfold r_if_remaining. rewrite remaining_ne by exact Hne. apply Hr.
Qed.

Lemma rt_at_end : forall A w (r : R A) a, roundtrips w r a -> roundtrips_at_end w r a.
Proof.
  intros A w r a (bs & Hw & Hr). exists bs. split; [exact Hw|].
  intros pre wp. specialize (Hr pre [] wp). rewrite app_nil_r in Hr. exact Hr.
Qed.

Lemma rt_end_default : forall A B (f : R A) (d : A) (k : A -> R B) b,
  roundtrips_at_end w_skip (k d) b ->
  roundtrips_at_end w_skip (r_bind (r_if_remaining f (r_ret d)) k) b.
Proof.
  intros A B f d k b (bs & Hw & Hr). exists bs. split; [exact Hw|].
  assert (Hnil : bs = []).
  { specialize (Hw [] 0%nat). unfold w_skip in Hw. cbn in Hw. inversion Hw. reflexivity. }
  subst bs. intros pre wp. specialize (Hr pre wp). rewrite app_nil_r in *.
  unfold r_bind, r_if_remaining. rewrite remaining_end. cbn [Nat.ltb Nat.leb r_ret bind fst snd]. exact Hr.
Qed.

Lemma rt_end_ret : forall A (a b : A), a = b -> roundtrips_at_end w_skip (r_ret a) b.
Proof. intros. subst. apply rt_at_end, rt_ret. Qed.

Lemma rt_end_bind : forall A B (w1 w2 : W) (r : R A) (k : A -> R B) a b,
  roundtrips w1 r a -> roundtrips_at_end w2 (k a) b -> roundtrips_at_end (w_seq w1 w2) (r_bind r k) b.
Proof.
  intros A B w1 w2 r k a b (bs1 & Hw1 & Hr1) (bs2 & Hw2 & Hr2).
  exists (bs1 ++ bs2). split.
  - intros st rp. unfold w_seq. rewrite Hw1, bind_ok, Hw2, !app_assoc. reflexivity.
  - intros pre wp. unfold r_bind. rewrite Hr1, bind_ok. cbn [fst snd].
    specialize (Hr2 (pre ++ bs1) wp). rewrite !app_length, <- !app_assoc in Hr2.
    rewrite Hr2. rewrite app_length. f_equal. f_equal. f_equal. lia.
Qed.

(** the last written field, followed by reads of defaults *)
Lemma rt_end_last : forall A B (w1 : W) (r : R A) (k : A -> R B) a b,
  roundtrips w1 r a -> roundtrips_at_end w_skip (k a) b -> roundtrips_at_end w1 (r_bind r k) b.
Proof.
  intros A B w1 r k a b H1 H2. destruct (rt_end_bind _ _ _ _ _ _ _ _ H1 H2) as (bs & Hw & Hr).
  exists bs. split; [|exact Hr]. intros st rp. specialize (Hw st rp).
  unfold w_seq, w_skip in Hw. destruct (w1 (mkMbuf st (length st) rp)); exact Hw.
Qed.

Ltac rt_leaf' := first [ rt_leaf | apply rtne_if_remaining; rt_leaf ].

Lemma rtne_LinControllerConfig : forall m, wf_LinControllerConfig m ->
  roundtrips_ne (ser_LinControllerConfig m) des_LinControllerConfig m.
Proof.
  intros [a b c d] [Ha Hb Hc Hd]. cbn in *. unfold ser_LinControllerConfig, des_LinControllerConfig. cbn.
  eapply rtne_bind_l; [rt_leaf|]. eapply rt_bind; [apply rtne_rt; rt_leaf|].
  eapply rt_bind; [apply rtne_rt; rt_leaf|].
  eapply rt_last; [apply rtne_rt, rtne_if_remaining; rt_leaf|reflexivity].
Qed.
Lemma end_LinControllerConfig : forall m, wf_LinControllerConfig m ->
  roundtrips_at_end (old_ser_LinControllerConfig m) des_LinControllerConfig
    (mkLinControllerConfig (lcc_controllerMode m) (lcc_baudRate m) (lcc_frameResponses m) 0).
Proof.
  intros [a b c d] [Ha Hb Hc Hd]. cbn in *. unfold old_ser_LinControllerConfig, des_LinControllerConfig. cbn.
  eapply rt_end_bind; [apply rtne_rt; rt_leaf|]. eapply rt_end_bind; [apply rtne_rt; rt_leaf|].
  eapply rt_end_last; [apply rtne_rt; rt_leaf|].
  apply rt_end_default. now apply rt_end_ret.
Qed.
Lemma safe_LinControllerConfig : safe_decoder des_LinControllerConfig.
Proof. safe_record. Qed.

Lemma rtne_FlexrayControllerConfig : forall m, wf_FlexrayControllerConfig m ->
  roundtrips_ne (ser_FlexrayControllerConfig m) des_FlexrayControllerConfig m.
Proof.
  intros [a b c d e] [Ha Hb Hc Hd He]. cbn in *.
  unfold ser_FlexrayControllerConfig, des_FlexrayControllerConfig. cbn.
  eapply rtne_bind_l; [rt_leaf|]. eapply rt_bind; [apply rtne_rt; rt_leaf|].
  eapply rt_bind; [apply rtne_rt; rt_leaf|].
  eapply rt_last with (a := (d, e)); [|reflexivity].
  apply rtne_rt, rtne_if_remaining.
  change (w_seq (w_u16 d) (w_u8 e)) with (w_pair w_u16 w_u8 (d, e)).
  apply rtne_pair; cbn [fst snd]; rt_leaf.
Qed.
Lemma end_FlexrayControllerConfig : forall m, wf_FlexrayControllerConfig m ->
  roundtrips_at_end (old_ser_FlexrayControllerConfig m) des_FlexrayControllerConfig
    (mkFlexrayControllerConfig (fcc_clusterParams m) (fcc_nodeParams m) (fcc_bufferConfigs m) 0 0).
Proof.
  intros [a b c d e] [Ha Hb Hc Hd He]. cbn in *.
  unfold old_ser_FlexrayControllerConfig, des_FlexrayControllerConfig. cbn.
  eapply rt_end_bind; [apply rtne_rt; rt_leaf|]. eapply rt_end_bind; [apply rtne_rt; rt_leaf|].
  eapply rt_end_last; [apply rtne_rt; rt_leaf|].
  apply rt_end_default. now apply rt_end_ret.
Qed.
Lemma safe_FlexrayControllerConfig : safe_decoder des_FlexrayControllerConfig.
Proof. safe_record. Qed.

Lemma rtne_timepoint : forall ns, is_i 8 ns -> roundtrips_ne (w_timepoint ns) r_timepoint (to_us ns).
Proof.
  intros ns H. unfold w_timepoint, r_timepoint. eapply rtne_last; [apply rtne_i64|reflexivity].
  unfold is_i in *. cbn [Z.of_nat] in *.
  change (8 * Z.pos (Pos.of_succ_nat 7) - 1)%Z with 63%Z in *.
  assert (H1 : (Z.abs (Z.quot ns 1000) <= Z.abs ns)%Z).
  { rewrite <- Z.quot_abs by lia. apply Z.quot_le_upper_bound; lia. }
  destruct (Z.eq_dec ns (- 2 ^ 63)) as [->|Hn]; [vm_compute; split; [discriminate|reflexivity]|].
  lia.
Qed.
#[export] Hint Resolve rtne_timepoint : rt.

Lemma to_us_exact : forall ns, (ns mod 1000 = 0)%Z -> to_us ns = ns.
Proof.
  intros ns H. unfold to_us. apply Z.mod_divide in H; [|lia]. destruct H as [k ->].
  rewrite Z.quot_mul; lia.
Qed.

Lemma rtne_ParticipantStatus : forall m, wf_ParticipantStatus m ->
  roundtrips_ne (ser_ParticipantStatus m) des_ParticipantStatus (ps_to_us m).
Proof.
  intros [a b c d e] [Ha Hb Hc Hd He]. cbn in *. unfold ser_ParticipantStatus, des_ParticipantStatus, ps_to_us. cbn.
  eapply rtne_bind_l; [rt_leaf|]. eapply rt_bind; [apply rtne_rt; rt_leaf|].
  eapply rt_bind; [apply rtne_rt; rt_leaf|]. eapply rt_bind; [apply rtne_rt; rt_leaf|].
  eapply rt_last; [apply rtne_rt; rt_leaf|reflexivity].
Qed.
Lemma safe_ParticipantStatus : safe_decoder des_ParticipantStatus.
Proof. safe_record. Qed.

Lemma rtne_SourceLoc : forall m, wf_SourceLoc m -> roundtrips_ne (ser_SourceLoc m) des_SourceLoc m.
Proof. rt_record. Qed.
#[export] Hint Resolve rtne_SourceLoc : rt.
Lemma safe_SourceLoc : safe_decoder des_SourceLoc.
Proof. safe_record. Qed.
#[export] Hint Resolve safe_SourceLoc : safe.

Lemma topic_roundtrip : forall t, t <= 22 \/ t = 4294967295 ->
  from_topic_string (topic_to_string t) = t /\ is_bytes (topic_to_string t).
Proof.
  intros t [H| ->]; [|split; [reflexivity|vm_compute; reflexivity]].
  assert (Hin : In t (map N.of_nat (seq 0 23))).
  { apply in_map_iff. exists (N.to_nat t). split; [lia|]. apply in_seq. lia. }
  revert t Hin H. cbn [seq map]. intros t Hin _.
  repeat (destruct Hin as [<-|Hin]; [split; [vm_compute; reflexivity|vm_compute; reflexivity]|]).
  destruct Hin.
Qed.

Lemma rtne_kvs : forall l, is_vec (fun p => is_bytes (fst p) /\ is_bytes (snd p)) l ->
  roundtrips_ne (w_vector (w_pair w_string w_string) l) (r_vector (r_pair r_string r_string)) l.
Proof.
  intros l H. eapply rtne_vec; [exact H|]. intros a [H1 H2]. apply rtne_pair; now apply rtne_string.
Qed.
#[export] Hint Resolve rtne_kvs : rt.

Lemma rtne_topic : forall t, t <= 22 \/ t = 4294967295 ->
  roundtrips_ne (w_string (topic_to_string t)) (r_bind r_string (fun s => r_ret (from_topic_string s))) t.
Proof.
  intros t H. destruct (topic_roundtrip t H) as [H1 H2].
  eapply rtne_last; [apply rtne_string; exact H2|exact H1].
Qed.

Lemma rtne_LogMsg : forall m, wf_LogMsg m -> roundtrips_ne (ser_LogMsg m) des_LogMsg (lm_to_us m).
Proof.
  intros [a b c d e f g] [Ha Hb Hc Hd He Hf Hg]. cbn in *. unfold ser_LogMsg, des_LogMsg, lm_to_us. cbn.
  eapply rtne_bind_l; [rt_leaf|]. eapply rt_bind; [apply rtne_rt; rt_leaf|].
  eapply rt_bind; [apply rtne_rt; rt_leaf|]. eapply rt_bind; [apply rtne_rt; rt_leaf|].
  eapply rt_bind; [apply rtne_rt; rt_leaf|].
  eapply rt_bind; [apply rtne_rt, rtne_if_remaining; rt_leaf|].
  eapply rt_last; [apply rtne_rt, rtne_if_remaining, rtne_topic; exact Hg|reflexivity].
Qed.
Lemma end1_LogMsg : forall m, wf_LogMsg m -> roundtrips_at_end (old1_ser_LogMsg m) des_LogMsg
  (mkLogMsg (lm_loggerName m) (lm_level m) (to_us (lm_time m)) (lm_source m) (lm_payload m) [] 0).
Proof.
  intros [a b c d e f g] [Ha Hb Hc Hd He Hf Hg]. cbn in *. unfold old1_ser_LogMsg, des_LogMsg. cbn.
  do 4 (eapply rt_end_bind; [apply rtne_rt; rt_leaf|]).
  eapply rt_end_last; [apply rtne_rt; rt_leaf|].
  apply rt_end_default, rt_end_default. now apply rt_end_ret.
Qed.
Lemma end2_LogMsg : forall m, wf_LogMsg m -> roundtrips_at_end (old2_ser_LogMsg m) des_LogMsg
  (mkLogMsg (lm_loggerName m) (lm_level m) (to_us (lm_time m)) (lm_source m) (lm_payload m) (lm_keyValues m) 0).
Proof.
  intros [a b c d e f g] [Ha Hb Hc Hd He Hf Hg]. cbn in *. unfold old2_ser_LogMsg, des_LogMsg. cbn.
  do 5 (eapply rt_end_bind; [apply rtne_rt; rt_leaf|]).
  eapply rt_end_last; [apply rtne_rt, rtne_if_remaining; rt_leaf|].
  apply rt_end_default. now apply rt_end_ret.
Qed.
Lemma safe_LogMsg : safe_decoder des_LogMsg.
Proof.
  unfold des_LogMsg. do 5 (apply safe_bind; [solve [eauto 4 with safe]|intro]).
  apply safe_bind; [apply safe_if_remaining; eauto 4 with safe|]. intro.
  apply safe_bind; [apply safe_if_remaining; [|apply safe_ret]|intro; apply safe_ret].
  apply safe_bind; [apply safe_string|]. intro. apply safe_ret.
Qed.

(** ** Registry messages *)
Lemma version_eqb_eq : forall a b, version_eqb a b = true <-> a = b.
Proof.
  intros [a1 a2] [b1 b2]. unfold version_eqb. cbn. rewrite andb_true_iff, !N.eqb_eq.
  split; [intros [-> ->]; reflexivity|]. intro H. inversion H. auto.
Qed.
Lemma version_eqb_neq : forall a b, a <> b -> version_eqb a b = false.
Proof.
  intros a b H. destruct (version_eqb a b) eqn:E; [|reflexivity]. apply version_eqb_eq in E. contradiction.
Qed.

Lemma rtne_ParticipantAnnouncement : forall v m, wf_ParticipantAnnouncement m ->
  header_version (pa_messageHeader m) <> v30 -> v <> v30 ->
  roundtrips_ne (ser_ParticipantAnnouncement m) (des_ParticipantAnnouncement v) m.
Proof.
  intros v [a b c] [Ha Hb Hc] Hh Hv. cbn in *.
  unfold ser_ParticipantAnnouncement, des_ParticipantAnnouncement. cbn [pa_messageHeader pa_peerInfo pa_simulationName].
  rewrite !version_eqb_neq by assumption.
  eapply rtne_bind_l; [rt_leaf|]. eapply rt_bind; [apply rtne_rt; rt_leaf|].
  eapply rt_last; [apply rtne_rt, rtne_if_remaining; rt_leaf|reflexivity].
Qed.
Lemma end_ParticipantAnnouncement : forall v m, wf_ParticipantAnnouncement m -> v <> v30 ->
  roundtrips_at_end (old_ser_ParticipantAnnouncement m) (des_ParticipantAnnouncement v)
    (mkParticipantAnnouncement (pa_messageHeader m) (pa_peerInfo m) []).
Proof.
  intros v [a b c] [Ha Hb Hc] Hv. cbn in *.
  unfold old_ser_ParticipantAnnouncement, des_ParticipantAnnouncement. cbn [pa_messageHeader pa_peerInfo].
  rewrite !version_eqb_neq by assumption.
  eapply rt_end_bind; [apply rtne_rt; rt_leaf|]. eapply rt_end_last; [apply rtne_rt; rt_leaf|].
  apply rt_end_default. now apply rt_end_ret.
Qed.

Lemma rtne_ParticipantAnnouncementReply : forall v m, wf_ParticipantAnnouncementReply m -> v <> v30 ->
  roundtrips_ne (ser_ParticipantAnnouncementReply v m) (des_ParticipantAnnouncementReply v) m.
Proof.
  intros v [a b c d] [Ha Hb Hc Hd] Hv. cbn in *.
  unfold ser_ParticipantAnnouncementReply, des_ParticipantAnnouncementReply.
  cbn [par_remoteHeader par_status par_subscribers par_diagnostic].
  rewrite !version_eqb_neq by assumption.
  eapply rtne_bind_l; [rt_leaf|]. eapply rt_bind; [apply rtne_rt; rt_leaf|].
  eapply rt_bind; [apply rtne_rt; rt_leaf|].
  eapply rt_last; [apply rtne_rt, rtne_if_remaining; rt_leaf|reflexivity].
Qed.
Lemma end_ParticipantAnnouncementReply : forall v m, wf_ParticipantAnnouncementReply m -> v <> v30 ->
  roundtrips_at_end (old_ser_ParticipantAnnouncementReply m) (des_ParticipantAnnouncementReply v)
    (mkParticipantAnnouncementReply (par_remoteHeader m) (par_status m) (par_subscribers m) []).
Proof.
  intros v [a b c d] [Ha Hb Hc Hd] Hv. cbn in *.
  unfold old_ser_ParticipantAnnouncementReply, des_ParticipantAnnouncementReply.
  cbn [par_remoteHeader par_status par_subscribers].
  rewrite !version_eqb_neq by assumption.
  do 2 (eapply rt_end_bind; [apply rtne_rt; rt_leaf|]). eapply rt_end_last; [apply rtne_rt; rt_leaf|].
  apply rt_end_default. now apply rt_end_ret.
Qed.

Lemma rtne_KnownParticipants : forall v m, wf_KnownParticipants m -> v <> v30 ->
  roundtrips_ne (ser_KnownParticipants v m) (des_KnownParticipants v) m.
Proof.
  intros v [a b] [Ha Hb] Hv. cbn in *. unfold ser_KnownParticipants, des_KnownParticipants.
  cbn [kp_messageHeader kp_peerInfos]. rewrite !version_eqb_neq by assumption.
  eapply rtne_bind_l; [rt_leaf|]. eapply rt_last; [apply rtne_rt; rt_leaf|reflexivity].
Qed.

Lemma rtne_ProxyMessage : forall v m, wf_ProxyMessage m -> version_ltb v v31 = false ->
  roundtrips_ne (ser_ProxyMessage v m) (des_ProxyMessage v) m.
Proof.
  intros v [a b c d] [Ha Hb Hc Hd] Hv. cbn in *.
  unfold ser_ProxyMessage, des_ProxyMessage, ser_ProxyMessageHeader, des_ProxyMessageHeader. rewrite Hv.
  cbn [pm_headerVersion pm_source pm_destination pm_payload].
  eapply rtne_bind_l; [rt_leaf|]. eapply rt_bind; [apply rtne_rt; rt_leaf|].
  eapply rt_bind; [apply rtne_rt; rt_leaf|].
  eapply rt_last; [apply rtne_rt; rt_leaf|reflexivity].
Qed.

Lemma safe_ParticipantAnnouncement : forall v, safe_decoder (des_ParticipantAnnouncement v).
Proof.
  intro v. unfold des_ParticipantAnnouncement, des30_ParticipantAnnouncement.
  destruct (version_eqb v v30); safe_steps.
Qed.
Lemma safe_ParticipantAnnouncementReply : forall v, safe_decoder (des_ParticipantAnnouncementReply v).
Proof.
  intro v. unfold des_ParticipantAnnouncementReply, des30_ParticipantAnnouncementReply.
  destruct (version_eqb v v30); safe_steps.
Qed.
Lemma safe_OldKnownParticipants : safe_decoder des_OldKnownParticipants.
Proof. safe_record. Qed.
#[export] Hint Resolve safe_OldKnownParticipants : safe.
Lemma safe_KnownParticipants : forall v, safe_decoder (des_KnownParticipants v).
Proof.
  intro v. unfold des_KnownParticipants, des30_KnownParticipants.
  destruct (version_eqb v v30); safe_steps.
Qed.
Lemma safe_ProxyMessage : forall v, safe_decoder (des_ProxyMessage v).
Proof.
  intro v. unfold des_ProxyMessage, des_ProxyMessageHeader.
  destruct (version_ltb v v31); safe_steps.
Qed.

(** Protocol 3.0. *)
Lemma wf_old_uri : forall p, wf_PeerInfo p -> wf_OldPeerUri (to_old_uri p).
Proof. intros [a b c d] [Ha Hb Hc Hd]. cbn in *. now constructor. Qed.
Lemma wf_old_header : wf_OldRegistryMsgHeader old_header.
Proof. constructor; vm_compute; reflexivity. Qed.
Lemma wf_old_subscriber : forall s, wf_MsgSubscriber s -> wf_OldMsgSubscriber (to_old_subscriber s).
Proof. intros [a b c d] [Ha Hb Hc Hd]. cbn in *. now constructor. Qed.
Lemma is_vec_map : forall A B (f : A -> B) (P : A -> Prop) (Q : B -> Prop) l,
  (forall a, P a -> Q (f a)) -> is_vec P l -> is_vec Q (map f l).
Proof.
  intros A B f P Q l Hf [H1 H2]. split; [unfold Nlen in *; now rewrite map_length|].
  apply Forall_map. eapply Forall_impl; [|exact H2]. exact Hf.
Qed.

Lemma rtne30_ParticipantAnnouncement : forall m, wf_ParticipantAnnouncement m ->
  roundtrips_ne (ser30_ParticipantAnnouncement m) des30_ParticipantAnnouncement (v30_announcement m).
Proof.
  intros [a b c] [Ha Hb Hc]. cbn in *.
  unfold ser30_ParticipantAnnouncement, des30_ParticipantAnnouncement, v30_announcement. cbn [pa_peerInfo].
  eapply rtne_last; [apply rtne_OldParticipantAnnouncement|reflexivity].
  constructor; cbn.
  - apply wf_old_header.
  - constructor; vm_compute; reflexivity.
  - now apply wf_old_uri.
Qed.

Lemma rtne30_ParticipantAnnouncementReply : forall m, wf_ParticipantAnnouncementReply m ->
  roundtrips_ne (ser30_ParticipantAnnouncementReply m) des30_ParticipantAnnouncementReply
    (mkParticipantAnnouncementReply (make_header v30) 1
      (map (fun s => of_old_subscriber (to_old_subscriber s)) (par_subscribers m)) []).
Proof.
  intros [a b c d] [Ha Hb Hc Hd]. cbn in *.
  unfold ser30_ParticipantAnnouncementReply, des30_ParticipantAnnouncementReply. cbn [par_subscribers].
  eapply rtne_last.
  - apply rtne_OldParticipantAnnouncementReply. constructor. cbn.
    eapply is_vec_map; [|exact Hc]. apply wf_old_subscriber.
  - cbn. now rewrite map_map.
Qed.

Lemma rtne30_KnownParticipants : forall m, wf_KnownParticipants m ->
  roundtrips_ne (ser30_KnownParticipants m) des30_KnownParticipants
    (mkKnownParticipants (make_header v30) (map (fun p => of_old_uri (to_old_uri p)) (kp_peerInfos m))).
Proof.
  intros [a b] [Ha Hb]. cbn in *.
  unfold ser30_KnownParticipants, des30_KnownParticipants. cbn [kp_peerInfos].
  eapply rtne_last with (a := mkOldKnownParticipants old_header [] (map to_old_uri b)).
  - unfold ser_OldKnownParticipants, des_OldKnownParticipants. cbn [okp_messageHeader okp_peerInfos okp_peerUris].
    eapply rtne_bind_l; [apply rtne_OldRegistryMsgHeader, wf_old_header|].
    eapply rt_bind; [apply rtne_rt; eapply rtne_vec with (P := wf_OldPeerInfo); [split; [vm_compute; reflexivity|constructor]|apply rtne_OldPeerInfo]|].
    eapply rt_last; [|reflexivity]. apply rtne_rt, rtne_if_remaining.
    eapply rtne_vec; [|apply rtne_OldPeerUri]. eapply is_vec_map; [|exact Hb]. apply wf_old_uri.
  - cbn. now rewrite map_map.
Qed.

(** ** SerializedMessage *)
Definition appends (w : W) (bs : list N) : Prop :=
  forall st rp, w (mkMbuf st (length st) rp) = Ok (mkMbuf (st ++ bs) (length (st ++ bs)) rp).

Lemma appends_seq : forall w1 w2 b1 b2, appends w1 b1 -> appends w2 b2 -> appends (w_seq w1 w2) (b1 ++ b2).
Proof. intros w1 w2 b1 b2 H1 H2 st rp. unfold w_seq. now rewrite H1, bind_ok, H2, !app_assoc. Qed.
Lemma appends_uint : forall n x, appends (w_uint n x) (le_bytes n x).
Proof. intros n x st rp. apply w_object_end. Qed.
Lemma appends_skip : appends w_skip [].
Proof. intros st rp. unfold w_skip. now rewrite app_nil_r. Qed.
Lemma appends_fun : forall w b1 b2, appends w b1 -> appends w b2 -> b1 = b2.
Proof. intros w b1 b2 H1 H2. specialize (H1 [] 0%nat). specialize (H2 [] 0%nat). rewrite H1 in H2. now inversion H2. Qed.

Lemma write_size : forall n rest,
  write_range 0 (le_bytes 4 n) (le_bytes 4 0 ++ rest) = Ok (le_bytes 4 n ++ rest).
Proof.
  intros n rest. unfold write_range. rewrite le_bytes_length, app_length, le_bytes_length.
  replace (0 + 4 <=? 4 + length rest)%nat with true by (symmetry; apply Nat.leb_le; lia).
  reflexivity.
Qed.

(** Bytes of the headers behind the size field. *)
Definition addr_bytes (a : EndpointAddress) : list N := le_bytes 8 (ea_participant a) ++ le_bytes 8 (ea_endpoint a).
Definition headers_bytes (kind rk idx : N) (addr : EndpointAddress) : list N :=
  le_bytes 1 kind ++ (if kind =? k_registry then le_bytes 1 rk else []) ++
  (if is_mw_or_sim kind then le_bytes 8 idx ++ addr_bytes addr else []).

Lemma appends_addr : forall a, appends (ser_EndpointAddress a) (addr_bytes a).
Proof. intro a. unfold ser_EndpointAddress, addr_bytes. apply appends_seq; apply appends_uint. Qed.

Lemma appends_headers : forall kind rk idx addr,
  appends (w_network_headers kind rk idx addr) (le_bytes 4 0 ++ headers_bytes kind rk idx addr).
Proof.
  intros. unfold w_network_headers, headers_bytes.
  repeat apply appends_seq; try apply appends_uint.
  - destruct (kind =? k_registry); [apply appends_uint|apply appends_skip].
  - destruct (is_mw_or_sim kind); [|apply appends_skip].
    apply appends_seq; [apply appends_uint|apply appends_addr].
Qed.

Lemma serialize_bytes : forall kind rk idx addr body bs, appends body bs ->
  let n := Nlen (headers_bytes kind rk idx addr ++ bs) + 4 in
  serialize_message kind rk idx addr body =
  if u32_max <? n then Exn else Ok (le_bytes 4 n ++ headers_bytes kind rk idx addr ++ bs).
Proof.
  intros kind rk idx addr body bs Hb n. unfold serialize_message.
  change mbuf_new with (mkMbuf [] (@length N []) 0).
  rewrite (appends_seq _ _ _ _ (appends_headers kind rk idx addr) Hb), bind_ok.
  unfold release_storage. cbn [storage]. cbn [app]. rewrite <- app_assoc.
  assert (Hn : Nlen (le_bytes 4 0 ++ headers_bytes kind rk idx addr ++ bs) = n).
  { unfold n, Nlen. rewrite (app_length (le_bytes 4 0)), le_bytes_length. lia. }
  rewrite Hn. destruct (u32_max <? n); [reflexivity|]. apply write_size.
Qed.

(** Reading at a given place. *)
Lemma rd : forall A w (r : R A) a bs, roundtrips w r a -> appends w bs ->
  forall pre post wp, r (mkMbuf (pre ++ bs ++ post) wp (length pre)) =
    Ok (a, mkMbuf (pre ++ bs ++ post) wp (length (pre ++ bs))).
Proof.
  intros A w r a bs (bs' & Hw & Hr) Ha pre post wp.
  rewrite (appends_fun w bs bs' Ha Hw), app_length. apply Hr.
Qed.

Lemma rd_u : forall k x pre post wp, (0 < k)%nat -> is_u k x ->
  r_uint k (mkMbuf (pre ++ le_bytes k x ++ post) wp (length pre)) =
    Ok (x, mkMbuf (pre ++ le_bytes k x ++ post) wp (length (pre ++ le_bytes k x))).
Proof. intros. eapply rd; [apply rtne_rt, rtne_uint; assumption|apply appends_uint]. Qed.

Lemma n_is_u4 : forall n, (u32_max <? n) = false -> is_u 4 n.
Proof. intros n H. apply is_u4. unfold u32_max in H. apply N.ltb_ge in H. change (2 ^ 32) with 4294967296. lia. Qed.

Lemma r_bind_step : forall A B (f : R A) (g : A -> R B) b a b', f b = Ok (a, b') -> r_bind f g b = g a b'.
Proof. intros A B f g b a b' H. unfold r_bind. rewrite H. reflexivity. Qed.

(** Parsing of a service message. *)
Lemma parse_service : forall n kind idx addr bs,
  is_mw_or_sim kind = true -> is_u 4 n -> is_u 8 idx -> wf_EndpointAddress addr ->
  let blob := le_bytes 4 n ++ headers_bytes kind rk_invalid idx addr ++ bs in
  parse_message blob =
  Ok (mkNetheader n kind rk_invalid (make_header current_version) 0 idx addr,
      mkMbuf (le_bytes 4 n ++ headers_bytes kind rk_invalid idx addr ++ bs) (length blob)
        (length (le_bytes 4 n ++ headers_bytes kind rk_invalid idx addr))).
Proof.
  intros n kind idx addr bs Hk Hn Hi Ha blob.
  assert (Hkk : kind = 3 \/ kind = 4).
  { unfold is_mw_or_sim in Hk. apply orb_true_iff in Hk. rewrite !N.eqb_eq in Hk. exact Hk. }
  assert (Hr : (kind =? k_registry) = false) by (unfold k_registry; apply N.eqb_neq; lia).
  assert (Hp : (kind =? k_proxy) = false) by (unfold k_proxy; apply N.eqb_neq; lia).
  unfold parse_message, mbuf_of, read_network_headers. fold blob.
  generalize (length blob) as wp. intro wp. unfold blob, headers_bytes. rewrite Hk, Hr. cbn [app].
  rewrite <- !app_assoc.
  erewrite r_bind_step; [|exact (rd_u 4 n [] _ wp ltac:(lia) Hn)].
  erewrite r_bind_step; [|eapply (rd_u 1 kind (le_bytes 4 n)); [lia|unfold is_u; cbn; lia]].
  rewrite ?Hr, ?Hp, ?Hk. unfold r_bind at 1. cbn [r_ret bind fst snd].
  unfold r_bind at 1. cbn [r_ret bind fst snd].
  unfold r_pair.
  assert (Hd : forall k, r_bind (r_bind r_u64 (fun a => r_bind des_EndpointAddress (fun b => r_ret (a, b)))) k
    (mkMbuf (le_bytes 4 n ++ le_bytes 1 kind ++ le_bytes 8 idx ++ addr_bytes addr ++ bs) wp
       (length (le_bytes 4 n ++ le_bytes 1 kind))) =
    (k (idx, addr) (mkMbuf (le_bytes 4 n ++ le_bytes 1 kind ++ le_bytes 8 idx ++ addr_bytes addr ++ bs) wp
       (length (le_bytes 4 n ++ le_bytes 1 kind ++ le_bytes 8 idx ++ addr_bytes addr))) : res (netheader * mbuf))).
  { intro k. apply r_bind_step.
    pose proof (rd _ (w_seq (w_u64 idx) (ser_EndpointAddress addr))
      (r_bind r_u64 (fun a => r_bind des_EndpointAddress (fun b => r_ret (a, b)))) (idx, addr)
      (le_bytes 8 idx ++ addr_bytes addr)) as H.
    specialize (fun H1 H2 => H H1 H2 (le_bytes 4 n ++ le_bytes 1 kind) bs wp).
    rewrite <- !app_assoc in H. apply H.
    - eapply rt_bind; [apply rtne_rt, rtne_u64; exact Hi|].
      eapply rt_last; [apply rtne_rt, rtne_EndpointAddress; exact Ha|reflexivity].
    - apply appends_seq; [apply appends_uint|apply appends_addr]. }
  rewrite Hd. reflexivity.
Qed.

Lemma remaining_here : forall l wp, remaining (mkMbuf l wp (length l)) = 0%nat.
Proof. intros. apply remaining_end. Qed.

Lemma delivered_rt : forall A kind idx addr w (r : R A) a,
  is_mw_or_sim kind = true -> is_u 8 idx -> wf_EndpointAddress addr -> roundtrips w r a ->
  delivered kind idx addr w r a.
Proof.
  intros A kind idx addr w r a Hk Hi Ha Hrt.
  pose proof Hrt as (bs & Hw & Hr). unfold delivered.
  rewrite (serialize_bytes kind rk_invalid idx addr w bs Hw).
  assert (Hl : length (headers_bytes kind rk_invalid idx addr) = 25%nat).
  { unfold headers_bytes, addr_bytes. rewrite Hk.
    assert (Hr5 : (kind =? k_registry) = false).
    { unfold is_mw_or_sim in Hk. apply orb_true_iff in Hk. rewrite !N.eqb_eq in Hk. unfold k_mw, k_sim, k_registry in *.
      apply N.eqb_neq. lia. }
    rewrite Hr5. rewrite !app_length, !le_bytes_length. reflexivity. }
  destruct (u32_max <? _) eqn:E.
  - exists (mkMbuf bs (length bs) 0). split; [apply (Hw [] 0%nat)|].
    cbn [storage]. unfold u32_max in E. apply N.ltb_lt in E. unfold Nlen in *. rewrite app_length, Hl in E.
    change (2 ^ 32) with 4294967296. lia.
  - rewrite parse_service; [|exact Hk|apply n_is_u4; exact E|exact Hi|exact Ha].
    set (hs := headers_bytes kind rk_invalid idx addr) in *.
    set (n := Nlen (hs ++ bs) + 4) in *.
    eexists _, _, _. split; [reflexivity|]. cbn [nh_size nh_kind nh_remoteIndex nh_address].
    split; [unfold n, Nlen; rewrite (app_length (le_bytes 4 _)), le_bytes_length; lia|].
    repeat (split; [reflexivity|]). split.
    + specialize (Hr (le_bytes 4 n ++ hs) [] (length (le_bytes 4 n ++ hs ++ bs))).
      rewrite app_nil_r, <- app_assoc in Hr. exact Hr.
    + unfold remaining. cbn [storage rpos]. rewrite !app_length. 
      destruct (Nat.ltb_spec (length (le_bytes 4 n) + (length hs + length bs)) (length (le_bytes 4 n) + length hs + length bs)); lia.
Qed.

(** Registry messages: the header is peeked. *)
Lemma hdr_bytes_length : forall h, length (hdr_bytes h) = 8%nat.
Proof. intro h. unfold hdr_bytes. now rewrite !app_length, !le_bytes_length. Qed.
Lemma appends_hdr : forall h, appends (ser_RegistryMsgHeader h) (hdr_bytes h).
Proof. intro h. unfold ser_RegistryMsgHeader, hdr_bytes. repeat apply appends_seq; apply appends_uint. Qed.
Lemma appends_old_hdr : appends (ser_OldRegistryMsgHeader old_header) (hdr_bytes (make_header v30)).
Proof.
  intros st rp. destruct (rtne_OldRegistryMsgHeader old_header wf_old_header) as (bs & _ & Hw & _).
  rewrite Hw. assert (H := Hw [] 0%nat). vm_compute in H. inversion H as [[H1 H2]]. reflexivity.
Qed.

Lemma peek_header : forall h pre post wp, wf_RegistryMsgHeader h ->
  peek_registry_header (mkMbuf (pre ++ hdr_bytes h ++ post) wp (length pre)) =
  Ok (h, mkMbuf (pre ++ hdr_bytes h ++ post) wp (length pre)).
Proof.
  intros h pre post wp Hh. unfold peek_registry_header. cbn [rpos storage].
  pose proof (read_range_mid _ pre (hdr_bytes h) post) as Hm. rewrite hdr_bytes_length in Hm. rewrite Hm, bind_ok.
  pose proof (rd _ _ _ _ _ (rtne_rt _ _ _ _ (rtne_RegistryMsgHeader h Hh)) (appends_hdr h) [] [] (length (hdr_bytes h))) as Hd.
  rewrite app_nil_r in Hd. unfold mbuf_of. cbn [app length] in Hd. rewrite Hd. reflexivity.
Qed.

(** Parsing of a registry message that starts with a header. *)
Lemma parse_registry : forall n rk h rest,
  (rk = rk_announcement \/ rk = rk_reply \/ rk = rk_known \/ rk = rk_connect_request) ->
  is_u 4 n -> wf_RegistryMsgHeader h ->
  let blob := le_bytes 4 n ++ headers_bytes k_registry rk 0 (mkEndpointAddress 0 0) ++ hdr_bytes h ++ rest in
  parse_message blob =
  Ok (mkNetheader n k_registry rk h 0 0 (mkEndpointAddress 0 0),
      mkMbuf blob (length blob)
        (length (le_bytes 4 n ++ headers_bytes k_registry rk 0 (mkEndpointAddress 0 0)))).
Proof.
  intros n rk h rest Hrk Hn Hh blob.
  unfold parse_message, mbuf_of, read_network_headers.
  generalize (length blob) as wp. intro wp.
  assert (Hb : blob = (le_bytes 4 n ++ le_bytes 1 5 ++ le_bytes 1 rk) ++ hdr_bytes h ++ rest).
  { unfold blob. rewrite <- !app_assoc. unfold headers_bytes, is_mw_or_sim, k_registry, k_mw, k_sim. reflexivity. }
  assert (Hl : length (le_bytes 4 n ++ headers_bytes k_registry rk 0 (mkEndpointAddress 0 0)) =
               length (le_bytes 4 n ++ le_bytes 1 5 ++ le_bytes 1 rk)) by reflexivity.
  rewrite Hl, Hb. clear Hl Hb blob.
  erewrite r_bind_step; [|rewrite <- !app_assoc; exact (rd_u 4 n [] _ wp ltac:(lia) Hn)].
  erewrite r_bind_step; [|eapply (rd_u 1 5 (le_bytes 4 n)); [lia|unfold is_u; cbn; lia]].
  change (5 =? k_registry) with true. change (5 =? k_proxy) with false. change (is_mw_or_sim 5) with false.
  cbv iota.
  assert (Hrd : r_u8 (mkMbuf (le_bytes 4 n ++ le_bytes 1 5 ++ le_bytes 1 rk ++ hdr_bytes h ++ rest) wp
      (length (le_bytes 4 n ++ le_bytes 1 5))) =
      Ok (rk, mkMbuf (le_bytes 4 n ++ le_bytes 1 5 ++ le_bytes 1 rk ++ hdr_bytes h ++ rest) wp
      (length (le_bytes 4 n ++ le_bytes 1 5 ++ le_bytes 1 rk)))).
  { pose proof (rd_u 1 rk (le_bytes 4 n ++ le_bytes 1 5) (hdr_bytes h ++ rest) wp ltac:(lia)) as H.
    rewrite <- !app_assoc in H. apply H. unfold is_u. cbn.
    unfold rk_announcement, rk_reply, rk_known, rk_connect_request in Hrk. lia. }
  assert (Hpk : peek_registry_header (mkMbuf (le_bytes 4 n ++ le_bytes 1 5 ++ le_bytes 1 rk ++ hdr_bytes h ++ rest) wp
      (length (le_bytes 4 n ++ le_bytes 1 5 ++ le_bytes 1 rk))) =
      Ok (h, mkMbuf (le_bytes 4 n ++ le_bytes 1 5 ++ le_bytes 1 rk ++ hdr_bytes h ++ rest) wp
      (length (le_bytes 4 n ++ le_bytes 1 5 ++ le_bytes 1 rk)))).
  { pose proof (peek_header h (le_bytes 4 n ++ le_bytes 1 5 ++ le_bytes 1 rk) rest wp Hh) as H.
    rewrite <- !app_assoc in H. exact H. }
  rewrite <- !app_assoc.
  assert (Hcond : (if (rk =? rk_announcement) || (rk =? rk_known) || (rk =? rk_connect_request)
            then peek_registry_header
            else if rk =? rk_reply then
              if version_eqb current_version v31 then peek_registry_header
              else if version_eqb current_version v30 then r_ret (make_header v30)
              else r_throw
            else if rk =? rk_invalid then r_throw
            else r_ret (make_header current_version)) = peek_registry_header).
  { destruct Hrk as [-> | [-> | [-> | ->]]]; reflexivity. }
  unfold r_bind at 1. unfold r_bind at 1. rewrite Hrd. cbn [bind fst snd]. rewrite Hcond.
  unfold r_bind at 1. rewrite Hpk. cbn [bind fst snd r_ret].
  unfold r_bind. cbn [bind fst snd r_ret]. reflexivity.
Qed.

Lemma registry_rt : forall A rk h w rest (f : netheader -> mbuf -> res A) x,
  (rk = rk_announcement \/ rk = rk_reply \/ rk = rk_known \/ rk = rk_connect_request) ->
  wf_RegistryMsgHeader h -> appends w (hdr_bytes h ++ rest) ->
  (forall nh pre wp, nh_registryHeader nh = h -> f nh (mkMbuf (pre ++ hdr_bytes h ++ rest) wp (length pre)) = Ok x) ->
  registry_received rk h w f x.
Proof.
  intros A rk h w rest f x Hrk Hh Hw Hf. unfold registry_received.
  rewrite (serialize_bytes k_registry rk 0 (mkEndpointAddress 0 0) w _ Hw).
  destruct (u32_max <? _) eqn:E.
  - exists (mkMbuf (hdr_bytes h ++ rest) (length (hdr_bytes h ++ rest)) 0). split; [apply (Hw [] 0%nat)|].
    cbn [storage]. unfold u32_max in E. apply N.ltb_lt in E. unfold Nlen in *. rewrite app_length in E.
    change (length (headers_bytes k_registry rk 0 (mkEndpointAddress 0 0))) with 2%nat in E.
    change (2 ^ 32) with 4294967296. lia.
  - rewrite parse_registry; [|exact Hrk|apply n_is_u4; exact E|exact Hh].
    eexists _, _. split; [reflexivity|]. cbn [nh_kind nh_registryKind nh_registryHeader].
    repeat (split; [reflexivity|]).
    match goal with |- f ?nh (mkMbuf (?a ++ ?b ++ ?c) ?wp _) = _ => specialize (Hf nh (a ++ b) wp eq_refl) end.
    rewrite <- app_assoc in Hf. exact Hf.
Qed.

Lemma appends_of_rt : forall A w (r : R A) a, roundtrips w r a -> exists bs, appends w bs.
Proof. intros A w r a (bs & Hw & _). exists bs. exact Hw. Qed.

Lemma wf_make_header : forall v, is_u 2 (fst v) -> is_u 2 (snd v) -> wf_RegistryMsgHeader (make_header v).
Proof. intros v H1 H2. constructor; [vm_compute; reflexivity|exact H1|exact H2]. Qed.
Lemma wf_make_header30 : wf_RegistryMsgHeader (make_header v30).
Proof. apply wf_make_header; vm_compute; reflexivity. Qed.
Lemma wf_make_header31 : wf_RegistryMsgHeader (make_header v31).
Proof. apply wf_make_header; vm_compute; reflexivity. Qed.

Lemma appends_PeerInfo : forall p, wf_PeerInfo p -> exists bs, appends (ser_PeerInfo p) bs.
Proof. intros p H. eapply appends_of_rt, rtne_rt, rtne_PeerInfo, H. Qed.

Lemma rt_read_at : forall A w (r : R A) a bs pre wp, roundtrips w r a -> appends w bs ->
  exists b, r (mkMbuf (pre ++ bs) wp (length pre)) = Ok (a, b).
Proof.
  intros A w r a bs pre wp Hrt Ha. pose proof (rd _ _ _ _ _ Hrt Ha pre [] wp) as H.
  rewrite app_nil_r in H. rewrite H. eexists. reflexivity.
Qed.

Ltac app_solve := first [ eassumption | apply appends_hdr | apply appends_old_hdr
  | apply appends_seq; [app_solve|app_solve] | apply appends_uint ].

(** Announcement with the current version. *)
Lemma announcement_31 : forall m, wf_ParticipantAnnouncement m -> pa_messageHeader m = make_header v31 ->
  registry_received rk_announcement (make_header v31) (ser_ParticipantAnnouncement m) receive_announcement
    (AnnAccepted v31 m).
Proof.
  intros m Hm Hh.
  assert (Hne : header_version (pa_messageHeader m) <> v30) by (rewrite Hh; discriminate).
  pose proof (rtne_rt _ _ _ _ (rtne_ParticipantAnnouncement v31 m Hm Hne ltac:(discriminate))) as Hrt.
  assert (exists rest, appends (ser_ParticipantAnnouncement m) (hdr_bytes (make_header v31) ++ rest)) as [rest Ha].
  { destruct (appends_PeerInfo _ (wf_pa_peerInfo _ Hm)) as [b1 H1].
    destruct (appends_of_rt _ _ _ _ (rtne_rt _ _ _ _ (rtne_string _ (wf_pa_simulationName _ Hm)))) as [b2 H2].
    exists (b1 ++ b2). unfold ser_ParticipantAnnouncement. rewrite version_eqb_neq by exact Hne.
    rewrite Hh. app_solve. }
  eapply registry_rt; [left; reflexivity|apply wf_make_header31|exact Ha|].
  intros nh pre wp Hnh. unfold receive_announcement. rewrite Hnh.
  change (version_supported (make_header v31)) with true. cbv iota zeta.
  change (header_version (make_header v31)) with v31.
  destruct (rt_read_at _ _ _ _ _ pre wp Hrt Ha) as [b Hb]. rewrite Hb. reflexivity.
Qed.

(** Announcement by a participant of protocol version 3.0. *)
Lemma announcement_30 : forall m, wf_ParticipantAnnouncement m -> header_version (pa_messageHeader m) = v30 ->
  registry_received rk_announcement (make_header v30) (ser_ParticipantAnnouncement m) receive_announcement
    (AnnAccepted v30 (v30_announcement m)).
Proof.
  intros m Hm Hv.
  pose proof (rtne_rt _ _ _ _ (rtne30_ParticipantAnnouncement m Hm)) as Hrt.
  assert (Hs : ser_ParticipantAnnouncement m = ser30_ParticipantAnnouncement m).
  { unfold ser_ParticipantAnnouncement. rewrite Hv. reflexivity. }
  rewrite Hs.
  assert (exists rest, appends (ser30_ParticipantAnnouncement m) (hdr_bytes (make_header v30) ++ rest)) as [rest Ha].
  { unfold ser30_ParticipantAnnouncement, ser_OldParticipantAnnouncement.
    cbn [opa_messageHeader opa_peerInfo opa_peerUri].
    destruct (appends_of_rt _ _ _ _ (rtne_rt _ _ _ _ (rtne_OldPeerInfo (mkOldPeerInfo [] 0 [] 0)
       ltac:(constructor; vm_compute; reflexivity)))) as [b1 H1].
    destruct (appends_of_rt _ _ _ _ (rtne_rt _ _ _ _ (rtne_OldPeerUri _ (wf_old_uri _ (wf_pa_peerInfo _ Hm))))) as [b2 H2].
    exists (b1 ++ b2). app_solve. }
  eapply registry_rt; [left; reflexivity|apply wf_make_header30|exact Ha|].
  intros nh pre wp Hnh. unfold receive_announcement. rewrite Hnh.
  change (version_supported (make_header v30)) with true. cbv iota zeta.
  change (header_version (make_header v30)) with v30.
  unfold des_ParticipantAnnouncement. change (version_eqb v30 v30) with true. cbv iota.
  destruct (rt_read_at _ _ _ _ _ pre wp Hrt Ha) as [b Hb]. rewrite Hb. reflexivity.
Qed.

(** Anything else is rejected before it is decoded. *)
Lemma announcement_other : forall h rest, wf_RegistryMsgHeader h ->
  header_version h <> v30 -> header_version h <> v31 ->
  registry_received rk_announcement h (w_raw (hdr_bytes h ++ rest)) receive_announcement AnnRejected.
Proof.
  intros h rest Hh H0 H1. eapply registry_rt; [left; reflexivity|exact Hh|intros st rp; apply w_raw_end|].
  intros nh pre wp Hnh. unfold receive_announcement, version_supported. rewrite Hnh.
  rewrite !version_eqb_neq by assumption. reflexivity.
Qed.

(** Known participants. *)
Lemma known_31 : forall m, wf_KnownParticipants m -> kp_messageHeader m = make_header v31 ->
  registry_received rk_known (make_header v31) (ser_KnownParticipants v31 m) (fun _ => receive_known_participants v31)
    (Some (v31, kp_peerInfos m)).
Proof.
  intros m Hm Hh.
  pose proof (rtne_rt _ _ _ _ (rtne_KnownParticipants v31 m Hm ltac:(discriminate))) as Hrt.
  assert (exists rest, appends (ser_KnownParticipants v31 m) (hdr_bytes (make_header v31) ++ rest)) as [rest Ha].
  { destruct (appends_of_rt _ _ _ _ (rtne_rt _ _ _ _ (rtne_vec _ _ ser_PeerInfo des_PeerInfo _ (wf_kp_peerInfos _ Hm) rtne_PeerInfo))) as [b1 H1].
    exists b1. unfold ser_KnownParticipants. change (version_eqb v31 v30) with false. cbv iota.
    rewrite Hh. app_solve. }
  eapply registry_rt; [auto|apply wf_make_header31|exact Ha|].
  intros nh pre wp Hnh. unfold receive_known_participants.
  destruct (rt_read_at _ _ _ _ _ pre wp Hrt Ha) as [b Hb]. rewrite Hb. cbn [bind fst].
  rewrite Hh. reflexivity.
Qed.

Lemma known_30 : forall m, wf_KnownParticipants m ->
  registry_received rk_known (make_header v30) (ser_KnownParticipants v30 m) (fun _ => receive_known_participants v30)
    (Some (v30, map (fun p => of_old_uri (to_old_uri p)) (kp_peerInfos m))).
Proof.
  intros m Hm.
  pose proof (rtne_rt _ _ _ _ (rtne30_KnownParticipants m Hm)) as Hrt.
  change (ser_KnownParticipants v30 m) with (ser30_KnownParticipants m).
  assert (exists rest, appends (ser30_KnownParticipants m) (hdr_bytes (make_header v30) ++ rest)) as [rest Ha].
  { unfold ser30_KnownParticipants, ser_OldKnownParticipants. cbn [okp_messageHeader okp_peerInfos okp_peerUris].
    destruct (appends_of_rt _ _ _ _ (rtne_rt _ _ _ _ (rtne_vec _ wf_OldPeerInfo ser_OldPeerInfo des_OldPeerInfo []
       ltac:(split; [vm_compute; reflexivity|constructor]) rtne_OldPeerInfo))) as [b1 H1].
    destruct (appends_of_rt _ _ _ _ (rtne_rt _ _ _ _ (rtne_vec _ wf_OldPeerUri ser_OldPeerUri des_OldPeerUri (map to_old_uri (kp_peerInfos m))
       (is_vec_map _ _ _ _ _ _ wf_old_uri (wf_kp_peerInfos _ Hm)) rtne_OldPeerUri))) as [b2 H2].
    exists (b1 ++ b2). app_solve. }
  eapply registry_rt; [auto|apply wf_make_header30|exact Ha|].
  intros nh pre wp Hnh. unfold receive_known_participants.
  change (des_KnownParticipants v30) with des30_KnownParticipants.
  destruct (rt_read_at _ _ _ _ _ pre wp Hrt Ha) as [b Hb]. rewrite Hb. reflexivity.
Qed.

(** Replies, current version. *)
Lemma reply_31 : forall m, wf_ParticipantAnnouncementReply m ->
  registry_received rk_reply (par_remoteHeader m) (ser_ParticipantAnnouncementReply v31 m)
    (fun _ b => bind (des_ParticipantAnnouncementReply v31 b) (fun mb => Ok (fst mb))) m.
Proof.
  intros m Hm.
  pose proof (rtne_rt _ _ _ _ (rtne_ParticipantAnnouncementReply v31 m Hm ltac:(discriminate))) as Hrt.
  assert (exists rest, appends (ser_ParticipantAnnouncementReply v31 m) (hdr_bytes (par_remoteHeader m) ++ rest)) as [rest Ha].
  { destruct (appends_of_rt _ _ _ _ (rtne_rt _ _ _ _ (rtne_vec _ _ ser_MsgSubscriber des_MsgSubscriber _ (wf_par_subscribers _ Hm) rtne_MsgSubscriber))) as [b1 H1].
    destruct (appends_of_rt _ _ _ _ (rtne_rt _ _ _ _ (rtne_string _ (wf_par_diagnostic _ Hm)))) as [b2 H2].
    exists (le_bytes 1 (par_status m) ++ b1 ++ b2).
    unfold ser_ParticipantAnnouncementReply. change (version_eqb v31 v30) with false. cbv iota.
    app_solve. }
  eapply registry_rt; [auto|apply (wf_par_remoteHeader _ Hm)|exact Ha|].
  intros nh pre wp Hnh.
  destruct (rt_read_at _ _ _ _ _ pre wp Hrt Ha) as [b Hb]. rewrite Hb. reflexivity.
Qed.

(** Replies by a participant of protocol version 3.0: the bytes where a header is expected are those of the number of
    subscribers and of the first receiver index. *)
Definition pseudo_header (count idx : N) : RegistryMsgHeader :=
  mkRegistryMsgHeader count (idx mod 65536) (idx / 65536 mod 65536).
Lemma le_bytes_split : forall x, le_bytes 8 x =
  le_bytes 2 (x mod 65536) ++ le_bytes 2 (x / 65536 mod 65536) ++ le_bytes 4 (x / 4294967296).
Proof.
  assert (H2 : forall y, le_bytes 2 (y mod 65536) = le_bytes 2 y).
  { intro y. cbn [le_bytes]. f_equal; [|f_equal].
    - change 65536 with (256 * 256). rewrite N.mod_mul_r by lia.
      rewrite N.mul_comm, N.mod_add by lia. apply N.mod_mod. lia.
    - change 65536 with (256 * 256). rewrite N.mod_mul_r by lia.
      rewrite (N.mul_comm 256 (y / 256 mod 256)), N.div_add by lia.
      rewrite (N.div_small (y mod 256)) by (apply N.mod_lt; lia).
      rewrite N.add_0_l. apply N.mod_mod. lia. }
  intro x. rewrite !H2. cbn [le_bytes app]. rewrite !N.div_div by lia. reflexivity.
Qed.

Lemma reply_30 : forall m, wf_ParticipantAnnouncementReply m -> par_subscribers m <> [] ->
  exists h, registry_received rk_reply h (ser_ParticipantAnnouncementReply v30 m)
    (fun _ b => bind (des_ParticipantAnnouncementReply v30 b) (fun mb => Ok (fst mb)))
    (mkParticipantAnnouncementReply (make_header v30) 1
      (map (fun s => of_old_subscriber (to_old_subscriber s)) (par_subscribers m)) []).
Proof.
  intros m Hm Hne.
  pose proof (rtne_rt _ _ _ _ (rtne30_ParticipantAnnouncementReply m Hm)) as Hrt.
  change (ser_ParticipantAnnouncementReply v30 m) with (ser30_ParticipantAnnouncementReply m).
  change (des_ParticipantAnnouncementReply v30) with des30_ParticipantAnnouncementReply.
  destruct (wf_par_subscribers _ Hm) as [Hlen Hall].
  destruct (par_subscribers m) as [|s0 sl] eqn:Es; [contradiction|].
  set (h := pseudo_header (Nlen (s0 :: sl)) (ms_receiverIdx s0)).
  exists h.
  assert (Hh : wf_RegistryMsgHeader h).
  { unfold h, pseudo_header. constructor; cbn [rmh_preamble rmh_versionHigh rmh_versionLow].
    - apply is_u4; exact Hlen.
    - unfold is_u. change (256 ^ N.of_nat 2) with 65536. apply N.mod_lt. lia.
    - unfold is_u. change (256 ^ N.of_nat 2) with 65536. apply N.mod_lt. lia. }
  assert (exists rest, appends (ser30_ParticipantAnnouncementReply m) (hdr_bytes h ++ rest)) as [rest Ha].
  { unfold ser30_ParticipantAnnouncementReply, ser_OldParticipantAnnouncementReply. cbn [opr_subscribers].
    rewrite Es. cbn [map].
    inversion Hall as [|? ? Hs0 Hsl]; subst.
    destruct (wf_old_subscriber _ Hs0) as [Hi Hn Ht].
    assert (exists b, appends (w_each ser_OldMsgSubscriber (map to_old_subscriber sl)) b) as [b3 H3].
    { assert (Hsl' : Forall wf_OldMsgSubscriber (map to_old_subscriber sl)).
      { apply Forall_map. eapply Forall_impl; [|exact Hsl]. apply wf_old_subscriber. }
      clear - Hsl'. induction Hsl' as [|x l Hx _ [b IH]]; [exists []; apply appends_skip|].
      destruct (appends_of_rt _ _ _ _ (rtne_rt _ _ _ _ (rtne_OldMsgSubscriber x Hx))) as [b0 H0].
      exists (b0 ++ b). cbn [w_each]. apply appends_seq; assumption. }
    destruct (appends_of_rt _ _ _ _ (rtne_rt _ _ _ _ (rtne_bytes _ Hn))) as [b1 H1].
    destruct (appends_of_rt _ _ _ _ (rtne_rt _ _ _ _ (rtne_bytes _ Ht))) as [b2 H2].
    exists (le_bytes 4 (ms_receiverIdx s0 / 4294967296) ++ b1 ++ b2 ++ b3).
    intros st rp. unfold w_vector.
    assert (Hl' : Nlen (to_old_subscriber s0 :: map to_old_subscriber sl) = Nlen (s0 :: sl)).
    { unfold Nlen. cbn [length]. now rewrite map_length. }
    rewrite Hl'.
    replace (u32_max <? Nlen (s0 :: sl)) with false
      by (symmetry; apply N.ltb_ge; unfold u32_max; change (2 ^ 32) with 4294967296 in Hlen; lia).
    assert (Hbs : appends (w_seq (w_u32 (Nlen (s0 :: sl))) (w_each ser_OldMsgSubscriber (to_old_subscriber s0 :: map to_old_subscriber sl)))
      (le_bytes 4 (Nlen (s0 :: sl)) ++ (le_bytes 8 (ms_receiverIdx s0) ++ b1 ++ b2) ++ b3)).
    { apply appends_seq; [apply appends_uint|]. cbn [w_each]. apply appends_seq; [|exact H3].
      unfold ser_OldMsgSubscriber. apply appends_seq; [apply appends_uint|]. apply appends_seq; assumption. }
    specialize (Hbs st rp). rewrite Hbs. rewrite le_bytes_split.
    unfold h, pseudo_header, hdr_bytes. cbn [rmh_preamble rmh_versionHigh rmh_versionLow].
    rewrite <- !app_assoc. reflexivity. }
  eapply registry_rt; [auto|exact Hh|exact Ha|].
  intros nh pre wp Hnh.
  destruct (rt_read_at _ _ _ _ _ pre wp Hrt Ha) as [b Hb]. rewrite Hb. reflexivity.
Qed.

(** Connect requests. *)
Lemma connect_request_31 : forall m, wf_RemoteParticipantConnectRequest m ->
  registry_received rk_connect_request (rpc_messageHeader m) (ser_RemoteParticipantConnectRequest m)
    (fun _ b => bind (des_RemoteParticipantConnectRequest b) (fun mb => Ok (fst mb))) m.
Proof.
  intros m Hm.
  pose proof (rtne_rt _ _ _ _ (rtne_RemoteParticipantConnectRequest m Hm)) as Hrt.
  assert (exists rest, appends (ser_RemoteParticipantConnectRequest m) (hdr_bytes (rpc_messageHeader m) ++ rest)) as [rest Ha].
  { destruct Hm as [Ha Hb Hc Hd]. destruct m as [a b c d]. cbn [rpc_messageHeader rpc_requestOrigin rpc_requestTarget rpc_status] in *.
    destruct (appends_PeerInfo _ Hb) as [b1 H1]. destruct (appends_PeerInfo _ Hc) as [b2 H2].
    exists (b1 ++ b2 ++ le_bytes 1 d). unfold ser_RemoteParticipantConnectRequest. cbn [rpc_messageHeader rpc_requestOrigin rpc_requestTarget rpc_status].
    app_solve. }
  eapply registry_rt; [auto|destruct Hm; assumption|exact Ha|].
  intros nh pre wp Hnh.
  destruct (rt_read_at _ _ _ _ _ pre wp Hrt Ha) as [b Hb]. rewrite Hb. reflexivity.
Qed.

(** ** All service messages *)
Lemma rtne_svc : forall x, svc_wf x -> roundtrips_ne (svc_ser x) (svc_des (svc_type_of x)) (svc_expected x).
Proof.
  intros [] H; cbn [svc_ser svc_des svc_type_of svc_expected svc_wf] in *;
    (eapply rtne_last; [|reflexivity]).
  - now apply rtne_CanFrameEvent.
  - now apply rtne_CanFrameTransmitEvent.
  - now apply rtne_CanControllerStatus.
  - now apply rtne_CanConfigureBaudrate.
  - now apply rtne_LinSendFrameRequest.
  - now apply rtne_LinSendFrameHeaderRequest.
  - now apply rtne_LinTransmission.
  - now apply rtne_LinWakeupPulse.
  - now apply rtne_LinControllerStatusUpdate.
  - now apply rtne_LinFrameResponseUpdate.
  - now apply rtne_EthernetFrameEvent.
  - now apply rtne_EthernetFrameTransmitEvent.
  - now apply rtne_EthernetStatus.
  - now apply rtne_EthernetSetMode.
  - now apply rtne_FlexrayFrameEvent.
  - now apply rtne_FlexrayFrameTransmitEvent.
  - now apply rtne_FlexraySymbolEvent.
  - now apply rtne_FlexrayCycleStartEvent.
  - now apply rtne_FlexrayHostCommand.
  - now apply rtne_FlexrayTxBufferConfigUpdate.
  - now apply rtne_FlexrayTxBufferUpdate.
  - now apply rtne_FlexrayPocStatusEvent.
  - now apply rtne_DataMessageEvent.
  - now apply rtne_FunctionCall.
  - now apply rtne_FunctionCallResponse.
  - now apply rtne_NextSimTask.
  - now apply rtne_SystemCommand.
  - now apply rtne_WorkflowConfiguration.
  - now apply rtne_MetricsUpdate.
  - now apply rtne_ParticipantDiscoveryEvent.
  - now apply rtne_ServiceDiscoveryEvent.
  - now apply rtne_RequestReplyCall.
  - now apply rtne_RequestReplyCallReturn.
  - now apply rtne_CanSetControllerMode.
  - now apply rtne_LinControllerConfig.
  - now apply rtne_FlexrayControllerConfig.
  - now apply rtne_ParticipantStatus.
  - now apply rtne_LogMsg.
Qed.
Lemma svc_expected_id : forall x, svc_whole_us x -> svc_expected x = x.
Proof.
  intros [] H; cbn in *; try reflexivity.
  - destruct H as [H1 H2]. destruct m. unfold ps_to_us. cbn in *. now rewrite !to_us_exact.
  - destruct m. unfold lm_to_us. cbn in *. now rewrite !to_us_exact.
Qed.
Lemma safe_svc : forall t, safe_decoder (svc_des t).
Proof.
  intros []; cbn [svc_des]; (apply safe_bind; [|intro; apply safe_ret]).
  - apply safe_CanFrameEvent.
  - apply safe_CanFrameTransmitEvent.
  - apply safe_CanControllerStatus.
  - apply safe_CanConfigureBaudrate.
  - apply safe_LinSendFrameRequest.
  - apply safe_LinSendFrameHeaderRequest.
  - apply safe_LinTransmission.
  - apply safe_LinWakeupPulse.
  - apply safe_LinControllerStatusUpdate.
  - apply safe_LinFrameResponseUpdate.
  - apply safe_EthernetFrameEvent.
  - apply safe_EthernetFrameTransmitEvent.
  - apply safe_EthernetStatus.
  - apply safe_EthernetSetMode.
  - apply safe_FlexrayFrameEvent.
  - apply safe_FlexrayFrameTransmitEvent.
  - apply safe_FlexraySymbolEvent.
  - apply safe_FlexrayCycleStartEvent.
  - apply safe_FlexrayHostCommand.
  - apply safe_FlexrayTxBufferConfigUpdate.
  - apply safe_FlexrayTxBufferUpdate.
  - apply safe_FlexrayPocStatusEvent.
  - apply safe_DataMessageEvent.
  - apply safe_FunctionCall.
  - apply safe_FunctionCallResponse.
  - apply safe_NextSimTask.
  - apply safe_SystemCommand.
  - apply safe_WorkflowConfiguration.
  - apply safe_MetricsUpdate.
  - apply safe_ParticipantDiscoveryEvent.
  - apply safe_ServiceDiscoveryEvent.
  - apply safe_RequestReplyCall.
  - apply safe_RequestReplyCallReturn.
  - apply safe_CanSetControllerMode.
  - apply safe_LinControllerConfig.
  - apply safe_FlexrayControllerConfig.
  - apply safe_ParticipantStatus.
  - apply safe_LogMsg.
Qed.

(** ** The header parser *)
Lemma safe_peek : forall A (r : R A), safe_decoder r -> safe_decoder (r_peek r).
Proof.
  intros A r H st wp rp Hp. specialize (H st wp rp Hp). unfold r_peek.
  destruct (r (mkMbuf st wp rp)) as [[a b]| |]; cbn; [|exact I|exact H].
  destruct H as (H1 & H2 & H3). repeat split; first [assumption | reflexivity | lia].
Qed.
Lemma safe_not_ub : forall A (r : R A) st wp rp, safe_decoder r -> (rp <= length st)%nat -> r (mkMbuf st wp rp) <> UB.
Proof. intros A r st wp rp H Hp He. specialize (H st wp rp Hp). rewrite He in H. exact H. Qed.

Definition after_registry (size kind : N) (rk_rh : N * RegistryMsgHeader) : R netheader :=
  r_bind (if kind =? k_proxy then r_peek (des_ProxyMessageHeader current_version) else r_ret 0) (fun proxy =>
  r_bind (if is_mw_or_sim kind then r_pair r_u64 des_EndpointAddress else r_ret (0, mkEndpointAddress 0 0))
    (fun idx_addr => r_ret (mkNetheader size kind (fst rk_rh) (snd rk_rh) proxy (fst idx_addr) (snd idx_addr)))).
Lemma safe_after_registry : forall s k p, safe_decoder (after_registry s k p).
Proof.
  intros s k p. unfold after_registry. apply safe_bind.
  - destruct (k =? k_proxy); [|apply safe_ret]. apply safe_peek. unfold des_ProxyMessageHeader.
    destruct (version_ltb current_version v31); [apply safe_throw|apply safe_u8].
  - intro. apply safe_bind; [|intro; apply safe_ret].
    destruct (is_mw_or_sim k); [|apply safe_ret]. apply safe_pair; [apply safe_u64|apply safe_EndpointAddress].
Qed.

Lemma parse_ub : forall blob, parse_message blob = UB <-> peek_overreads blob.
Proof.
  intro blob. split.
  - intro H. unfold parse_message, read_network_headers in H.
    destruct blob as [|b0 [|b1 [|b2 [|b3 [|b4 l]]]]];
      try (exfalso; vm_compute in H; discriminate).
    unfold r_bind at 1 in H.
    assert (H4 : r_u32 (mbuf_of (b0 :: b1 :: b2 :: b3 :: b4 :: l)) =
       Ok (of_le [b0; b1; b2; b3], mkMbuf (b0 :: b1 :: b2 :: b3 :: b4 :: l) (5 + length l) 4)) by reflexivity.
    rewrite H4 in H. cbn [bind fst snd] in H.
    unfold r_bind at 1 in H.
    assert (H5 : forall wp, r_u8 (mkMbuf (b0 :: b1 :: b2 :: b3 :: b4 :: l) wp 4) =
       Ok (of_le [b4], mkMbuf (b0 :: b1 :: b2 :: b3 :: b4 :: l) wp 5)).
    { intro. unfold r_u8, r_uint, r_bind, r_object. cbn [storage rpos length Nat.add Nat.ltb Nat.leb]. reflexivity. }
    rewrite H5 in H. cbn [bind fst snd] in H.
    assert (Hb4 : of_le [b4] = b4) by (cbn [of_le]; lia). rewrite Hb4 in H.
    set (st := b0 :: b1 :: b2 :: b3 :: b4 :: l) in *.
    destruct (b4 =? k_registry) eqn:Ek.
    2:{ exfalso. unfold r_bind at 1 in H. cbn [r_ret bind fst snd] in H.
        refine (safe_not_ub _ (after_registry (of_le [b0; b1; b2; b3]) b4 (rk_invalid, make_header current_version))
          st _ 5%nat (safe_after_registry _ _ _) _ H). unfold st; cbn [length]; lia. }
    apply N.eqb_eq in Ek. unfold k_registry in Ek. subst b4.
    destruct l as [|rk rest].
    { exfalso. vm_compute in H. discriminate. }
    exists b0, b1, b2, b3, rk, rest. split; [reflexivity|].
    assert (H6 : forall wp, r_u8 (mkMbuf st wp 5) = Ok (of_le [rk], mkMbuf st wp 6)).
    { intro. unfold st, r_u8, r_uint, r_bind, r_object. cbn [storage rpos length Nat.add Nat.ltb Nat.leb]. reflexivity. }
    assert (Hrk : of_le [rk] = rk) by (cbn [of_le]; lia). 
    unfold r_bind at 1 in H. unfold r_bind at 1 in H. rewrite H6, Hrk in H. cbn [bind fst snd] in H.
    assert (Hsafe : forall x wp, after_registry (of_le [b0; b1; b2; b3]) 5 x (mkMbuf st wp 6) <> UB).
    { intros x wp. apply safe_not_ub; [apply safe_after_registry|unfold st; cbn [length]; lia]. }
    assert (Hpeek : forall wp, peek_registry_header (mkMbuf st wp 6) = UB <-> (length rest < 8)%nat).
    { intro wp. unfold peek_registry_header. cbn [rpos storage]. unfold read_range, st. cbn [length Nat.add].
      destruct (Nat.leb_spec 14 (S (S (S (S (S (S (length rest)))))))); split; intro Hx; try lia; [|reflexivity].
      exfalso. cbn [bind] in Hx.
      set (raw := firstn 8 _) in Hx.
      assert (Hs := safe_RegistryMsgHeader raw (length raw) 0%nat ltac:(lia)).
      unfold mbuf_of in Hx. destruct (des_RegistryMsgHeader (mkMbuf raw (length raw) 0)) as [[? ?]| |];
        cbn in Hx; [discriminate Hx|discriminate Hx|exact Hs]. }
    assert (Hpk_case : forall wp, r_bind peek_registry_header (fun rh => r_ret (rk, rh)) (mkMbuf st wp 6) = UB \/
      (exists h, r_bind peek_registry_header (fun rh => r_ret (rk, rh)) (mkMbuf st wp 6) = Ok ((rk, h), mkMbuf st wp 6)) \/
      r_bind peek_registry_header (fun rh => r_ret (rk, rh)) (mkMbuf st wp 6) = Exn).
    { intro wp. unfold r_bind, peek_registry_header.
      destruct (read_range _ _ _) as [raw| |]; cbn [bind]; [|right; right; reflexivity|left; reflexivity].
      destruct (des_RegistryMsgHeader _) as [[h b']| |]; cbn [bind fst snd r_ret];
        [right; left; exists h; reflexivity|right; right; reflexivity|left; reflexivity]. }
    assert (Hfin : forall wp, bind (r_bind peek_registry_header (fun rh => r_ret (rk, rh)) (mkMbuf st wp 6))
       (fun ab => after_registry (of_le [b0; b1; b2; b3]) 5 (fst ab) (snd ab)) = UB -> (length rest < 8)%nat).
    { intros wp Hx. destruct (Hpk_case wp) as [E|[[h E]|E]].
      - apply (Hpeek wp). unfold r_bind in E. destruct (peek_registry_header (mkMbuf st wp 6)) as [[? ?]| |];
          cbn [bind r_ret] in E; [discriminate E|discriminate E|reflexivity].
      - rewrite E in Hx. cbn [bind fst snd] in Hx. exfalso. exact (Hsafe _ _ Hx).
      - rewrite E in Hx. discriminate. }
    assert (Hcases : rk = 1 \/ rk = 2 \/ rk = 3 \/ rk = 4 \/ rk = 0 \/ 4 < rk) by lia.
    destruct Hcases as [-> | [-> | [-> | [-> | [-> | Hgt]]]]].
    + split; [lia|]. eapply Hfin. exact H.
    + split; [lia|]. eapply Hfin. exact H.
    + split; [lia|]. eapply Hfin. exact H.
    + split; [lia|]. eapply Hfin. exact H.
    + exfalso. vm_compute in H. discriminate.
    + exfalso. revert H. unfold rk_announcement, rk_known, rk_connect_request, rk_reply, rk_invalid.
      replace (rk =? 1) with false by (symmetry; apply N.eqb_neq; lia).
      replace (rk =? 2) with false by (symmetry; apply N.eqb_neq; lia).
      replace (rk =? 3) with false by (symmetry; apply N.eqb_neq; lia).
      replace (rk =? 4) with false by (symmetry; apply N.eqb_neq; lia).
      replace (rk =? 0) with false by (symmetry; apply N.eqb_neq; lia).
      cbn [orb]. unfold r_bind at 1. cbn [r_ret bind fst snd]. intro H.
      exact (Hsafe (rk, make_header current_version) _ H).
  - intros (b0 & b1 & b2 & b3 & rk & rest & -> & Hrk & Hl).
    assert (Hpeek : forall wp, peek_registry_header (mkMbuf (b0 :: b1 :: b2 :: b3 :: 5 :: rk :: rest) wp 6) = UB).
    { intro wp. unfold peek_registry_header. cbn [rpos storage]. unfold read_range. cbn [length Nat.add].
      destruct (Nat.leb_spec 14 (S (S (S (S (S (S (length rest)))))))); [lia|reflexivity]. }
    assert (H6 : forall wp, r_u8 (mkMbuf (b0 :: b1 :: b2 :: b3 :: 5 :: rk :: rest) wp 5) =
      Ok (of_le [rk], mkMbuf (b0 :: b1 :: b2 :: b3 :: 5 :: rk :: rest) wp 6)).
    { intro. unfold r_u8, r_uint, r_bind, r_object. cbn [storage rpos length Nat.add Nat.ltb Nat.leb]. reflexivity. }
    unfold parse_message, read_network_headers.
    unfold r_bind at 1. change (r_u32 (mbuf_of (b0 :: b1 :: b2 :: b3 :: 5 :: rk :: rest))) with
      (Ok (of_le [b0; b1; b2; b3], mkMbuf (b0 :: b1 :: b2 :: b3 :: 5 :: rk :: rest) (6 + length rest) 4)).
    cbn [bind fst snd]. unfold r_bind at 1.
    assert (H5 : forall wp, r_u8 (mkMbuf (b0 :: b1 :: b2 :: b3 :: 5 :: rk :: rest) wp 4) =
      Ok (5, mkMbuf (b0 :: b1 :: b2 :: b3 :: 5 :: rk :: rest) wp 5)).
    { intro. unfold r_u8, r_uint, r_bind, r_object. cbn [storage rpos length Nat.add Nat.ltb Nat.leb]. reflexivity. }
    rewrite H5. cbn [bind fst snd]. change (5 =? k_registry) with true. cbv iota.
    unfold r_bind at 1. unfold r_bind at 1. rewrite H6. cbn [bind fst snd].
    assert (Hrk1 : of_le [rk] = rk) by (cbn [of_le]; lia). rewrite Hrk1.
    assert (Hcond : (if (rk =? rk_announcement) || (rk =? rk_known) || (rk =? rk_connect_request)
            then peek_registry_header
            else if rk =? rk_reply then
              if version_eqb current_version v31 then peek_registry_header
              else if version_eqb current_version v30 then r_ret (make_header v30)
              else r_throw
            else if rk =? rk_invalid then r_throw
            else r_ret (make_header current_version)) = peek_registry_header).
    { assert (Hc : rk = 1 \/ rk = 2 \/ rk = 3 \/ rk = 4) by lia.
      destruct Hc as [-> | [-> | [-> | ->]]]; reflexivity. }
    rewrite Hcond. unfold r_bind at 1. rewrite Hpeek. reflexivity.
Qed.


(** ** Property-level corollaries *)
Lemma svc_delivered : forall (x : svc_msg) kind idx addr,
  svc_wf x -> (kind = k_mw \/ kind = k_sim) -> is_u 8 idx -> wf_EndpointAddress addr ->
  delivered kind idx addr (svc_ser x) (svc_des (svc_type_of x)) (svc_expected x).
Proof.
  intros x kind idx addr Hx Hk Hi Ha. apply delivered_rt; [|exact Hi|exact Ha|apply rtne_rt, rtne_svc, Hx].
  destruct Hk; subst; reflexivity.
Qed.
Lemma svc_delivered_exact : forall (x : svc_msg) kind idx addr,
  svc_wf x -> svc_whole_us x -> (kind = k_mw \/ kind = k_sim) -> is_u 8 idx -> wf_EndpointAddress addr ->
  delivered kind idx addr (svc_ser x) (svc_des (svc_type_of x)) x.
Proof.
  intros x kind idx addr Hx Hw Hk Hi Ha. rewrite <- (svc_expected_id x Hw) at 3. now apply svc_delivered.
Qed.
Lemma nanoseconds_lost : exists m m' b b',
  wf_ParticipantStatus m /\ ser_ParticipantStatus m mbuf_new = Ok b /\
  des_ParticipantStatus (mbuf_of (storage b)) = Ok (m', b') /\ m' <> m.
Proof.
  exists (mkParticipantStatus [80] 90%Z [114] 1700000000123456789%Z 1700000000123456789%Z).
  eexists _, _, _. split; [constructor; vm_compute; repeat split; discriminate|].
  split; [vm_compute; reflexivity|]. split; [vm_compute; reflexivity|]. discriminate.
Qed.
Lemma safe_registry : forall v,
  safe_decoder (des_ParticipantAnnouncement v) /\ safe_decoder (des_ParticipantAnnouncementReply v) /\
  safe_decoder (des_KnownParticipants v) /\ safe_decoder des_RemoteParticipantConnectRequest /\
  safe_decoder des_MsgSubscriber /\ safe_decoder des_SubscriptionAcknowledge /\ safe_decoder (des_ProxyMessage v).
Proof.
  intro v. repeat split.
  - apply safe_ParticipantAnnouncement.
  - apply safe_ParticipantAnnouncementReply.
  - apply safe_KnownParticipants.
  - apply safe_RemoteParticipantConnectRequest.
  - apply safe_MsgSubscriber.
  - apply safe_SubscriptionAcknowledge.
  - apply safe_ProxyMessage.
Qed.

(** the parser leaves the bytes alone *)
Definition keeps {A} (r : R A) : Prop := forall st wp rp, (rp <= length st)%nat ->
  match r (mkMbuf st wp rp) with
  | Ok (_, b') => storage b' = st /\ wpos b' = wp /\ (rp <= rpos b' <= length st)%nat
  | _ => True
  end.
Lemma keeps_safe : forall A (r : R A), safe_decoder r -> keeps r.
Proof. intros A r H st wp rp Hp. specialize (H st wp rp Hp). destruct (r _) as [[? ?]| |]; auto. Qed.
Lemma keeps_bind : forall A B (f : R A) (g : A -> R B), keeps f -> (forall a, keeps (g a)) -> keeps (r_bind f g).
Proof.
  intros A B f g Hf Hg st wp rp Hp. specialize (Hf st wp rp Hp). unfold r_bind.
  destruct (f (mkMbuf st wp rp)) as [[a [st' wp' rp']]| |]; cbn [bind fst snd]; auto.
  cbn in Hf. destruct Hf as (-> & -> & Hle). specialize (Hg a st wp rp' ltac:(lia)).
  destruct (g a (mkMbuf st wp rp')) as [[b b']| |]; auto. destruct Hg as (? & ? & ?). repeat split; auto; lia.
Qed.
Lemma keeps_peek : keeps peek_registry_header.
Proof.
  intros st wp rp Hp. unfold peek_registry_header. destruct (read_range _ _ _); cbn [bind]; auto.
  destruct (des_RegistryMsgHeader _) as [[? ?]| |]; cbn; auto.
Qed.
Lemma parse_safe : forall blob, ~ peek_overreads blob ->
  match parse_message blob with
  | Ok (_, b') => storage b' = blob /\ (rpos b' <= length blob)%nat
  | Exn => True
  | UB => False
  end.
Proof.
  intros blob H.
  assert (K : keeps (read_network_headers current_version)).
  { unfold read_network_headers.
    apply keeps_bind; [apply keeps_safe, safe_u32|]. intro size.
    apply keeps_bind; [apply keeps_safe, safe_u8|]. intro kind.
    apply keeps_bind.
    - destruct (kind =? k_registry); [|apply keeps_safe, safe_ret].
      apply keeps_bind; [apply keeps_safe, safe_u8|]. intro rk.
      apply keeps_bind; [|intro; apply keeps_safe, safe_ret].
      repeat match goal with |- keeps (if ?c then _ else _) => destruct c end;
        first [apply keeps_peek | apply keeps_safe, safe_ret | apply keeps_safe, safe_throw].
    - intro p. apply keeps_safe. exact (safe_after_registry size kind p). }
  specialize (K blob (length blob) 0%nat ltac:(lia)). fold (mbuf_of blob) in K. fold (parse_message blob) in K.
  destruct (parse_message blob) as [[h b']| |] eqn:E; auto.
  - destruct K as (? & ? & ?). split; [assumption|lia].
  - apply H, parse_ub, E.
Qed.
Lemma peek_witness : exists blob : list N, nth 0 blob 0 = Nlen blob /\ parse_message blob = UB.
Proof. exists [6; 0; 0; 0; 5; 1]. split; vm_compute; reflexivity. Qed.
Lemma announcement_optional : forall m, wf_ParticipantAnnouncement m -> pa_messageHeader m = make_header v31 ->
  roundtrips_ne (ser_ParticipantAnnouncement m) (des_ParticipantAnnouncement v31) m /\
  roundtrips_at_end (old_ser_ParticipantAnnouncement m) (des_ParticipantAnnouncement v31)
    (mkParticipantAnnouncement (pa_messageHeader m) (pa_peerInfo m) []).
Proof.
  intros m Hm Hh. split; [apply rtne_ParticipantAnnouncement; [exact Hm|rewrite Hh; discriminate|discriminate]|].
  apply end_ParticipantAnnouncement; [exact Hm|discriminate].
Qed.
Lemma reply_optional : forall m, wf_ParticipantAnnouncementReply m ->
  roundtrips_ne (ser_ParticipantAnnouncementReply v31 m) (des_ParticipantAnnouncementReply v31) m /\
  roundtrips_at_end (old_ser_ParticipantAnnouncementReply m) (des_ParticipantAnnouncementReply v31)
    (mkParticipantAnnouncementReply (par_remoteHeader m) (par_status m) (par_subscribers m) []).
Proof.
  intros m Hm. split; [apply rtne_ParticipantAnnouncementReply; [exact Hm|discriminate]|].
  apply end_ParticipantAnnouncementReply; [exact Hm|discriminate].
Qed.
Lemma announcement_30_same : forall m, wf_ParticipantAnnouncement m -> header_version (pa_messageHeader m) = v30 ->
  exists m', registry_received rk_announcement (make_header v30) (ser_ParticipantAnnouncement m) receive_announcement
    (AnnAccepted v30 m') /\ same_peer (pa_peerInfo m') (pa_peerInfo m) /\
    header_version (pa_messageHeader m') = v30.
Proof.
  intros m Hm Hv. exists (v30_announcement m). split; [now apply announcement_30|]. repeat split.
Qed.
Lemma Forall2_map_self : forall A B (f : A -> B) (P : B -> A -> Prop) l, (forall a, P (f a) a) -> Forall2 P (map f l) l.
Proof. intros A B f P l H. induction l; cbn; constructor; auto. Qed.
Lemma known_30_same : forall m, wf_KnownParticipants m ->
  exists l, registry_received rk_known (make_header v30) (ser_KnownParticipants v30 m)
     (fun _ => receive_known_participants v30) (Some (v30, l)) /\ Forall2 same_peer l (kp_peerInfos m).
Proof.
  intros m Hm. eexists. split; [now apply known_30|]. apply Forall2_map_self. intro a. repeat split.
Qed.
Lemma known_other : forall m b, wf_KnownParticipants m ->
  header_version (kp_messageHeader m) <> v30 -> header_version (kp_messageHeader m) <> v31 ->
  ser_KnownParticipants v31 m mbuf_new = Ok b -> receive_known_participants v31 (mbuf_of (storage b)) = Ok None.
Proof.
  intros m b Hm H0 H1 Hs.
  destruct (rtne_KnownParticipants v31 m Hm ltac:(discriminate)) as (bs & _ & Hw & Hr).
  specialize (Hw [] 0%nat). change (mkMbuf [] (length (@nil N)) 0) with mbuf_new in Hw. rewrite Hw in Hs.
  inversion Hs; subst. cbn [storage app]. unfold receive_known_participants.
  specialize (Hr [] [] (length bs)). rewrite app_nil_r in Hr. unfold mbuf_of. cbn [app length] in Hr.
  rewrite Hr. cbn [bind fst]. unfold version_supported. rewrite !version_eqb_neq by assumption. reflexivity.
Qed.
Lemma reply_30_same : forall m, wf_ParticipantAnnouncementReply m -> par_subscribers m <> [] ->
  exists h m', registry_received rk_reply h (ser_ParticipantAnnouncementReply v30 m)
    (fun _ b => bind (des_ParticipantAnnouncementReply v30 b) (fun mb => Ok (fst mb))) m' /\
    Forall2 same_subscription (par_subscribers m') (par_subscribers m).
Proof.
  intros m Hm Hne. destruct (reply_30 m Hm Hne) as [h Hh]. exists h. eexists. split; [exact Hh|].
  cbn [par_subscribers]. apply Forall2_map_self. intro a. repeat split.
Qed.
Definition ex_failed_reply := mkParticipantAnnouncementReply (make_header v31) 0 [] [110; 111].
Lemma wf_ex_failed_reply : wf_ParticipantAnnouncementReply ex_failed_reply.
Proof.
  constructor; [apply wf_make_header31|vm_compute; reflexivity|split; [vm_compute; reflexivity|constructor]|vm_compute; reflexivity].
Qed.
Lemma empty_reply_witness : exists m blob,
  wf_ParticipantAnnouncementReply m /\
  serialize_message k_registry rk_reply 0 (mkEndpointAddress 0 0) (ser_ParticipantAnnouncementReply v30 m) = Ok blob /\
  parse_message blob = UB.
Proof.
  exists ex_failed_reply. eexists. split; [apply wf_ex_failed_reply|]. split; vm_compute; reflexivity.
Qed.
Lemma failed_reply_witness : exists m b m' b',
  wf_ParticipantAnnouncementReply m /\ par_status m = 0 /\
  ser_ParticipantAnnouncementReply v30 m mbuf_new = Ok b /\
  des_ParticipantAnnouncementReply v30 (mbuf_of (storage b)) = Ok (m', b') /\ par_status m' = 1.
Proof.
  exists ex_failed_reply. eexists _, _, _. split; [apply wf_ex_failed_reply|]. split; [reflexivity|].
  split; [vm_compute; reflexivity|]. split; vm_compute; reflexivity.
Qed.
