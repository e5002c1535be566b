(** Proofs about the handshake of versions. *)
From Coq Require Import List NArith ZArith Bool Lia.
From Verif Require Import Base MessageBufferModel MessageBufferSpec MessageBufferProofs SerdesModel SerdesSpec SerdesProofs
  SerdesFraming HandshakeModel.
Import ListNotations.
Local Open Scope N_scope.

Notation noaddr := (mkEndpointAddress 0 0).

(** The constructor's own reading of the headers. *)
Lemma headers_peeked : forall v rk h rest n,
  (rk = rk_announcement \/ rk = rk_known \/ rk = rk_connect_request \/ rk = rk_reply /\ v = v31) ->
  is_u 4 n -> wf_RegistryMsgHeader h ->
  let blob := le_bytes 4 n ++ headers_bytes k_registry rk 0 noaddr ++ hdr_bytes h ++ rest in
  exists x, read_network_headers v (mbuf_of blob) = Ok x.
Proof.
  intros v rk h rest n Hrk Hn Hh blob.
  unfold mbuf_of, read_network_headers.
  generalize (length blob) as wp. intro wp.
  assert (Hb : blob = (le_bytes 4 n ++ le_bytes 1 5 ++ le_bytes 1 rk) ++ hdr_bytes h ++ rest).
  { unfold blob. rewrite <- !app_assoc. unfold headers_bytes, is_mw_or_sim, k_registry, k_mw, k_sim. reflexivity. }
  rewrite Hb. clear Hb blob.
  erewrite r_bind_step; [|rewrite <- !app_assoc; exact (rd_u 4 n [] _ wp ltac:(lia) Hn)].
  erewrite r_bind_step; [|eapply (rd_u 1 5 (le_bytes 4 n)); [lia|unfold is_u; cbn; lia]].
  change (5 =? k_registry) with true. change (5 =? k_proxy) with false. change (is_mw_or_sim 5) with false.
  cbv iota.
  assert (Hrd : r_u8 (mkMbuf (le_bytes 4 n ++ le_bytes 1 5 ++ le_bytes 1 rk ++ hdr_bytes h ++ rest) wp
      (length (le_bytes 4 n ++ le_bytes 1 5))) =
      Ok (rk, mkMbuf (le_bytes 4 n ++ le_bytes 1 5 ++ le_bytes 1 rk ++ hdr_bytes h ++ rest) wp
      (length (le_bytes 4 n ++ le_bytes 1 5 ++ le_bytes 1 rk)))).
  { pose proof (rd_u 1 rk (le_bytes 4 n ++ le_bytes 1 5) (hdr_bytes h ++ rest) wp ltac:(lia)) as H.
    rewrite <- !app_assoc in H. apply H. unfold is_u. cbn.
    unfold rk_announcement, rk_reply, rk_known, rk_connect_request in Hrk. lia. }
  assert (Hpk : peek_registry_header (mkMbuf (le_bytes 4 n ++ le_bytes 1 5 ++ le_bytes 1 rk ++ hdr_bytes h ++ rest) wp
      (length (le_bytes 4 n ++ le_bytes 1 5 ++ le_bytes 1 rk))) =
      Ok (h, mkMbuf (le_bytes 4 n ++ le_bytes 1 5 ++ le_bytes 1 rk ++ hdr_bytes h ++ rest) wp
      (length (le_bytes 4 n ++ le_bytes 1 5 ++ le_bytes 1 rk)))).
  { pose proof (peek_header h (le_bytes 4 n ++ le_bytes 1 5 ++ le_bytes 1 rk) rest wp Hh) as H.
    rewrite <- !app_assoc in H. exact H. }
  rewrite <- ?app_assoc.
  assert (Hcond : (if (rk =? rk_announcement) || (rk =? rk_known) || (rk =? rk_connect_request)
            then peek_registry_header
            else if rk =? rk_reply then
              if version_eqb v v31 then peek_registry_header
              else if version_eqb v v30 then r_ret (make_header v30)
              else r_throw
            else if rk =? rk_invalid then r_throw
            else r_ret (make_header current_version)) = peek_registry_header).
  { destruct Hrk as [-> | [-> | [-> | [-> ->]]]]; reflexivity. }
  unfold r_bind at 1. unfold r_bind at 1. rewrite Hrd. cbn [bind fst snd]. rewrite Hcond.
  unfold r_bind at 1. rewrite Hpk. cbn [bind fst snd r_ret].
  unfold r_bind. cbn [bind fst snd r_ret]. eexists. reflexivity.
Qed.

(** The headers of a reply in another version than 3.1. *)
Lemma headers_reply : forall v rest n, v <> v31 -> is_u 4 n ->
  let blob := le_bytes 4 n ++ headers_bytes k_registry rk_reply 0 noaddr ++ rest in
  if version_eqb v v30 then exists x, read_network_headers v (mbuf_of blob) = Ok x
  else read_network_headers v (mbuf_of blob) = Exn.
Proof.
  intros v rest n Hv Hn blob.
  unfold mbuf_of, read_network_headers.
  generalize (length blob) as wp. intro wp.
  assert (Hb : blob = le_bytes 4 n ++ le_bytes 1 5 ++ le_bytes 1 rk_reply ++ rest).
  { unfold blob. unfold headers_bytes, is_mw_or_sim, k_registry, k_mw, k_sim. rewrite <- ?app_assoc. reflexivity. }
  rewrite Hb. clear Hb blob.
  erewrite (r_bind_step _ _ r_u32); [|exact (rd_u 4 n [] _ wp ltac:(lia) Hn)].
  erewrite (r_bind_step _ _ r_u8); [|eapply (rd_u 1 5 (le_bytes 4 n)); [lia|unfold is_u; cbn; lia]].
  change (5 =? k_registry) with true. change (5 =? k_proxy) with false. change (is_mw_or_sim 5) with false.
  cbv iota.
  assert (Hrd : r_u8 (mkMbuf (le_bytes 4 n ++ le_bytes 1 5 ++ le_bytes 1 rk_reply ++ rest) wp
      (length (le_bytes 4 n ++ le_bytes 1 5))) =
      Ok (rk_reply, mkMbuf (le_bytes 4 n ++ le_bytes 1 5 ++ le_bytes 1 rk_reply ++ rest) wp
      (length (le_bytes 4 n ++ le_bytes 1 5 ++ le_bytes 1 rk_reply)))).
  { pose proof (rd_u 1 rk_reply (le_bytes 4 n ++ le_bytes 1 5) rest wp ltac:(lia)) as H.
    rewrite <- !app_assoc in H. apply H. vm_compute; reflexivity. }
  unfold r_bind at 1. unfold r_bind at 1. rewrite Hrd. cbn [bind fst snd].
  change (rk_reply =? rk_announcement) with false. change (rk_reply =? rk_known) with false.
  change (rk_reply =? rk_connect_request) with false. change (rk_reply =? rk_reply) with true. cbn [orb].
  rewrite (version_eqb_neq v v31 Hv).
  destruct (version_eqb v v30).
  - unfold r_bind. cbn [bind fst snd r_ret]. eexists. reflexivity.
  - reflexivity.
Qed.

Lemma send_reads : forall v rk w bs,
  appends w bs ->
  let raw := le_bytes 4 0 ++ headers_bytes k_registry rk 0 noaddr ++ bs in
  send_versioned v rk w =
    bind (read_network_headers v (mbuf_of raw)) (fun _ => serialize_message k_registry rk 0 noaddr w).
Proof.
  intros v rk w bs Hw raw. unfold send_versioned, serialize_message.
  change mbuf_new with (mkMbuf [] (@length N []) 0).
  rewrite (appends_seq _ _ _ _ (appends_headers k_registry rk 0 noaddr) Hw).
  cbn [bind app]. rewrite <- app_assoc. unfold mbuf_of. fold raw.
  destruct (read_network_headers v (mkMbuf raw (length raw) 0)); cbn [bind]; try reflexivity.
  rewrite (appends_seq _ _ _ _ (appends_headers k_registry rk 0 noaddr) Hw).
  cbn [bind app]. rewrite <- app_assoc. reflexivity.
Qed.

Lemma send_headed : forall v rk w h rest,
  (rk = rk_announcement \/ rk = rk_known \/ rk = rk_connect_request \/ rk = rk_reply /\ v = v31) ->
  wf_RegistryMsgHeader h -> appends w (hdr_bytes h ++ rest) ->
  send_versioned v rk w = serialize_message k_registry rk 0 noaddr w.
Proof.
  intros v rk w h rest Hrk Hh Hw. rewrite (send_reads v rk w _ Hw).
  destruct (headers_peeked v rk h rest 0 Hrk ltac:(vm_compute; reflexivity) Hh) as [x Hx].
  cbv zeta in Hx. rewrite Hx. reflexivity.
Qed.
Lemma send_30 : forall w bs, appends w bs ->
  send_versioned v30 rk_reply w = serialize_message k_registry rk_reply 0 noaddr w.
Proof.
  intros w bs Hw. rewrite (send_reads v30 rk_reply w _ Hw).
  pose proof (headers_reply v30 bs 0 ltac:(discriminate) ltac:(vm_compute; reflexivity)) as H.
  change (version_eqb v30 v30) with true in H. cbv zeta iota in H. destruct H as [x Hx]. rewrite Hx. reflexivity.
Qed.
Lemma send_unsupported : forall v w bs, v <> v30 -> v <> v31 -> appends w bs ->
  send_versioned v rk_reply w = Exn.
Proof.
  intros v w bs H0 H1 Hw. rewrite (send_reads v rk_reply w _ Hw).
  pose proof (headers_reply v bs 0 H1 ltac:(vm_compute; reflexivity)) as H.
  rewrite (version_eqb_neq v v30 H0) in H. cbv zeta iota in H. rewrite H. reflexivity.
Qed.

(** A body that fits in a message. *)
Definition fits (w : W) : Prop := forall b, w mbuf_new = Ok b -> Nlen (storage b) + 6 < 2 ^ 32.

Lemma sent : forall A v rk h w (f : netheader -> mbuf -> res A) x,
  registry_received rk h w f x -> send_versioned v rk w = serialize_message k_registry rk 0 noaddr w -> fits w ->
  exists blob nh b, send_versioned v rk w = Ok blob /\ parse_message blob = Ok (nh, b) /\ nh_kind nh = k_registry /\
    nh_registryKind nh = rk /\ nh_registryHeader nh = h /\ f nh b = Ok x.
Proof.
  intros A v rk h w f x Hr He Hf. rewrite He. unfold registry_received in Hr.
  destruct (serialize_message k_registry rk 0 noaddr w) as [blob| |].
  - destruct Hr as (nh & b & H). exists blob, nh, b. split; [reflexivity|exact H].
  - destruct Hr as (b & Hb & Hl). specialize (Hf b Hb). lia.
  - contradiction.
Qed.

(** Announcements. *)
Lemma appends_announcement : forall m, wf_ParticipantAnnouncement m -> header_version (pa_messageHeader m) <> v30 ->
  exists rest, appends (ser_ParticipantAnnouncement m) (hdr_bytes (pa_messageHeader m) ++ rest).
Proof.
  intros m Hm Hne.
  destruct (appends_PeerInfo _ (wf_pa_peerInfo _ Hm)) as [b1 H1].
  destruct (appends_of_rt _ _ _ _ (rtne_rt _ _ _ _ (rtne_string _ (wf_pa_simulationName _ Hm)))) as [b2 H2].
  exists (b1 ++ b2). unfold ser_ParticipantAnnouncement. rewrite version_eqb_neq by exact Hne. app_solve.
Qed.
Lemma appends_announcement30 : forall m, wf_ParticipantAnnouncement m -> header_version (pa_messageHeader m) = v30 ->
  exists rest, appends (ser_ParticipantAnnouncement m) (hdr_bytes (make_header v30) ++ rest).
Proof.
  intros m Hm Hv.
  assert (Hs : ser_ParticipantAnnouncement m = ser30_ParticipantAnnouncement m).
  { unfold ser_ParticipantAnnouncement. rewrite Hv. reflexivity. }
  rewrite Hs. unfold ser30_ParticipantAnnouncement, ser_OldParticipantAnnouncement.
  cbn [opa_messageHeader opa_peerInfo opa_peerUri].
  destruct (appends_of_rt _ _ _ _ (rtne_rt _ _ _ _ (rtne_OldPeerInfo (mkOldPeerInfo [] 0 [] 0)
     ltac:(constructor; vm_compute; reflexivity)))) as [b1 H1].
  destruct (appends_of_rt _ _ _ _ (rtne_rt _ _ _ _ (rtne_OldPeerUri _ (wf_old_uri _ (wf_pa_peerInfo _ Hm))))) as [b2 H2].
  exists (b1 ++ b2). app_solve.
Qed.

Definition ann (own : version) (info : PeerInfo) (sim : list N) : ParticipantAnnouncement :=
  mkParticipantAnnouncement (make_header own) info sim.
Lemma header_make : forall v, header_version (make_header v) = v.
Proof. intros [a b]. reflexivity. Qed.
Lemma wf_ann : forall own info sim, is_u 2 (fst own) -> is_u 2 (snd own) -> wf_PeerInfo info -> is_bytes sim ->
  wf_ParticipantAnnouncement (ann own info sim).
Proof. intros. constructor; [apply wf_make_header; assumption|assumption|assumption]. Qed.

(** A received registry message whose preamble is right. *)
Lemma receive_headed : forall pv blob nh b rk v,
  parse_message blob = Ok (nh, b) -> nh_kind nh = k_registry -> nh_registryKind nh = rk ->
  nh_registryHeader nh = make_header v ->
  receive pv blob =
    if rk =? rk_announcement then
      bind (receive_announcement nh b) (fun r =>
      match r with AnnRejected => Ok (EvUnsupported (make_header v)) | AnnAccepted v m => Ok (EvAnnounced v m) end)
    else if rk =? rk_reply then
      bind (des_ParticipantAnnouncementReply pv b) (fun mb =>
      if par_status (fst mb) =? 0 then Ok EvFailed
      else Ok (EvConnected (header_version (par_remoteHeader (fst mb))) (par_subscribers (fst mb))))
    else if rk =? rk_known then
      bind (receive_known_participants pv b) (fun r =>
      match r with None => Ok EvKnownUnsupported | Some (v, l) => Ok (EvKnown v l) end)
    else if rk =? rk_connect_request then Ok EvRequest
    else Ok EvIgnored.
Proof.
  intros pv blob nh b rk v Hp Hk Hr Hh. unfold receive. rewrite Hp. cbn [bind fst snd].
  rewrite Hk, Hr, Hh. change (k_registry =? k_registry) with true. cbn [negb].
  change (rmh_preamble (make_header v) =? preamble_value) with true. cbn [negb]. rewrite andb_false_r. reflexivity.
Qed.

Lemma announce_31 : forall info sim, wf_PeerInfo info -> is_bytes sim -> fits (ser_ParticipantAnnouncement (ann v31 info sim)) ->
  exists blob, announce v31 info sim = Ok blob /\ forall pv, receive pv blob = Ok (EvAnnounced v31 (ann v31 info sim)).
Proof.
  intros info sim Hi Hs Hf. 
  assert (Hw : wf_ParticipantAnnouncement (ann v31 info sim)) by (apply wf_ann; try assumption; vm_compute; reflexivity).
  destruct (appends_announcement _ Hw ltac:(discriminate)) as [rest Ha].
  destruct (sent _ v31 _ _ _ _ _ (announcement_31 _ Hw eq_refl)
    (send_headed v31 _ _ _ _ (or_introl eq_refl) (wf_pa_messageHeader _ Hw) Ha) Hf) as (blob & nh & b & H1 & H2 & H3 & H4 & H5 & H6).
  exists blob. split; [exact H1|]. intro pv. rewrite (receive_headed pv blob nh b rk_announcement v31 H2 H3 H4 H5).
  cbn [N.eqb rk_announcement]. change (rk_announcement =? rk_announcement) with true. cbv iota. rewrite H6. reflexivity.
Qed.
Lemma announce_30 : forall info sim, wf_PeerInfo info -> is_bytes sim -> fits (ser_ParticipantAnnouncement (ann v30 info sim)) ->
  exists blob, announce v30 info sim = Ok blob /\
    forall pv, receive pv blob = Ok (EvAnnounced v30 (v30_announcement (ann v30 info sim))).
Proof.
  intros info sim Hi Hs Hf.
  assert (Hw : wf_ParticipantAnnouncement (ann v30 info sim)) by (apply wf_ann; try assumption; vm_compute; reflexivity).
  destruct (appends_announcement30 _ Hw eq_refl) as [rest Ha].
  destruct (sent _ v30 _ _ _ _ _ (announcement_30 _ Hw eq_refl)
    (send_headed v30 _ _ _ _ (or_introl eq_refl) wf_make_header30 Ha) Hf) as (blob & nh & b & H1 & H2 & H3 & H4 & H5 & H6).
  exists blob. split; [exact H1|]. intro pv. rewrite (receive_headed pv blob nh b rk_announcement v30 H2 H3 H4 H5).
  change (rk_announcement =? rk_announcement) with true. cbv iota. rewrite H6. reflexivity.
Qed.
Lemma announce_other : forall own info sim, is_u 2 (fst own) -> is_u 2 (snd own) -> own <> v30 -> own <> v31 ->
  wf_PeerInfo info -> is_bytes sim -> fits (ser_ParticipantAnnouncement (ann own info sim)) ->
  exists blob, announce own info sim = Ok blob /\ forall pv, receive pv blob = Ok (EvUnsupported (make_header own)).
Proof.
  intros own info sim U1 U2 N0 N1 Hi Hs Hf.
  assert (Hw : wf_ParticipantAnnouncement (ann own info sim)) by (apply wf_ann; assumption).
  destruct (appends_announcement _ Hw ltac:(cbn [ann pa_messageHeader]; rewrite header_make; exact N0)) as [rest Ha].
  assert (R : registry_received rk_announcement (make_header own) (ser_ParticipantAnnouncement (ann own info sim)) receive_announcement AnnRejected).
  { eapply registry_rt; [left; reflexivity|exact (wf_pa_messageHeader _ Hw)|exact Ha|].
    intros nh pre wp Hnh. unfold receive_announcement, version_supported. rewrite Hnh, header_make.
    rewrite !version_eqb_neq by assumption. reflexivity. }
  destruct (sent _ own _ _ _ _ _ R
    (send_headed own _ _ _ _ (or_introl eq_refl) (wf_pa_messageHeader _ Hw) Ha) Hf) as (blob & nh & b & H1 & H2 & H3 & H4 & H5 & H6).
  exists blob. split; [exact H1|]. intro pv. rewrite (receive_headed pv blob nh b rk_announcement own H2 H3 H4 H5).
  change (rk_announcement =? rk_announcement) with true. cbv iota. rewrite H6. reflexivity.
Qed.

(** Known participants. *)
Definition kp (v : version) (l : list PeerInfo) : KnownParticipants := mkKnownParticipants (make_header v) l.
Lemma known_sent_31 : forall l, is_vec wf_PeerInfo l -> fits (ser_KnownParticipants v31 (kp v31 l)) ->
  exists blob, send_known v31 l = Ok blob /\ forall pv, pv <> v30 -> receive pv blob = Ok (EvKnown v31 l).
Proof.
  intros l Hl Hf.
  assert (Hw : wf_KnownParticipants (kp v31 l)) by (constructor; [apply wf_make_header31|exact Hl]).
  assert (exists rest, appends (ser_KnownParticipants v31 (kp v31 l)) (hdr_bytes (make_header v31) ++ rest)) as [rest Ha].
  { destruct (appends_of_rt _ _ _ _ (rtne_rt _ _ _ _ (rtne_vec _ _ ser_PeerInfo des_PeerInfo _ Hl rtne_PeerInfo))) as [b1 H1].
    exists b1. unfold ser_KnownParticipants. change (version_eqb v31 v30) with false. cbv iota.
    cbn [kp kp_messageHeader kp_peerInfos]. app_solve. }
  destruct (sent _ v31 _ _ _ _ _ (known_31 _ Hw eq_refl)
    (send_headed v31 _ _ _ _ (or_intror (or_introl eq_refl)) wf_make_header31 Ha) Hf) as (blob & nh & b & H1 & H2 & H3 & H4 & H5 & H6).
  exists blob. split; [exact H1|]. intros pv Hpv. rewrite (receive_headed pv blob nh b rk_known v31 H2 H3 H4 H5).
  change (rk_known =? rk_announcement) with false. change (rk_known =? rk_reply) with false.
  change (rk_known =? rk_known) with true. cbv iota.
  assert (E : receive_known_participants pv b = receive_known_participants v31 b).
  { unfold receive_known_participants, des_KnownParticipants. rewrite (version_eqb_neq pv v30 Hpv). reflexivity. }
  rewrite E, H6. reflexivity.
Qed.

(** The list of version 3.0, read as one of version 3.1: its first vector is always empty. *)
Lemma known_sent_30 : forall l, is_vec wf_PeerInfo l -> fits (ser_KnownParticipants v30 (kp v30 l)) ->
  exists blob, send_known v30 l = Ok blob /\ (forall pv, pv <> v30 -> receive pv blob = Ok (EvKnown v30 [])) /\
    receive v30 blob = Ok (EvKnown v30 (map peer30 l)).
Proof.
  intros l Hl Hf.
  assert (Hw : wf_KnownParticipants (kp v30 l)) by (constructor; [apply wf_make_header30|exact Hl]).
  assert (exists rest, appends (ser_KnownParticipants v30 (kp v30 l)) (hdr_bytes (make_header v30) ++ le_bytes 4 0 ++ rest)) as [rest Ha].
  { change (ser_KnownParticipants v30 (kp v30 l)) with (ser30_KnownParticipants (kp v30 l)).
    unfold ser30_KnownParticipants, ser_OldKnownParticipants. cbn [okp_messageHeader okp_peerInfos okp_peerUris kp kp_peerInfos].
    destruct (appends_of_rt _ _ _ _ (rtne_rt _ _ _ _ (rtne_vec _ wf_OldPeerUri ser_OldPeerUri des_OldPeerUri (map to_old_uri l)
       (is_vec_map _ _ _ _ _ _ wf_old_uri Hl) rtne_OldPeerUri))) as [b2 H2].
    exists b2. apply appends_seq; [apply appends_old_hdr|]. apply appends_seq; [|exact H2].
    intros st rp. unfold w_vector. cbn [Nlen length]. change (u32_max <? Nlen []) with false. cbv iota.
    pose proof (appends_seq _ _ _ _ (appends_uint 4 0) appends_skip st rp) as H. rewrite app_nil_r in H. exact H. }
  assert (R : registry_received rk_known (make_header v30) (ser_KnownParticipants v30 (kp v30 l))
     (fun _ b => bind (receive_known_participants v31 b) (fun x => bind (receive_known_participants v30 b) (fun y => Ok (x, y))))
     (Some (v30, []), Some (v30, map peer30 l))).
  { eapply registry_rt; [auto|apply wf_make_header30|exact Ha|]. intros nh pre wp Hnh.
    assert (E1 : receive_known_participants v31
      (mkMbuf (pre ++ hdr_bytes (make_header v30) ++ le_bytes 4 0 ++ rest) wp (length pre)) = Ok (Some (v30, []))).
    { unfold receive_known_participants, des_KnownParticipants. change (version_eqb v31 v30) with false. cbv iota.
      assert (Hd := rd _ _ _ _ _ (rtne_rt _ _ _ _ (rtne_RegistryMsgHeader _ wf_make_header30)) (appends_hdr (make_header v30))
        pre (le_bytes 4 0 ++ rest) wp).
      unfold r_bind at 1. rewrite Hd. cbn [bind fst snd].
      assert (Hv : r_vector des_PeerInfo (mkMbuf (pre ++ hdr_bytes (make_header v30) ++ le_bytes 4 0 ++ rest) wp
          (length (pre ++ hdr_bytes (make_header v30)))) =
        Ok ([], mkMbuf (pre ++ hdr_bytes (make_header v30) ++ le_bytes 4 0 ++ rest) wp
          (length ((pre ++ hdr_bytes (make_header v30)) ++ le_bytes 4 0)))).
      { pose proof (rd_u 4 0 (pre ++ hdr_bytes (make_header v30)) rest wp ltac:(lia) ltac:(vm_compute; reflexivity)) as H.
        rewrite <- !app_assoc in H. unfold r_vector. 
        erewrite r_bind_step; [|exact H]. rewrite <- app_assoc. cbn [storage rpos].
        replace (Nlen _ <? _) with false; [reflexivity|]. symmetry. apply N.ltb_ge. unfold Nlen.
        rewrite !app_length. lia. }
      unfold r_bind at 1. rewrite Hv. cbn [bind fst snd r_ret]. reflexivity. }
    rewrite E1. cbn [bind].
    pose proof (rtne_rt _ _ _ _ (rtne30_KnownParticipants _ Hw)) as Hrt.
    unfold receive_known_participants. change (des_KnownParticipants v30) with des30_KnownParticipants.
    destruct (rt_read_at _ _ _ _ _ pre wp Hrt Ha) as [b Hb]. rewrite Hb. reflexivity. }
  destruct (sent _ v30 _ _ _ _ _ R
    (send_headed v30 _ _ _ _ (or_intror (or_introl eq_refl)) wf_make_header30 Ha) Hf) as (blob & nh & b & H1 & H2 & H3 & H4 & H5 & H6).
  cbv beta in H6.
  destruct (receive_known_participants v31 b) as [x| |] eqn:X; try discriminate H6. cbn [bind] in H6.
  destruct (receive_known_participants v30 b) as [y| |] eqn:Y; try discriminate H6. cbn [bind] in H6.
  injection H6 as -> ->.
  exists blob. split; [exact H1|]. split.
  - intros pv Hpv. rewrite (receive_headed pv blob nh b rk_known v30 H2 H3 H4 H5).
    change (rk_known =? rk_announcement) with false. change (rk_known =? rk_reply) with false.
    change (rk_known =? rk_known) with true. cbv iota.
    assert (E : receive_known_participants pv b = receive_known_participants v31 b).
    { unfold receive_known_participants, des_KnownParticipants. rewrite (version_eqb_neq pv v30 Hpv). reflexivity. }
    rewrite E, X. reflexivity.
  - rewrite (receive_headed v30 blob nh b rk_known v30 H2 H3 H4 H5).
    change (rk_known =? rk_announcement) with false. change (rk_known =? rk_reply) with false.
    change (rk_known =? rk_known) with true. cbv iota. rewrite Y. reflexivity.
Qed.

(** Replies of version 3.1. *)
Lemma appends_reply31 : forall m, wf_ParticipantAnnouncementReply m ->
  exists rest, appends (ser_ParticipantAnnouncementReply v31 m) (hdr_bytes (par_remoteHeader m) ++ rest).
Proof.
  intros m Hm.
  destruct (appends_of_rt _ _ _ _ (rtne_rt _ _ _ _ (rtne_vec _ _ ser_MsgSubscriber des_MsgSubscriber _ (wf_par_subscribers _ Hm) rtne_MsgSubscriber))) as [b1 H1].
  destruct (appends_of_rt _ _ _ _ (rtne_rt _ _ _ _ (rtne_string _ (wf_par_diagnostic _ Hm)))) as [b2 H2].
  exists (le_bytes 1 (par_status m) ++ b1 ++ b2).
  unfold ser_ParticipantAnnouncementReply. change (version_eqb v31 v30) with false. cbv iota. app_solve.
Qed.
Lemma reply_sent_31 : forall m v, wf_ParticipantAnnouncementReply m -> par_remoteHeader m = make_header v ->
  fits (ser_ParticipantAnnouncementReply v31 m) ->
  exists blob, send_reply v31 m = Ok blob /\ forall pv, pv <> v30 ->
    receive pv blob = Ok (if par_status m =? 0 then EvFailed else EvConnected v (par_subscribers m)).
Proof.
  intros m v Hm Hv Hf. destruct (appends_reply31 m Hm) as [rest Ha].
  destruct (sent _ v31 _ _ _ _ _ (reply_31 m Hm)
    (send_headed v31 rk_reply _ _ _ (or_intror (or_intror (or_intror (conj eq_refl eq_refl)))) (wf_par_remoteHeader _ Hm) Ha) Hf)
    as (blob & nh & b & H1 & H2 & H3 & H4 & H5 & H6).
  exists blob. split; [exact H1|]. intros pv Hpv. rewrite Hv in H5.
  rewrite (receive_headed pv blob nh b rk_reply v H2 H3 H4 H5).
  change (rk_reply =? rk_announcement) with false. change (rk_reply =? rk_reply) with true. cbv iota.
  assert (E : des_ParticipantAnnouncementReply pv b = des_ParticipantAnnouncementReply v31 b).
  { unfold des_ParticipantAnnouncementReply. rewrite (version_eqb_neq pv v30 Hpv). reflexivity. }
  rewrite E. destruct (des_ParticipantAnnouncementReply v31 b) as [[m' b']| |]; try discriminate H6.
  cbn [bind fst] in *. injection H6 as ->. rewrite Hv, header_make. destruct (par_status m =? 0); reflexivity.
Qed.

(** Replies of version 3.0. *)
Lemma appends_reply30 : forall m, wf_ParticipantAnnouncementReply m -> par_subscribers m <> [] ->
  exists h rest, wf_RegistryMsgHeader h /\ rmh_preamble h = Nlen (par_subscribers m) /\ appends (ser_ParticipantAnnouncementReply v30 m) (hdr_bytes h ++ rest).
Proof.
  intros m Hm Hne.
  change (ser_ParticipantAnnouncementReply v30 m) with (ser30_ParticipantAnnouncementReply m).
  destruct (wf_par_subscribers _ Hm) as [Hlen Hall].
  destruct (par_subscribers m) as [|s0 sl] eqn:Es; [contradiction|].
  set (h := pseudo_header (Nlen (s0 :: sl)) (ms_receiverIdx s0)).
  exists h.
  assert (Hh : wf_RegistryMsgHeader h).
  { unfold h, pseudo_header. constructor; cbn [rmh_preamble rmh_versionHigh rmh_versionLow].
    - apply is_u4; exact Hlen.
    - unfold is_u. change (256 ^ N.of_nat 2) with 65536. apply N.mod_lt. lia.
    - unfold is_u. change (256 ^ N.of_nat 2) with 65536. apply N.mod_lt. lia. }
  assert (exists rest, appends (ser30_ParticipantAnnouncementReply m) (hdr_bytes h ++ rest)) as [rest Ha].
  { unfold ser30_ParticipantAnnouncementReply, ser_OldParticipantAnnouncementReply. cbn [opr_subscribers].
    rewrite Es. cbn [map].
    inversion Hall as [|? ? Hs0 Hsl]; subst.
    destruct (wf_old_subscriber _ Hs0) as [Hi Hn Ht].
    assert (exists b, appends (w_each ser_OldMsgSubscriber (map to_old_subscriber sl)) b) as [b3 H3].
    { assert (Hsl' : Forall wf_OldMsgSubscriber (map to_old_subscriber sl)).
      { apply Forall_map. eapply Forall_impl; [|exact Hsl]. apply wf_old_subscriber. }
      clear - Hsl'. induction Hsl' as [|x l Hx _ [b IH]]; [exists []; apply appends_skip|].
      destruct (appends_of_rt _ _ _ _ (rtne_rt _ _ _ _ (rtne_OldMsgSubscriber x Hx))) as [b0 H0].
      exists (b0 ++ b). cbn [w_each]. apply appends_seq; assumption. }
    destruct (appends_of_rt _ _ _ _ (rtne_rt _ _ _ _ (rtne_bytes _ Hn))) as [b1 H1].
    destruct (appends_of_rt _ _ _ _ (rtne_rt _ _ _ _ (rtne_bytes _ Ht))) as [b2 H2].
    exists (le_bytes 4 (ms_receiverIdx s0 / 4294967296) ++ b1 ++ b2 ++ b3).
    intros st rp. unfold w_vector.
    assert (Hl' : Nlen (to_old_subscriber s0 :: map to_old_subscriber sl) = Nlen (s0 :: sl)).
    { unfold Nlen. cbn [length]. now rewrite map_length. }
    rewrite Hl'.
    replace (u32_max <? Nlen (s0 :: sl)) with false
      by (symmetry; apply N.ltb_ge; unfold u32_max; change (2 ^ 32) with 4294967296 in Hlen; lia).
    assert (Hbs : appends (w_seq (w_u32 (Nlen (s0 :: sl))) (w_each ser_OldMsgSubscriber (to_old_subscriber s0 :: map to_old_subscriber sl)))
      (le_bytes 4 (Nlen (s0 :: sl)) ++ (le_bytes 8 (ms_receiverIdx s0) ++ b1 ++ b2) ++ b3)).
    { apply appends_seq; [apply appends_uint|]. cbn [w_each]. apply appends_seq; [|exact H3].
      unfold ser_OldMsgSubscriber. apply appends_seq; [apply appends_uint|]. apply appends_seq; assumption. }
    specialize (Hbs st rp). rewrite Hbs. rewrite le_bytes_split.
    unfold h, pseudo_header, hdr_bytes. cbn [rmh_preamble rmh_versionHigh rmh_versionLow].
    rewrite <- !app_assoc. reflexivity. }
  exists rest. split; [exact Hh|]. split; [reflexivity|exact Ha].
Qed.
Lemma reply_sent_30 : forall m, wf_ParticipantAnnouncementReply m -> par_subscribers m <> [] ->
  Nlen (par_subscribers m) <> preamble_value -> fits (ser_ParticipantAnnouncementReply v30 m) ->
  exists blob, send_reply v30 m = Ok blob /\ (forall pv, pv <> v30 -> receive pv blob = Ok EvIgnored) /\ receive v30 blob = Ok (EvConnected v30 (map subscriber30 (par_subscribers m))).
Proof.
  intros m Hm Hne Hpre Hf. destruct (appends_reply30 m Hm Hne) as (h & rest & Hh & Hhp & Ha).
  pose proof (rtne_rt _ _ _ _ (rtne30_ParticipantAnnouncementReply m Hm)) as Hrt.
  assert (R : registry_received rk_reply h (ser_ParticipantAnnouncementReply v30 m)
    (fun _ b => bind (des_ParticipantAnnouncementReply v30 b) (fun mb => Ok (fst mb)))
    (mkParticipantAnnouncementReply (make_header v30) 1
      (map (fun s => of_old_subscriber (to_old_subscriber s)) (par_subscribers m)) [])).
  { eapply registry_rt; [auto|exact Hh|exact Ha|]. intros nh pre wp Hnh.
    change (des_ParticipantAnnouncementReply v30) with des30_ParticipantAnnouncementReply.
    change (ser_ParticipantAnnouncementReply v30 m) with (ser30_ParticipantAnnouncementReply m) in Ha.
    destruct (rt_read_at _ _ _ _ _ pre wp Hrt Ha) as [b Hb]. rewrite Hb. reflexivity. }
  destruct (sent _ v30 _ _ _ _ _ R (send_30 _ _ Ha) Hf) as (blob & nh & b & H1 & H2 & H3 & H4 & H5 & H6).
  exists blob. split; [exact H1|]. split.
  - intros pv Hpv. unfold receive. rewrite H2. cbn [bind fst snd]. rewrite H3, H4, H5.
    change (k_registry =? k_registry) with true. cbn [negb]. unfold preamble_is_present.
    rewrite (version_eqb_neq pv v30 Hpv). cbn [andb]. change (rk_reply =? rk_connect_request) with false.
    rewrite andb_false_r. cbn [andb]. rewrite Hhp. rewrite (proj2 (N.eqb_neq _ _) Hpre). reflexivity.
  - unfold receive. rewrite H2. cbn [bind fst snd]. rewrite H3, H4, H5.
    change (k_registry =? k_registry) with true. cbn [negb].
    change (preamble_is_present v30 rk_reply) with false. cbn [andb].
    change (rk_reply =? rk_announcement) with false. change (rk_reply =? rk_reply) with true. cbv iota.
    destruct (des_ParticipantAnnouncementReply v30 b) as [[m' b']| |]; try discriminate H6.
    cbn [bind fst] in *. injection H6 as ->. reflexivity.
Qed.
(** A refusal in version 3.0 has four bytes; the receiver looks at eight. *)
Lemma refusal_sent_30 : forall v d, exists blob, send_reply v30 (failed_reply v d) = Ok blob /\ forall pv, receive pv blob = UB.
Proof. intros v d. eexists. split; [vm_compute; reflexivity|]. intro pv. unfold receive.
  match goal with |- bind ?x _ = _ => let y := eval vm_compute in x in change x with y end. reflexivity. Qed.
Lemma reply_unsupported : forall pv m, pv <> v30 -> pv <> v31 -> wf_ParticipantAnnouncementReply m -> send_reply pv m = Exn.
Proof.
  intros pv m H0 H1 Hm. destruct (appends_reply31 m Hm) as [rest Ha].
  eapply send_unsupported; [exact H0|exact H1|].
  unfold ser_ParticipantAnnouncementReply in *. rewrite (version_eqb_neq pv v30 H0).
  change (version_eqb v31 v30) with false in Ha. exact Ha.
Qed.
