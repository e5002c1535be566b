From Coq Require Import List NArith Arith Bool Lia.
From Verif Require Import Base MessageBufferModel RingBufferModel PeerRecvModel PeerRecvSpec PeerRecvProofs
  PeerSendModel PeerSendSpec PeerSendProofs.
Import ListNotations.

Lemma recv_prefix_ok : forall hd cap l msgs, 4 <= cap -> Forall is_frame msgs -> accepts hd -> only_chunks l ->
  length (concat msgs) <= length l ->
  exists s, rx_conn hd cap l (concat msgs) = Ok (Some (s, [])) /\ rx_out s = msgs.
Proof.
  intros hd cap l msgs H1 H2 H3 H4 H5. destruct (recv_frames hd cap l msgs H1 H2) as (s & r & E1 & _ & E2).
  destruct (E2 H3 H4) as (_ & _ & _ & E3 & E4). rewrite (E4 H5) in *. exists s. auto.
Qed.

(** A sender whose queue has been written, connected to a receiver that has read everything. *)
Lemma end_to_end_wire : forall thr evs s hd cap l, quiet evs -> tx_run thr evs tx_new = Ok s ->
  t_cur s = [] -> t_queue s = [] -> t_agg s = [] -> Forall (fun m => is_frame (snd m)) (sent evs) ->
  4 <= cap -> accepts hd -> only_chunks l -> length (t_wire s) <= length l ->
  exists r L, rx_conn hd cap l (t_wire s) = Ok (Some (r, [])) /\ rx_out r = map snd L /\
    filter aggregated L = filter aggregated (sent evs) /\
    filter (fun m => negb (aggregated m)) L = filter (fun m => negb (aggregated m)) (sent evs) /\
    (~ In EEnable evs -> L = sent evs) /\ t_wire s = concat (map snd L) /\ Forall is_frame (map snd L).
Proof.
  intros thr evs s hd cap l Q H Hc Hq Hg HF Hcap Ha Ho Hl.
  destruct (run_inv thr evs tx_new [] [] [] Q inv_new) as (s' & L & A & E1 & E2 & E3).
  rewrite E1 in H. inversion H; subst s'. cbn [app] in E2. destruct E2.
  assert (HfA : Forall (fun m => is_frame (snd m)) (filter aggregated (L ++ A))).
  { rewrite v_cls. clear - HF. induction HF; cbn; [constructor|]. destruct (aggregated x); [constructor|]; assumption. }
  assert (HA : A = []).
  { destruct A as [|m A]; [reflexivity|]. exfalso. rewrite Hg in v_agg. unfold bytes_of in v_agg. cbn in v_agg.
    symmetry in v_agg. apply app_eq_nil in v_agg. destruct v_agg as [Hm _].
    rewrite filter_app in HfA. apply Forall_app in HfA. destruct HfA as [_ HfA].
    inversion v_A; subst. cbn [filter] in HfA. rewrite H2 in HfA. inversion HfA as [|? ? [Hx _] _]; subst.
    rewrite Hm in Hx. cbn in Hx. lia. }
  subst A. rewrite app_nil_r in *.
  assert (HfL : Forall is_frame (map snd L)).
  { assert (HfO : Forall (fun m => is_frame (snd m)) (filter (fun m => negb (aggregated m)) L)).
    { rewrite v_oth. clear - HF. induction HF; cbn; [constructor|]. destruct (aggregated x); cbn; [|constructor]; assumption. }
    clear - HfA HfO. induction L as [|x L IH]; cbn in *; constructor.
    - destruct (aggregated x); cbn in *; [inversion HfA|inversion HfO]; assumption.
    - destruct (aggregated x); cbn in *; [inversion HfA|inversion HfO]; auto. }
  assert (HW : t_wire s = concat (map snd L)).
  { unfold outgoing in v_out. rewrite Hc, Hq in v_out. cbn in v_out. rewrite app_nil_r in v_out. exact v_out. }
  rewrite HW in *.
  destruct (recv_prefix_ok hd cap l (map snd L) Hcap HfL Ha Ho Hl) as (r & R1 & R2).
  exists r, L. repeat split; auto. intro Hn. apply v_plain. apply E3; auto.
Qed.
Lemma end_to_end : forall thr evs s hd cap l, quiet evs -> tx_run thr evs tx_new = Ok s ->
  t_cur s = [] -> t_queue s = [] -> t_agg s = [] -> Forall (fun m => is_frame (snd m)) (sent evs) ->
  4 <= cap -> accepts hd -> only_chunks l -> length (t_wire s) <= length l ->
  exists r L, rx_conn hd cap l (t_wire s) = Ok (Some (r, [])) /\ rx_out r = map snd L /\
    filter aggregated L = filter aggregated (sent evs) /\
    filter (fun m => negb (aggregated m)) L = filter (fun m => negb (aggregated m)) (sent evs) /\
    (~ In EEnable evs -> L = sent evs).
Proof.
  intros thr evs s hd cap l Q H H1 H2 H3 F C A O L.
  destruct (end_to_end_wire thr evs s hd cap l Q H H1 H2 H3 F C A O L) as (r & M & R1 & R2 & R3 & R4 & R5 & _).
  exists r, M. auto.
Qed.
