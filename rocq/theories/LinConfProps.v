(** Properties of what LIN controllers report and answer, depending on their configuration (C64). *)
From Coq Require Import NArith List Arith Bool Lia.
From Verif Require Import Base LinModel LinProofs LinSleep LinConf.
Import ListNotations.
Open Scope N_scope.

Definition fr (id len : N) := mkF id CsUnknown len [1; 2; 3; 4; 0; 0; 0; 0].
(** A slave that transmits frame 5, and receives 6 (of length 4) and 7 (enhanced checksum); it is reconfigured a later. *)
Definition hist1 : list lop :=
  [LSetResponse (mkR (fr 9 4) RTx); LInit Slave [mkR (fr 5 4) RTx; mkR (fr 6 4) RRx; mkR (mkF 7 CsEnhanced 255 []) RRx; mkR (fr 64 4) RTx];
   LReceive 3 false (MConfig Master false [mkR (fr 6 4) RTx]); LUpdateTx (mkF 5 CsClassic 8 [9]); LSetResponse (mkR (fr 6 8) RTx);
   LSetResponse (mkR (fr 8 2) RTx); LGoToSleepInternal; LWakeup; LSendFrame (fr 10 4) MasterResponse; LReceive 1 false (MResponses [mkR (fr 6 4) RUnused])].

(** The answer to a header follows from the history: a static controller that is not simulated transmits the frame configured
    for the id, once, if it is configured to transmit it and its length is known, and it reports this; otherwise it does nothing. *)
Theorem C64_answer_as_configured : forall a l c os from sim id,
  crun l (ctrl0 a) = Some (c, os) -> c_detailed c = false -> g_dyn (configured a l) = false -> id < 64 ->
  let r := g_tab (configured a l) id in
  cexec (LReceive from sim (MHeader id)) c =
  (c, (if rmode_eqb (r_mode r) RTx && negb (f_len (r_frame r) =? 255)
       then [OSend (MTransmission (r_frame r) RxOk); OFrameStatus (r_frame r) TxOk] else []), LOk).
Proof.
  intros a l c os from sim id E D Y ID r. destruct (rep_run a l c os E) as [_ R].
  cbn [cexec]. unfold catch, receive, receive_header, process_header, get. rewrite D. cbn [negb]. rewrite (p_dyn _ _ _ R), Y, (p_at _ _ _ _ R ID). fold r.
  rewrite D. destruct (rmode_eqb (r_mode r) RTx); cbn [negb andb]; [|reflexivity]. unfold len_unknown. destruct (f_len (r_frame r) =? 255); reflexivity.
Qed.
Print Assumptions C64_answer_as_configured.
Example C64_answer_example : exists c os, crun hist1 (ctrl0 1) = Some (c, os) /\ c_detailed c = false /\ g_dyn (configured 1 hist1) = false /\   map (fun id => snd (fst (cexec (LReceive 3 false (MHeader id)) c))) [5; 6; 8; 9; 10] =
  [[OSend (MTransmission (mkF 5 CsUnknown 4 [9]) RxOk); OFrameStatus (mkF 5 CsUnknown 4 [9]) TxOk]; [];
   [OSend (MTransmission (fr 8 2) RxOk); OFrameStatus (fr 8 2) TxOk]; []; []].
Proof. do 2 eexists. split; [vm_compute; reflexivity|]. repeat split; vm_compute; reflexivity. Qed.

(** What should be reported about a transmission to a node configured with [r] for its id: nothing if it is not concerned; the result from the
    sender's point of view if it is a transmitter; an error if length or checksum model are not the expected ones; else the result. *)
Definition as_sender (st : fstatus) : fstatus := match st with RxOk => TxOk | RxBusy => TxBusy | RxError => TxError | _ => st end.
Definition expected (r : response) (f : frame) (st : fstatus) : option fstatus :=
  let differs := (negb (f_len (r_frame r) =? 255) && negb (f_len (r_frame r) =? f_len f)) ||
                 match f_csm (r_frame r), f_csm f with CsEnhanced, CsClassic | CsClassic, CsEnhanced => true | _, _ => false end in
  match r_mode r with
  | RUnused => None
  | RTx => match st with NotOk => None | _ => Some (as_sender st) end
  | RRx => if differs then Some RxError else match st with NotOk => None | _ => Some st end
  end.
Definition reports (o : list lout) : list (frame * fstatus) := flat_map (fun x => match x with OFrameStatus f st => [(f, st)] | _ => [] end) o.
Theorem C64_reported_as_configured : forall a l c os from sim f st,
  crun l (ctrl0 a) = Some (c, os) -> c_detailed c = false -> g_dyn (configured a l) = false ->
  c_status c = StOperational -> f_id f < 64 -> f_len f <= 8 \/ f_len f = 255 ->
  reports (snd (fst (cexec (LReceive from sim (MTransmission f st)) c))) =
  match expected (g_tab (configured a l) (f_id f)) f st with Some s => [(f, s)] | None => [] end.
Proof.
  intros a l c os from sim f st E D Y O ID LE. destruct (rep_run a l c os E) as [_ R].
  assert (CO : forall x, snd (fst (catch x c)) = snd (fst (x c))) by (intros x; unfold catch; destruct (x c) as [[? ?] []]; reflexivity).
  cbn [cexec]. rewrite CO. unfold receive, receive_transmission, get. rewrite D, O. cbn [negb].
  assert (M : cmode_eqb (c_mode c) Inactive = false).
  { pose proof (p_init _ _ _ R) as I. unfold unk in I. rewrite O in I. cbn in I. rewrite (p_mode _ _ _ R). unfold is_init in I. destruct (cmode_eqb (g_mode (configured a l)) Inactive); [discriminate|reflexivity]. }
  rewrite M. unfold len_unknown. replace (negb (f_len f =? 255) && (8 <? f_len f)) with false by lia. replace (64 <=? f_id f) with false by lia.
  unfold calc_status. rewrite (p_ndyn _ _ _ R), Y, D, (p_at _ _ _ _ R ID). set (r := g_tab (configured a l) (f_id f)).
  match goal with |- context [if ?b then match c_mode c with Inactive => skip | _ => _ end else skip] => set (z := if b then match c_mode c with Inactive => skip | _ => _ end else skip) end.
  assert (Z : forall c', reports (snd (fst (z c'))) = []).
  { intros c'. subst z. destruct (_ && _); [|reflexivity]. destruct (c_mode c); try reflexivity. unfold get. destruct (cstatus_eqb _ _); reflexivity. }
  assert (SQ : forall s, reports (snd (fst ((match s with NotOk => skip | _ => emit (OFrameStatus f s) end ;; z) c))) = match s with NotOk => [] | _ => [(f, s)] end).
  { clearbody z. intros s. specialize (Z c). destruct s; unfold seq, skip, emit; destruct (z c) as [[c2 o2] r2]; cbn in *; rewrite ?Z; reflexivity. }
  rewrite SQ. unfold expected, as_sender, to_tx. destruct (r_mode r).
  - reflexivity.
  - unfold len_unknown. destruct (negb (f_len (r_frame r) =? 255) && negb (f_len (r_frame r) =? f_len f)); [reflexivity|]. cbn [orb].
    destruct (f_csm f), (f_csm (r_frame r)); cbn; destruct st; reflexivity.
  - destruct st; reflexivity.
Qed.
Print Assumptions C64_reported_as_configured.
Example C64_reported_example : exists c os, crun hist1 (ctrl0 1) = Some (c, os) /\ c_status c = StOperational /\
  map (fun x => reports (snd (fst (cexec (LReceive 3 false (MTransmission (fst x) (snd x))) c))))
    [(fr 5 4, RxOk); (fr 6 4, RxOk); (fr 6 3, RxOk); (mkF 7 CsClassic 2 [], RxOk); (fr 9 4, RxOk); (fr 5 4, RxError); (fr 6 4, RxNoResponse)] =
  [[(fr 5 4, TxOk)]; [(fr 6 4, RxOk)]; [(fr 6 3, RxError)]; [(mkF 7 CsClassic 2 [], RxError)]; []; [(fr 5 4, TxError)]; [(fr 6 4, RxNoResponse)]].
Proof. do 2 eexists. split; [vm_compute; reflexivity|]. split; vm_compute; reflexivity. Qed.

(** Frames with an invalid id or length are not reported, whatever happened before. *)
Theorem C64_invalid_frames_ignored : forall a l c os from sim f st,
  crun l (ctrl0 a) = Some (c, os) -> 64 <= f_id f \/ (8 < f_len f /\ f_len f <> 255) ->
  cexec (LReceive from sim (MTransmission f st)) c = (c, [], LOk).
Proof.
  intros a l c os from sim f st _ H. cbn [cexec]. unfold catch, receive, receive_transmission, get, len_unknown.
  destruct (negb (if c_detailed c then sim else true)); [reflexivity|]. destruct (cmode_eqb (c_mode c) Inactive); [reflexivity|].
  destruct (c_status c); try reflexivity.
  all: destruct (negb (f_len f =? 255) && (8 <? f_len f)) eqn:X; [reflexivity|]; replace (64 <=? f_id f) with true by lia; reflexivity.
Qed.
Print Assumptions C64_invalid_frames_ignored.
(** The handler for going to sleep is called once for the go-to-sleep frame, and for no other frame, on an operational slave, however it is configured. *)
Definition is_sleep_frame (f : frame) : Prop := f_id f = 60 /\ f_data f = [0; 255; 255; 255; 255; 255; 255; 255].
Lemma list_eqb_eq x : forall y, list_eqb x y = true <-> x = y.
Proof.
  unfold list_eqb. induction x as [|a x IH]; intros [|b y]; cbn; split; try congruence; try discriminate.
  - rewrite !andb_true_iff. intros (A & B & C). apply N.eqb_eq in B. subst. f_equal. apply IH. rewrite andb_true_iff. auto.
  - intros [= -> ->]. rewrite N.eqb_refl. cbn. apply IH. reflexivity.
Qed.
Theorem C64_go_to_sleep_reported : forall a l c os from sim f st,
  crun l (ctrl0 a) = Some (c, os) -> c_detailed c = false ->
  c_status c = StOperational -> g_mode (configured a l) = Slave -> f_id f < 64 -> f_len f <= 8 \/ f_len f = 255 ->
  (is_sleep_frame f -> filter (fun x => match x with OGoToSleep => true | _ => false end) (snd (fst (cexec (LReceive from sim (MTransmission f st)) c))) = [OGoToSleep]) /\
  (~ is_sleep_frame f -> ~ In OGoToSleep (snd (fst (cexec (LReceive from sim (MTransmission f st)) c)))).
Proof.
  intros a l c os from sim f st E D O MS ID LE. destruct (rep_run a l c os E) as [_ R].
  assert (CO : forall x, snd (fst (catch x c)) = snd (fst (x c))) by (intros x; unfold catch; destruct (x c) as [[? ?] []]; reflexivity).
  cbn [cexec]. rewrite CO. unfold receive, receive_transmission, get. rewrite D, O, (p_mode _ _ _ R), MS. cbn [negb cmode_eqb].
  unfold len_unknown. replace (negb (f_len f =? 255) && (8 <? f_len f)) with false by lia. replace (64 <=? f_id f) with false by lia.
  set (b := (f_id f =? f_id sleep_frame) && list_eqb (f_data f) (f_data sleep_frame)).
  assert (B : b = true <-> is_sleep_frame f). { subst b. rewrite andb_true_iff, N.eqb_eq, list_eqb_eq. reflexivity. }
  assert (C : exists s, calc_status f st b c = Some s).
  { unfold calc_status. rewrite D, (p_at _ _ _ _ R ID). destruct (nd_dyn _); eauto. }
  destruct C as (s & ->). split; intros H.
  - apply B in H. rewrite H. destruct s; reflexivity.
  - destruct b; [exfalso; apply H, B; reflexivity|]. destruct s; cbn; intuition discriminate.
Qed.
Print Assumptions C64_go_to_sleep_reported.
Example C64_sleep_example : exists c os, crun hist1 (ctrl0 1) = Some (c, os) /\ g_mode (configured 1 hist1) = Slave /\
  snd (fst (cexec (LReceive 3 false (MTransmission sleep_frame RxOk)) c)) = [OGoToSleep].
Proof. do 2 eexists. split; [vm_compute; reflexivity|]. split; vm_compute; reflexivity. Qed.
(** A master receives the frames it requested from slaves, if a slave announced to transmit them. *)
Definition hist2 : list lop :=
  [LInit Master [mkR (fr 5 4) RTx]; LReceive 3 false (MConfig Slave false [mkR (fr 6 4) RTx]); LSendFrame (fr 6 4) SlaveResponse; LSendFrame (fr 7 4) SlaveResponse].
Example C64_master_example : exists c os, crun hist2 (ctrl0 1) = Some (c, os) /\ c_status c = StOperational /\ c_detailed c = false /\
  map (fun x => reports (snd (fst (cexec (LReceive 3 false (MTransmission (fst x) (snd x))) c)))) [(fr 6 4, RxOk); (fr 6 2, RxOk); (fr 7 4, RxOk)] =
  [[(fr 6 4, RxOk)]; [(fr 6 2, RxError)]; []].
Proof. do 2 eexists. split; [vm_compute; reflexivity|]. repeat split; vm_compute; reflexivity. Qed.
(** A response can not be changed by SetFrameResponse once the id is used. *)
Theorem C64_set_response_does_not_change : forall a l c os r,
  crun l (ctrl0 a) = Some (c, os) -> f_id (r_frame r) < 64 ->
  r_mode (g_tab (configured a l) (f_id (r_frame r))) <> RUnused ->
  fst (fst (cexec (LSetResponse r) c)) = c.
Proof.
  intros a l c os r E ID H. destruct (rep_run a l c os E) as [_ R]. cbn [cexec]. unfold set_frame_response, if_uninit, if_not_dynamic, get.
  destruct (cstatus_eqb _ _); [reflexivity|]. destruct (c_dynamic c); [reflexivity|]. destruct (64 <=? _); [reflexivity|]. destruct (rmode_eqb _ _); [reflexivity|].
  rewrite (p_at _ _ _ _ R ID). destruct (r_mode _); [congruence| |]; reflexivity.
Qed.
Print Assumptions C64_set_response_does_not_change.
Example C64_set_response_example : exists c os, crun hist1 (ctrl0 1) = Some (c, os) /\ g_tab (configured 1 hist1) 6 = mkR (fr 6 4) RRx.
Proof. do 2 eexists. split; vm_compute; reflexivity. Qed.
