(** Proofs about networks of LIN controllers: what follows a header. *)
From Coq Require Import NArith List Arith Bool Lia.
From Verif Require Import Base LinModel LinSpec LinProofs LinNet LinNetProofs.
Import ListNotations.
Open Scope N_scope.

Lemma own_entry id c : own c -> id < 64 -> exists r, entry id c = Some r /\ resp_at id (this_node c) = Some r.
Proof.
  intros O L. destruct (resp_at_some id (this_node c)) as (r & A & B); [exact (get_node_ok _ _ (ow_tables c O))|exact L|]. exists r. auto.
Qed.
Definition hdr_out (id : N) (c : ctrl) : list lout :=
  match answer id c with Some f => if f_len f =? 255 then [] else [OSend (MTransmission f RxOk); OFrameStatus f TxOk] | None => [] end.
Lemma header_out id c : own c -> id < 64 -> catch (receive_header true id) c = (c, hdr_out id c, LOk).
Proof.
  intros O L. destruct (own_entry id c O L) as (r & A & B). unfold catch, receive_header, get. cbn [negb]. rewrite (ow_static c O).
  unfold process_header, get. rewrite (ow_trivial c O), B. unfold hdr_out, answer. rewrite A. destruct r as [f md]. cbn [r_mode r_frame].
  destruct md; cbn [rmode_eqb negb]; try reflexivity. unfold len_unknown. destruct (f_len f =? 255); reflexivity.
Qed.
Lemma deliver_header a id c : own c -> id < 64 -> cexec (LReceive a false (MHeader id)) c = (c, hdr_out id c, LOk).
Proof. intros O L. rewrite <- (header_out id c O L). cbn [cexec]. unfold catch, receive, get. rewrite (ow_trivial c O). reflexivity. Qed.
Lemma answer_id id c f : own c -> answer id c = Some f -> f_id f = id.
Proof.
  unfold answer. intros O. destruct (entry id c) as [[g md]|] eqn:E; [|discriminate]. destruct md; try discriminate. injection 1 as ->.
  assert (NO : node_ok (this_node c)) by exact (get_node_ok _ _ (ow_tables c O)).
  unfold entry in E. assert (LT : (N.to_nat id < 64)%nat).
  { assert (nth_error (nd_resp (this_node c)) (N.to_nat id) <> None) by congruence. apply nth_error_Some in H. unfold node_ok, tbl_ok in NO. destruct NO as (LE & _). rewrite LE in H. exact H. }
  assert (R : resp_at id (this_node c) = Some (mkR f RTx)) by (unfold resp_at; replace (id <? 64) with true by lia; exact E).
  exact (resp_at_id id (this_node c) (mkR f RTx) NO R ltac:(discriminate)).
Qed.
Definition frame_events (o : list lout) : list (frame * fstatus) := flat_map (fun x => match x with OFrameStatus f st => [(f, st)] | _ => [] end) o.
Lemma deliver_tx_any a f st c : own c -> exists o, cexec (LReceive a false (MTransmission f st)) c = (c, o, LOk) /\ sent o = [].
Proof.
  intros O. cbn [cexec]. unfold catch, receive, get. rewrite (ow_trivial c O).
  pose proof (receive_transmission_same true f st c O) as S.
  assert (NU : snd (receive_transmission true f st c) <> LUB).
  { unfold receive_transmission, get. cbn [negb]. destruct (cmode_eqb _ _); [cbn; discriminate|].
    destruct (c_status c) eqn:CS; cbn [snd]; try (cbn; discriminate).
    - destruct (_ && _); [cbn; discriminate|]. destruct (64 <=? f_id f) eqn:L; [cbn; discriminate|].
      destruct (calc_status_some f st ((f_id f =? f_id sleep_frame) && list_eqb (f_data f) (f_data sleep_frame)) c (ow_tables c O)) as (s & E); [lia|]. rewrite E.
      unfold seq, skip, emit. destruct s; (destruct (_ && _); [|cbn; discriminate]); destruct (c_mode c); cbn; rewrite ?CS; cbn; discriminate.
    - destruct (ow_state c O) as [(X & _)|([X|X] & _)]; congruence. }
  destruct (receive_transmission true f st c) as [[c1 o] r]. destruct S as (-> & S). cbn in NU. exists o. destruct r; [auto|auto|contradiction].
Qed.
Lemma deliver_tx a f c : own c -> f_id f < 64 -> answer (f_id f) c = None -> f_len f <> 255 ->
  exists o, cexec (LReceive a false (MTransmission f RxOk)) c = (c, o, LOk) /\ sent o = [] /\ frame_events o = reception c f.
Proof.
  intros O L AN LN. destruct (deliver_tx_any a f RxOk c O) as (o & E & S). exists o. split; [exact E|]. split; [exact S|].
  cbn [cexec] in E. unfold catch, receive, get in E. rewrite (ow_trivial c O) in E.
  destruct (own_entry _ c O L) as ([g md] & EN & RA).
  unfold receive_transmission, get in E. cbn [negb] in E. unfold reception, operational.
  destruct (cmode_eqb (c_mode c) Inactive); [cbn in E; injection E as <-; reflexivity|].
  destruct (c_status c) eqn:CS; cbn [cstatus_eqb negb orb] in *; try (cbn in E; injection E as <-; reflexivity).
  2: { destruct (ow_state c O) as [(X & _)|([X|X] & _)]; congruence. }
  unfold len_unknown in E. replace (f_len f =? 255) with false in E by lia. cbn [negb andb] in E.
  destruct (8 <? f_len f); [cbn in E; injection E as <-; reflexivity|].
  replace (64 <=? f_id f) with false in E by lia.
  unfold calc_status in E. assert (ND : nd_dyn (this_node c) = false) by (apply own_dyn, O). rewrite ND, (ow_trivial c O), RA in E. cbn [r_mode r_frame] in E.
  rewrite EN. unfold answer in AN. rewrite EN in AN. destruct md; [| |discriminate].
  - unfold seq, skip, emit in E. destruct (_ && _) in E; [|cbn in E; injection E as <-; reflexivity].
    destruct (c_mode c); cbn in E; rewrite ?CS in E; cbn in E; injection E as <-; reflexivity.
  - unfold len_unknown in E.
    assert (FIN : forall (bs : bool) s os, s <> NotOk -> (let (p, r) := ((match s with NotOk => skip | _ => emit (OFrameStatus f s) end) ;;
       (if bs then
          match c_mode c with Slave => emit OGoToSleep | Master => get (fun c0 => if cstatus_eqb (c_status c0) StSleepPending then modify (set_status StSleep) else skip) | Inactive => skip end
        else skip)) c in let (c1, o0) := p in match r with LOk => (c1, o0, LOk) | LThrow => (c1, o0, LOk) | LUB => (c1, o0, LUB) end) = (c, os, LOk) -> frame_events os = [(f, s)]).
    { intros bs s os NN. unfold seq, skip, emit. destruct bs; [|destruct s; cbn; try contradiction; injection 1 as <-; reflexivity].
      destruct (c_mode c); destruct s; unfold get; cbn; rewrite ?CS; cbn; try contradiction; injection 1 as <-; reflexivity. }
    destruct (negb (f_len g =? 255) && negb (f_len g =? f_len f)); cbn [orb].
    + apply (FIN ((f_id f =? f_id sleep_frame) && list_eqb (f_data f) (f_data sleep_frame)) RxError); [discriminate|exact E].
    + destruct (_ && _ && _); [apply (FIN ((f_id f =? f_id sleep_frame) && list_eqb (f_data f) (f_data sleep_frame)) RxError)|apply (FIN ((f_id f =? f_id sleep_frame) && list_eqb (f_data f) (f_data sleep_frame)) RxOk)]; try discriminate; exact E.
Qed.

(** ** Delivering messages that leave the controllers alone *)
Lemma lnstep_deliver s a b x r o : ln_q s a b = x :: r -> (b < ln_size s)%nat -> cexec (LReceive (N.of_nat a) false x) (ln_c s b) = (ln_c s b, o, LOk) ->
  exists s', lnstep (NDeliver a b) s = Some (s', map (pair b) o) /\ ln_size s' = ln_size s /\ (forall i, ln_c s' i = ln_c s i) /\
    (forall p q, ln_q s' p q = (if (p =? a)%nat && (q =? b)%nat then r else ln_q s p q) ++ (if (p =? b)%nat && negb (q =? b)%nat && (q <? ln_size s)%nat then sent o else [])).
Proof.
  intros Q L E. cbn [lnstep]. rewrite Q. replace (b <? ln_size s)%nat with true by (symmetry; apply Nat.ltb_lt; exact L). rewrite E.
  eexists. split; [reflexivity|]. cbn [lnet_after ln_size ln_c ln_q]. repeat split.
  - intros i. unfold fupd. destruct (Nat.eqb_spec i b) as [->|]; reflexivity.
  - intros p q. destruct ((p =? b)%nat && negb (q =? b)%nat && (q <? ln_size s)%nat); [reflexivity|]. rewrite app_nil_r. reflexivity.
Qed.
Lemma transmissions_sent b o : transmissions (map (pair b) o) = flat_map (fun m => match m with MTransmission f st => [(b, f, st)] | _ => [] end) (sent o).
Proof. induction o as [|x o IH]; [reflexivity|]. unfold transmissions in *. cbn. rewrite IH. destruct x as [m| | | | | |]; try reflexivity; destruct m; reflexivity. Qed.
Lemma transmissions_app a b : transmissions (a ++ b) = transmissions a ++ transmissions b.
Proof. apply flat_map_app. Qed.
Lemma statuses_app i a b : statuses i (a ++ b) = statuses i a ++ statuses i b.
Proof. apply flat_map_app. Qed.
Lemma statuses_map i b o : statuses i (map (pair b) o) = if (b =? i)%nat then frame_events o else [].
Proof.
  induction o as [|x o IH]; [destruct (b =? i)%nat; reflexivity|]. cbn. unfold statuses in IH. rewrite IH.
  destruct (b =? i)%nat; [destruct x; reflexivity|reflexivity].
Qed.

(** only transmissions are on their way: nothing more is sent *)
Lemma drain_quiet l : forall s, forallb is_deliver l = true -> (forall i, (i < ln_size s)%nat -> own (ln_c s i)) ->
  (forall i j, ln_q s i j <> [] -> (j < ln_size s)%nat) ->
  (forall i j x, In x (ln_q s i j) -> exists f st, x = MTransmission f st) ->
  exists s' out, lnrun l s = Some (s', out) /\ transmissions out = [].
Proof.
  induction l as [|o l IH]; intros s D OW QV QC; [exists s, []; auto|]. cbn [forallb] in D. apply andb_prop in D. destruct D as (D1 & D2).
  destruct o as [|a b|]; try discriminate. cbn [lnrun].
  destruct (ln_q s a b) as [|x r] eqn:Q.
  - cbn [lnstep]. rewrite Q. destruct (IH s D2 OW QV QC) as (s' & out & E & T). rewrite E. exists s', out. auto.
  - assert (B : (b < ln_size s)%nat) by (apply (QV a b); congruence). destruct (QC a b x) as (f & st & ->); [rewrite Q; left; reflexivity|].
    destruct (deliver_tx_any (N.of_nat a) f st (ln_c s b) (OW b B)) as (o & E & S).
    destruct (lnstep_deliver s a b _ r o Q B E) as (s1 & E1 & SZ & CC & QQ). rewrite E1.
    destruct (IH s1 D2) as (s' & out & E2 & T).
    + intros i H. rewrite SZ in H. rewrite CC. auto.
    + intros i j. rewrite QQ, S, SZ. destruct (_ && negb _ && _); rewrite app_nil_r; (destruct (_ && _) eqn:X; [intros _; apply andb_prop in X; destruct X as (_ & X); apply Nat.eqb_eq in X; subst j; exact B|apply QV]).
    + intros i j x. rewrite QQ, S. intros H. apply (QC i j). destruct (_ && negb _ && _) in H; rewrite app_nil_r in H; (destruct (_ && _) eqn:X in H; [|exact H]);
        apply andb_prop in X; destruct X as (X & Y); apply Nat.eqb_eq in X, Y; subst; rewrite Q; right; exact H.
    + rewrite E2. exists s', (map (pair b) o ++ out). split; [reflexivity|]. rewrite transmissions_app, T, transmissions_sent, S. reflexivity.
Qed.

(** ** Exactly one node answers *)
Definition hc (l : list lmsg) : nat := length (filter (fun m => match m with MHeader _ => true | _ => false end) l).
Definition tc (l : list lmsg) : nat := length (filter (fun m => match m with MTransmission _ _ => true | _ => false end) l).
Lemma hc_app a b : hc (a ++ b) = (hc a + hc b)%nat. Proof. unfold hc. rewrite filter_app, app_length. reflexivity. Qed.
Lemma tc_app a b : tc (a ++ b) = (tc a + tc b)%nat. Proof. unfold tc. rewrite filter_app, app_length. reflexivity. Qed.
Record drain (s0 : lnet) (m j : nat) (f : frame) (s : lnet) (out : list (nat * lout)) : Prop := mkDrain {
  dr_size : ln_size s = ln_size s0; dr_c : forall i, ln_c s i = ln_c s0 i;
  dr_valid : forall a b, ln_q s a b <> [] -> (a < ln_size s0)%nat /\ (b < ln_size s0)%nat /\ a <> b;
  dr_msgs : forall a b x, In x (ln_q s a b) -> (x = MHeader (f_id f) /\ a = m) \/ (x = MTransmission f RxOk /\ a = j);
  dr_phase :
    (hc (ln_q s m j) = 1%nat /\ transmissions out = [] /\ (forall i, statuses i out = []) /\ (forall i, tc (ln_q s j i) = 0%nat))
    \/ (hc (ln_q s m j) = 0%nat /\ transmissions out = [(j, f, RxOk)] /\ statuses j out = [(f, TxOk)] /\
        forall i, (i < ln_size s0)%nat -> i <> j ->
          (tc (ln_q s j i) = 1%nat /\ statuses i out = []) \/ (tc (ln_q s j i) = 0%nat /\ statuses i out = reception (ln_c s0 i) f)) }.

Section OneResponder.
Context (s0 : lnet) (m j : nat) (f : frame).
Hypothesis OW : forall i, (i < ln_size s0)%nat -> own (ln_c s0 i).
Hypothesis HJ : (j < ln_size s0)%nat.
Hypothesis ID : f_id f < 64.
Hypothesis LEN : f_len f <> 255.
Hypothesis AJ : answer (f_id f) (ln_c s0 j) = Some f.
Hypothesis AO : forall i, (i < ln_size s0)%nat -> i <> j -> answer (f_id f) (ln_c s0 i) = None.

Lemma hdr_out_j : hdr_out (f_id f) (ln_c s0 j) = [OSend (MTransmission f RxOk); OFrameStatus f TxOk].
Proof using AJ LEN. unfold hdr_out. rewrite AJ. replace (f_len f =? 255) with false by (symmetry; apply N.eqb_neq, LEN). reflexivity. Qed.
Lemma hdr_out_other i : (i < ln_size s0)%nat -> i <> j -> hdr_out (f_id f) (ln_c s0 i) = [].
Proof using AO. intros A B. unfold hdr_out. rewrite AO by assumption. reflexivity. Qed.

Lemma drain_step a b s out : drain s0 m j f s out -> exists s' o, lnstep (NDeliver a b) s = Some (s', o) /\ drain s0 m j f s' (out ++ o).
Proof.
  intros D. destruct (ln_q s a b) as [|x r] eqn:Q.
  { cbn [lnstep]. rewrite Q. exists s, []. rewrite app_nil_r. auto. }
  destruct D as [D1 D2 D3 D4 D5]. destruct (D3 a b) as (HA & HB & NE); [congruence|].
  assert (HB' : (b < ln_size s)%nat) by (rewrite D1; exact HB).
  assert (OB : own (ln_c s b)) by (rewrite D2; auto).
  assert (EQB : forall p q : nat, (p =? q)%nat = true -> p = q) by (intros; apply Nat.eqb_eq; assumption).
  assert (QV : forall (o : list lout) s', (forall p q, ln_q s' p q = (if (p =? a)%nat && (q =? b)%nat then r else ln_q s p q) ++ (if (p =? b)%nat && negb (q =? b)%nat && (q <? ln_size s)%nat then sent o else [])) ->
      forall p q, ln_q s' p q <> [] -> (p < ln_size s0)%nat /\ (q < ln_size s0)%nat /\ p <> q).
  { intros o s' QQ p q. rewrite QQ. destruct ((p =? b)%nat && negb (q =? b)%nat && (q <? ln_size s)%nat) eqn:E1.
    - intros _. apply andb_prop in E1. destruct E1 as (E1 & E3). apply andb_prop in E1. destruct E1 as (E1 & E2).
      apply EQB in E1. apply negb_true_iff, Nat.eqb_neq in E2. apply Nat.ltb_lt in E3. subst p. rewrite <- D1. auto.
    - rewrite app_nil_r. destruct ((p =? a)%nat && (q =? b)%nat) eqn:E; [|apply D3]. intros _. apply andb_prop in E. destruct E as (E & F).
      apply EQB in E, F. subst. auto. }
  assert (QM : forall (o : list lout) s', (forall p q, ln_q s' p q = (if (p =? a)%nat && (q =? b)%nat then r else ln_q s p q) ++ (if (p =? b)%nat && negb (q =? b)%nat && (q <? ln_size s)%nat then sent o else [])) ->
      (forall y, In y (sent o) -> y = MTransmission f RxOk /\ b = j) ->
      forall p q y, In y (ln_q s' p q) -> (y = MHeader (f_id f) /\ p = m) \/ (y = MTransmission f RxOk /\ p = j)).
  { intros o s' QQ SO p q y. rewrite QQ. intros H. apply in_app_or in H. destruct H as [H|H].
    - apply (D4 p q). destruct ((p =? a)%nat && (q =? b)%nat) eqn:E; [|exact H]. apply andb_prop in E. destruct E as (E & F).
      apply EQB in E, F. subst. rewrite Q. right. exact H.
    - destruct ((p =? b)%nat && negb (q =? b)%nat && (q <? ln_size s)%nat) eqn:E1; [|destruct H]. apply andb_prop in E1. destruct E1 as (E1 & _). apply andb_prop in E1.
      destruct E1 as (E1 & _). apply EQB in E1. subst p. right. auto. }
  destruct (D4 a b x) as [(-> & ->)|(-> & ->)]; [rewrite Q; left; reflexivity| |].
  - (* a header *)
    pose proof (deliver_header (N.of_nat m) (f_id f) (ln_c s b) OB ID) as E. rewrite D2 in E.
    destruct (Nat.eq_dec b j) as [->|NJ].
    + rewrite hdr_out_j in E. rewrite <- D2 in E.
      destruct (lnstep_deliver s m j _ r _ Q HB' E) as (s1 & E1 & SZ & CC & QQ).
      exists s1, (map (pair j) [OSend (MTransmission f RxOk); OFrameStatus f TxOk]). split; [exact E1|].
      assert (H1 : hc (ln_q s m j) = S (hc r)) by (rewrite Q; reflexivity).
      destruct D5 as [(P1 & P2 & P3 & P4)|(P1 & _)]; [|lia].
      constructor; [congruence|intros i; rewrite CC; auto|eapply QV; eauto|eapply QM; eauto|].
      * intros y [<-|[]]. auto.
      * right. repeat split.
        -- rewrite QQ. rewrite !Nat.eqb_refl. cbn [negb andb]. rewrite andb_false_r. cbn [andb]. rewrite app_nil_r. lia.
        -- rewrite transmissions_app, P2. reflexivity.
        -- rewrite statuses_app, P3, statuses_map, Nat.eqb_refl. reflexivity.
        -- intros i Hi NI. left. rewrite QQ, tc_app. rewrite Nat.eqb_refl. replace (i =? j)%nat with false by (symmetry; apply Nat.eqb_neq; auto).
           replace (i <? ln_size s)%nat with true by (symmetry; apply Nat.ltb_lt; lia). rewrite andb_false_r. cbn [negb andb]. rewrite P4.
           split; [reflexivity|]. rewrite statuses_app, P3, statuses_map. replace (j =? i)%nat with false by (symmetry; apply Nat.eqb_neq; auto). reflexivity.
    + rewrite hdr_out_other in E by auto. rewrite <- D2 in E.
      destruct (lnstep_deliver s m b _ r _ Q HB' E) as (s1 & E1 & SZ & CC & QQ).
      exists s1, []. split; [exact E1|]. rewrite app_nil_r.
      assert (QC : forall p q, ln_q s1 p q = if (p =? m)%nat && (q =? b)%nat then r else ln_q s p q).
      { intros p q. rewrite QQ. destruct (_ && negb _ && _); apply app_nil_r. }
      assert (HE : hc (ln_q s1 m j) = hc (ln_q s m j)).
      { rewrite QC. replace (j =? b)%nat with false by (symmetry; apply Nat.eqb_neq; auto). rewrite andb_false_r. reflexivity. }
      assert (TE : forall i, tc (ln_q s1 j i) = tc (ln_q s j i)).
      { intros i. rewrite QC. destruct ((j =? m)%nat && (i =? b)%nat) eqn:X; [|reflexivity]. apply andb_prop in X. destruct X as (X & Y). apply EQB in X, Y. subst. rewrite Q. reflexivity. }
      constructor; [congruence|intros i; rewrite CC; auto|eapply QV; eauto|eapply QM; eauto; intros y []|].
      rewrite HE. destruct D5 as [(P1 & P2 & P3 & P4)|(P1 & P2 & P3 & P4)].
      * left. repeat split; auto. intros i. rewrite TE. auto.
      * right. repeat split; auto. intros i Hi NI. rewrite TE. auto.
  - (* the frame *)
    assert (NB : b <> j) by auto.
    destruct (deliver_tx (N.of_nat j) f (ln_c s b) OB ID) as (o & E & S & FE); [rewrite D2; auto|exact LEN|].
    destruct (lnstep_deliver s j b _ r o Q HB' E) as (s1 & E1 & SZ & CC & QQ).
    exists s1, (map (pair b) o). split; [exact E1|]. rewrite D2 in FE.
    assert (QC : forall p q, ln_q s1 p q = if (p =? j)%nat && (q =? b)%nat then r else ln_q s p q).
    { intros p q. rewrite QQ, S. destruct (_ && negb _ && _); apply app_nil_r. }
    assert (T1 : tc (ln_q s j b) = Datatypes.S (tc r)) by (rewrite Q; reflexivity).
    constructor; [congruence|intros i; rewrite CC; auto|eapply QV; eauto|eapply QM; eauto; rewrite S; intros y []|].
    destruct D5 as [(P1 & P2 & P3 & P4)|(P1 & P2 & P3 & P4)]; [specialize (P4 b); lia|].
    right. repeat split.
    + rewrite QC. replace (j =? b)%nat with false by (symmetry; apply Nat.eqb_neq; auto). rewrite andb_false_r. exact P1.
    + rewrite transmissions_app, P2, transmissions_sent, S. reflexivity.
    + rewrite statuses_app, P3, statuses_map. replace (b =? j)%nat with false by (symmetry; apply Nat.eqb_neq; auto). reflexivity.
    + intros i Hi NI. rewrite QC, Nat.eqb_refl. cbn [andb]. rewrite statuses_app, statuses_map. destruct (Nat.eqb_spec i b) as [->|NIB].
      * rewrite Nat.eqb_refl. destruct (P4 b HB NB) as [(X & Y)|(X & Y)]; [|lia]. right. rewrite Y, FE. split; [lia|reflexivity].
      * replace (b =? i)%nat with false by (symmetry; apply Nat.eqb_neq; auto). rewrite app_nil_r. auto.
Qed.
Lemma drain_run l : forall s out, forallb is_deliver l = true -> drain s0 m j f s out -> exists s' o, lnrun l s = Some (s', o) /\ drain s0 m j f s' (out ++ o).
Proof.
  induction l as [|x l IH]; intros s out DL D; [exists s, []; rewrite app_nil_r; auto|]. cbn in DL. apply andb_prop in DL. destruct DL as (L1 & L2).
  destruct x as [|a b|]; try discriminate. cbn [lnrun]. destruct (drain_step a b s out D) as (s1 & o1 & E1 & D1). rewrite E1.
  destruct (IH s1 (out ++ o1) L2 D1) as (s2 & o2 & E2 & D2). rewrite E2. exists s2, (o1 ++ o2). rewrite app_assoc. auto.
Qed.
End OneResponder.
