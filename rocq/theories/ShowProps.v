(** C86: the texts of traced messages *)
From Coq Require Import String NArith List Arith Bool Lia.
From Verif Require Import Base TextModel TextSpec TextProofs UriProofs MetricsText ShowModel ShowProofs.
Import ListNotations.
Open Scope N_scope.
Open Scope list_scope.

(** bytes shown in hexadecimal, whatever is put between them: the text determines the bytes up to the maximal length, and whether there are more *)
Theorem C86_hex : forall sep max a b, bytes_ok a -> bytes_ok b -> (0 < max)%nat -> as_hex sep max a = as_hex sep max b -> firstn max a = firstn max b /\ (max < length a <-> max < length b)%nat.
Proof. exact as_hex_inj. Qed.
Print Assumptions C86_hex.
Theorem C86_hex_all : forall sep a b, bytes_ok a -> bytes_ok b -> as_hex_all sep a = as_hex_all sep b -> a = b.
Proof. exact as_hex_all_inj. Qed.
Print Assumptions C86_hex_all.
Example C86_hex_ex : as_hex (lit " ") 3 [0; 171; 16; 4] = lit "00 ab 10 ..." /\ as_hex_all (lit ":") [1; 2; 255] = lit "01:02:ff" /\ as_hex [] 2 [1; 2; 3] = lit "0102...".
Proof. vm_compute. auto. Qed.

(** different values of an enumeration have different texts, also the values without a name *)
Theorem C86_enumerations : forall e v w t, In e enums -> enum_text e v = Ok t -> enum_text e w = Ok t -> v = w.
Proof. intros e v w t I. now apply enum_in. Qed.
Print Assumptions C86_enumerations.
(** an exception is thrown exactly for the values without a name of the enumerations without another text for them *)
Theorem C86_enumerations_throw : forall e v, enum_text e v = Exn <-> snd e = Throws /\ ~ In v (map fst (fst e)).
Proof.
  intros [tb o] v. unfold enum_text. cbn [fst snd].
  assert (L : lookup tb v = None <-> ~ In v (map fst tb)).
  { induction tb as [|[w s] tb IH]; cbn; [tauto|]. destruct (N.eqb_spec v w) as [->|N]; [split; [discriminate|intro X; exfalso; auto]|]. rewrite IH. intuition congruence. }
  destruct (lookup tb v) as [s|].
  - split; [discriminate|]. intros [_ X]. apply L in X. discriminate.
  - destruct o; split; try discriminate; try (intros [X _]; discriminate X); intros _; auto. split; [reflexivity|now apply L].
Qed.
Print Assumptions C86_enumerations_throw.
Example C86_enumerations_ex :
  In flexray_poc enums /\ enum_text flexray_poc 5 = Ok (lit "NormalActive") /\ enum_text flexray_poc 8 = Exn /\ enum_text participant_state 40 = Ok (lit "ReadyToRun") /\ enum_text participant_state 41 = Ok (lit "ParticipantState{41}")
  /\ enum_text can_flag 4096 = Ok (lit "fdf") /\ enum_text can_flag 1 = Ok (lit "unknown(1)") /\ enum_text can_status 4 = Ok (lit "TransmitQueueFull") /\ enum_text eth_status 32 = Ok (lit "InvalidFrameFormat")
  /\ enum_text lin_response_mode 2 = Ok (lit "TxUnconditional") /\ enum_text flexray_channel 3 = Ok (lit "AB") /\ enum_text direction 2 = Ok (lit "RX") /\ enum_text lin_status 3 = Ok (lit "SleepPending").
Proof. split; [cbn; tauto|]. vm_compute. repeat split. Qed.
(** not so for the level of a log message: all unknown levels have the same text *)
Theorem C86_levels_refuted : ~ (forall v w t, v < 2 ^ 32 -> w < 2 ^ 32 -> enum_text log_level v = Ok t -> enum_text log_level w = Ok t -> v = w).
Proof. intro H. specialize (H 6 7 _ ltac:(lia) ltac:(lia) eq_refl eq_refl). discriminate. Qed.
Print Assumptions C86_levels_refuted.
(** and the direction of a frame without a name is shown as a character, which need not be printable *)
Theorem C86_printable_refuted : ~ (forall v t, v < 256 -> enum_text direction v = Ok t -> Forall (fun c => 32 <= c < 127) t).
Proof. intro H. specialize (H 7 _ ltac:(lia) eq_refl). rewrite Forall_forall in H. specialize (H 7). assert (32 <= 7 < 127); [|lia]. apply H. apply in_or_app. right. now left. Qed.
Print Assumptions C86_printable_refuted.

(** the text of a CAN frame determines all but the data after the first eight bytes *)
Theorem C86_can_frame : forall a b, bytes_ok (cf_data a) -> bytes_ok (cf_data b) -> cf_flags a < 2 ^ 32 -> cf_flags b < 2 ^ 32 -> can_frame_text a = can_frame_text b ->
  cf_id a = cf_id b /\ cf_flags a = cf_flags b /\ cf_dlc a = cf_dlc b /\ cf_sdt a = cf_sdt b /\ cf_vcid a = cf_vcid b /\ cf_af a = cf_af b /\ length (cf_data a) = length (cf_data b) /\ firstn 8 (cf_data a) = firstn 8 (cf_data b).
Proof. exact can_frame_inj. Qed.
Print Assumptions C86_can_frame.
Example C86_can_frame_ex :
  can_frame_text (mkCan 291 12289 9 0 0 0 [1; 2; 3; 4; 5; 6; 7; 8; 9; 10; 11; 12]) = lit "Can::CanFrame{, canId=291, flags=[unknown(1),fdf,brs], dlc=9, sdt=0, vcid=0, af=0, data=[01 02 03 04 05 06 07 08 ...], data.size=12}".
Proof. vm_compute. reflexivity. Qed.
Theorem C86_can_mode : forall a b t, can_mode_text a = Ok t -> can_mode_text b = Ok t -> a = b.
Proof. exact can_mode_inj. Qed.
Print Assumptions C86_can_mode.
Example C86_can_mode_ex : can_mode_text (2, true, false) = Ok (lit "can::CanSetControllerMode{Started, cancelTX}") /\ can_mode_text (4, true, false) = Exn.
Proof. vm_compute. auto. Qed.
Theorem C86_can_baudrate : forall b fd xl b' fd' xl', can_baudrate_text (b, fd, xl) = can_baudrate_text (b', fd', xl') -> b = b' /\ fd = fd'.
Proof. exact can_baudrate_inj. Qed.
Print Assumptions C86_can_baudrate.
(** the baud rate of CAN XL is not shown *)
Theorem C86_can_baudrate_refuted : ~ (forall a b, can_baudrate_text a = can_baudrate_text b -> a = b).
Proof. intro H. specialize (H (500000, 1000000, 0) (500000, 1000000, 2000000) eq_refl). discriminate. Qed.
Print Assumptions C86_can_baudrate_refuted.

(** Ethernet: the size and the first eight bytes, of frames of at least twelve bytes the first twelve *)
Theorem C86_ethernet_frame : forall a b, bytes_ok a -> bytes_ok b -> eth_frame_text a = eth_frame_text b -> length a = length b /\ firstn 8 a = firstn 8 b /\ ((12 <= length a)%nat -> firstn 12 a = firstn 12 b).
Proof. exact eth_frame_inj. Qed.
Print Assumptions C86_ethernet_frame.
Example C86_ethernet_frame_ex :
  eth_frame_text [] = lit "EthernetFrame{size=0}" /\ eth_frame_text [1; 2; 3] = lit "EthernetFrame{size=3, data=[01 02 03]}"
  /\ eth_frame_text [255; 254; 253; 252; 251; 250; 1; 2; 3; 4; 5; 6; 8; 0] = lit "EthernetFrame{size=14, src = 01:02:03:04:05:06, dst=ff:fe:fd:fc:fb:fa, data=[ff fe fd fc fb fa 01 02 ...]}".
Proof. vm_compute. auto. Qed.

(** LIN: everything *)
Theorem C86_lin_frame : forall a b t, bytes_ok (lf_data a) -> bytes_ok (lf_data b) -> lin_frame_text a = Ok t -> lin_frame_text b = Ok t -> a = b.
Proof. exact lin_frame_inj. Qed.
Print Assumptions C86_lin_frame.
Theorem C86_lin_request : forall a b t, bytes_ok (lf_data (fst a)) -> bytes_ok (lf_data (fst b)) -> lin_request_text a = Ok t -> lin_request_text b = Ok t -> a = b.
Proof. exact lin_request_inj. Qed.
Print Assumptions C86_lin_request.
Theorem C86_lin_update : forall a b, lin_update_text a = lin_update_text b -> a = b.
Proof. exact lin_update_inj. Qed.
Print Assumptions C86_lin_update.
Theorem C86_lin_wakeup : forall a b, lin_wakeup_text a = lin_wakeup_text b -> a = b.
Proof. exact lin_wakeup_inj. Qed.
Print Assumptions C86_lin_wakeup.
Example C86_lin_ex :
  lin_request_text (mkLin 17 1 2 [1; 2; 0; 0; 0; 0; 0; 0], 7) = Ok (lit "lin::LinSendFrameRequest{fr=Lin::LinFrame{id=17, cs=Enhanced, dl=2, d={01 02 00 00 00 00 00 00}}, rt=LinFrameResponseType{7}}")
  /\ lin_update_text [1; 17; 63] = lit "lin::LinFrameResponseUpdate{ids=[1,17,63]}".
Proof. vm_compute. auto. Qed.
(** a LIN frame with an unknown checksum model has no text, so an exception is thrown if it is traced, *)
Theorem C86_lin_frame_throws : forall f, lin_frame_text f = Exn <-> 2 < lf_checksum f.
Proof.
  intro f. unfold lin_frame_text. destruct (enum_text (lin_checksum_ Throws) (lf_checksum f)) as [t| |] eqn:E.
  - split; [discriminate|]. intro L. exfalso. assert (X : enum_text (lin_checksum_ Throws) (lf_checksum f) = Exn) by (apply C86_enumerations_throw; cbn; split; [reflexivity|lia]). congruence.
  - split; [|reflexivity]. intros _. apply C86_enumerations_throw in E as [_ E]. cbn in E. destruct (N.lt_ge_cases 2 (lf_checksum f)) as [L|L]; [exact L|]. exfalso. apply E.
    assert (lf_checksum f = 0 \/ lf_checksum f = 1 \/ lf_checksum f = 2) as [->|[->| ->]] by lia; auto.
  - exfalso. unfold enum_text in E. destruct (lookup _ _); discriminate E.
Qed.
Print Assumptions C86_lin_frame_throws.
Theorem C86_lin_frame_total_refuted : ~ (forall f, lf_checksum f < 256 -> lin_frame_text f <> Exn).
Proof. intro H. apply (H (mkLin 1 3 8 [0; 0; 0; 0; 0; 0; 0; 0]) ltac:(cbn; lia)). reflexivity. Qed.
Print Assumptions C86_lin_frame_total_refuted.
(** and the time of a wake-up pulse is shown a million times too large *)
Theorem C86_lin_wakeup_unit_refuted : ~ (forall ms, lin_wakeup_text (ms * 1000000) = lit "lin::LinWakeupPulse{@" ++ decimal ms ++ lit "ms}").
Proof. intro H. specialize (H 1). vm_compute in H. discriminate. Qed.
Print Assumptions C86_lin_wakeup_unit_refuted.

(** FlexRay *)
Theorem C86_flexray_header : forall a b, flexray_header_text a = flexray_header_text b ->
  (forall i, i < 4 -> N.testbit (fh_flags a) i = N.testbit (fh_flags b) i) /\ fh_frame a = fh_frame b /\ fh_length a = fh_length b /\ fh_crc a = fh_crc b /\ fh_cycle a = fh_cycle b.
Proof. intros a b H. destruct (flexray_header_sep a b [] []) as (? & ? & ? & ? & ? & _); [now rewrite H|]. auto. Qed.
Print Assumptions C86_flexray_header.
(** the text of a time contains no [m] *)
Theorem C86_flexray_frame : forall c1 c2 a b t1 t2 p q t, bytes_ok p -> bytes_ok q -> 0 < fh_length a -> ~ In 109 t1 -> ~ In 109 t2 -> flexray_frame_text c1 a t1 p = Ok t -> flexray_frame_text c2 b t2 q = Ok t ->
  c1 = c2 /\ (forall i, i < 4 -> N.testbit (fh_flags a) i = N.testbit (fh_flags b) i) /\ fh_frame a = fh_frame b /\ fh_length a = fh_length b /\ fh_crc a = fh_crc b /\ fh_cycle a = fh_cycle b /\ t1 = t2 /\
  (N.testbit (fh_flags a) 2 = true -> firstn (N.to_nat (fh_length a)) p = firstn (N.to_nat (fh_length a)) q).
Proof. exact flexray_frame_inj. Qed.
Print Assumptions C86_flexray_frame.
Example C86_flexray_frame_ex :
  flexray_frame_text 1 (mkFh 5 42 2 1103 7) (lit "1.5") [1; 2; 3; 4] = Ok (lit "Flexray::FlexrayFrameEvent{ch=A, Flexray::FlexrayHeader{f=[U---],s=42,l=2,crc=44f,c=7} @1.5ms, payload=01 02 ...}").
Proof. vm_compute. reflexivity. Qed.
(** the length counts words of two bytes, but only so many bytes are shown: frames with different payloads of the right size have the same text *)
Theorem C86_flexray_payload_refuted : ~ (forall c h t p q x, length p = (2 * N.to_nat (fh_length h))%nat -> length q = (2 * N.to_nat (fh_length h))%nat -> N.testbit (fh_flags h) 2 = true ->
  flexray_frame_text c h t p = Ok x -> flexray_frame_text c h t q = Ok x -> p = q).
Proof. intro H. specialize (H 1 (mkFh 4 42 2 1103 7) (lit "1.5") [1; 2; 3; 4] [1; 2; 3; 5] _ eq_refl eq_refl eq_refl eq_refl eq_refl). discriminate. Qed.
Print Assumptions C86_flexray_payload_refuted.
Theorem C86_flexray_buffer : forall a b t, flexray_buffer_text a = Ok t -> flexray_buffer_text b = Ok t -> a = b.
Proof. exact flexray_buffer_inj. Qed.
Print Assumptions C86_flexray_buffer.
Example C86_flexray_buffer_ex : flexray_buffer_text (mkFb 3 17 true 1103 48 49 1) = Ok (lit "Flexray::FlexrayTxBufferConfig{ch=AB, slot=17, PP, crc=1103, off=0, rep=1, txMode=Continuous}").
Proof. vm_compute. reflexivity. Qed.
(** but offset and repetition are shown as characters, for usual values as control characters *)
Theorem C86_flexray_buffer_printable_refuted : ~ (forall m t, fb_offset m < 64 -> fb_repetition m <= 64 -> flexray_buffer_text m = Ok t -> Forall (fun c => 32 <= c < 127) t).
Proof.
  intro H. specialize (H (mkFb 3 17 false 1103 0 1 1) _ ltac:(cbn; lia) ltac:(cbn; lia) eq_refl). rewrite Forall_forall in H. specialize (H 0).
  assert (32 <= 0 < 127); [|lia]. apply H. do 6 (apply in_or_app; right). cbn [fb_offset]. do 2 (apply in_or_app; right). apply in_or_app. left. now left.
Qed.
Print Assumptions C86_flexray_buffer_printable_refuted.
Theorem C86_flexray_update : forall i v p j w q, bytes_ok p -> bytes_ok q -> flexray_update_text (i, v, p) = flexray_update_text (j, w, q) -> i = j /\ v = w /\ (v = true -> length p = length q /\ firstn 8 p = firstn 8 q).
Proof. exact flexray_update_inj. Qed.
Print Assumptions C86_flexray_update.
Example C86_flexray_update_ex :
  flexray_update_text (3, true, [1; 2]) = lit "Flexray::FlexrayTxBufferUpdate{idx=3, payloadValid=t, payload=[01 02], payloadSize=2" /\ flexray_update_text (3, false, [1; 2]) = lit "Flexray::FlexrayTxBufferUpdate{idx=3, payloadValid=f".
Proof. vm_compute. auto. Qed.

(** published data: the size and the first sixteen bytes *)
Theorem C86_data : forall a b, bytes_ok a -> bytes_ok b -> data_text a = data_text b -> length a = length b /\ firstn 16 a = firstn 16 b.
Proof. exact data_inj. Qed.
Print Assumptions C86_data.
Example C86_data_ex : data_text [1; 2; 255] = lit "PubSub::DataMessageEvent{data=01 02 ff, size=3}".
Proof. vm_compute. reflexivity. Qed.
(** the required participants, if their names are not empty and contain no comma *)
Theorem C86_workflow : forall a b, Forall (fun x => x <> [] /\ ~ In 44 x) a -> Forall (fun x => x <> [] /\ ~ In 44 x) b -> workflow_text a = workflow_text b -> a = b.
Proof. exact workflow_inj. Qed.
Print Assumptions C86_workflow.
Example C86_workflow_ex : workflow_text [lit "Writer"; lit "Reader"] = lit "Orchestration::WorkflowConfiguration{requiredParticipantNames=Writer, Reader}".
Proof. vm_compute. reflexivity. Qed.
Theorem C86_workflow_refuted : ~ (forall a b, workflow_text a = workflow_text b -> a = b).
Proof. intro H. specialize (H [lit "A, B"] [lit "A"; lit "B"] eq_refl). discriminate. Qed.
Print Assumptions C86_workflow_refuted.
