From Coq Require Import List NArith Arith Bool Lia ZifyBool ZifyNat ZifyN.
From Verif Require Import Base MessageBufferModel MessageBufferSpec MessageBufferProofs RingBufferModel RingBufferSpec
  RingBufferProofs PeerRecvModel PeerRecvSpec.
Import ListNotations.

(** Cutting a byte string into messages. *)
Lemma cuts_snoc : forall T ms m r, cuts T ms (m ++ r) ->
  4 <= length (m ++ r) -> 0 < length m -> (N.of_nat (length m) <= max_msg)%N ->
  N.of_nat (length m) = of_le (firstn 4 (m ++ r)) -> cuts T (ms ++ [m]) r.
Proof.
  intros T ms m r H H1 H2 H3 H4. remember (m ++ r) as x eqn:E. induction H.
  - subst s. cbn [app]. apply cuts_cons; auto. constructor.
  - cbn [app]. apply cuts_cons; auto.
Qed.
Lemma cuts_bytes : forall T ms r, cuts T ms r -> T = concat ms ++ r.
Proof. induction 1; cbn [concat app]; [reflexivity|]. now rewrite <- app_assoc, <- IHcuts. Qed.

Lemma app_eq_len : forall A (a b x y : list A), length a = length b -> a ++ x = b ++ y -> a = b /\ x = y.
Proof.
  induction a as [|h a IH]; intros [|h' b] x y Hl H; try discriminate; cbn in *; [auto|].
  inversion H; subst. destruct (IH b x y) as [-> ->]; auto.
Qed.

Lemma frame_len : forall m x, is_frame m -> of_le (firstn 4 (m ++ x)) = N.of_nat (length m).
Proof.
  intros m x (H1 & H2 & H3). rewrite firstn_app. replace (4 - length m) with 0 by lia.
  rewrite firstn_O, app_nil_r, H3. apply of_le_bytes. unfold is_u.
  change (256 ^ N.of_nat 4)%N with 4294967296%N. unfold max_msg in H2. lia.
Qed.

Definition no_cut (r : list N) : Prop :=
  4 <= length r -> (of_le (firstn 4 r) = 0 \/ max_msg < of_le (firstn 4 r))%N.

Lemma cuts_frames : forall msgs r0 out r, Forall is_frame msgs -> no_cut r0 ->
  cuts (concat msgs ++ r0) out r -> exists msgs', msgs = out ++ msgs' /\ r = concat msgs' ++ r0.
Proof.
  induction msgs as [|m msgs IH]; intros r0 out r HF Hno H.
  - cbn [concat app] in H. inversion H; subst.
    + exists []. auto.
    + exfalso. destruct (Hno H0) as [E|E]; lia.
  - inversion HF as [|? ? Hm HF']; subst. cbn [concat] in H. rewrite <- app_assoc in H.
    inversion H as [|m1 s1 ms1 r1 L1 L2 L3 L4 Hc EqT]; subst.
    + exists (m :: msgs). cbn [app concat]. now rewrite <- app_assoc.
    + assert (El : length m1 = length m).
      { rewrite EqT in L4. rewrite frame_len in L4 by assumption. lia. }
      assert (Em : m1 = m /\ s1 = concat msgs ++ r0).
      { apply app_eq_len; assumption. }
      destruct Em as [-> ->]. destruct (IH r0 ms1 r HF' Hno Hc) as (msgs' & E1 & E2).
      exists msgs'. cbn [app]. now rewrite <- E1.
Qed.

(** Invariants. *)
Definition cur_waiting (s : rx) : Prop :=
  rb_size (rx_ring s) < rb_cap (rx_ring s) /\
  ((rx_cur s = 0%N /\ rb_size (rx_ring s) < 4) \/
   (4 <= rb_size (rx_ring s) /\ rx_cur s = of_le (firstn 4 (content (rx_ring s))) /\
    (0 < rx_cur s <= max_msg)%N /\ (N.of_nat (rb_size (rx_ring s)) < rx_cur s)%N /\
    (rx_cur s <= N.of_nat (rb_cap (rx_ring s)))%N)).
Record Inv (T : list N) (s : rx) (rest : list N) : Prop := {
  i_ok : ring_ok (rx_ring s);
  i_cap : 4 <= rb_cap (rx_ring s);
  i_cut : cuts T (rx_out s) (content (rx_ring s) ++ rest);
  i_down : rx_down s = true -> rx_pending s = true;
  i_read : rx_reading s = true -> rx_pending s = false -> cur_waiting s }.
(** The state reached if nobody but the peer itself ends the connection. *)
Definition live (s : rx) : Prop :=
  (rx_pending s = false /\ rx_reading s = true) \/
  (rx_pending s = true /\ rx_down s = true /\ rx_reading s = false /\
   4 <= rb_size (rx_ring s) /\ is_corrupt (firstn 4 (content (rx_ring s)))).

Record Pre (T : list N) (s : rx) (rest : list N) : Prop := {
  p_ok : ring_ok (rx_ring s);
  p_cap : 4 <= rb_cap (rx_ring s);
  p_cut : cuts T (rx_out s) (content (rx_ring s) ++ rest);
  p_down : rx_pending s = rx_down s;
  p_read : rx_reading s = false;
  p_cur : rx_cur s = 0%N \/
          (rx_down s = false /\ 4 <= rb_size (rx_ring s) /\ rx_cur s = of_le (firstn 4 (content (rx_ring s)))) }.

Lemma sized_ok : forall hd T s rest, Pre T s rest ->
  rx_down s = false -> 4 <= rb_size (rx_ring s) -> rx_cur s = of_le (firstn 4 (content (rx_ring s))) ->
  exists s' b, dispatch_sized hd s = Ok (s', b) /\
    (b = true -> Pre T s' rest /\ rb_size (rx_ring s') < rb_size (rx_ring s) /\
                 (accepts hd -> rx_down s' = false)) /\
    (b = false -> Inv T s' rest /\ (accepts hd -> live s')).
Proof.
  intros hd T s rest [Hok Hcap Hcut Hdown Hread Hcur] Hnd H4 Hc. unfold dispatch_sized.
  rewrite Hnd in Hdown.
  assert (HcL : length (content (rx_ring s)) = rb_size (rx_ring s)) by apply content_length.
  destruct ((rx_cur s =? 0)%N || (max_msg <? rx_cur s)%N) eqn:Ebad.
  - eexists _, false. split; [reflexivity|]. split; [discriminate|]. intros _. split.
    + constructor; cbn [rx_shutdown rx_ring rx_out rx_down rx_pending rx_reading]; auto. discriminate.
    + intros _. right. cbn [rx_shutdown rx_ring rx_out rx_down rx_pending rx_reading].
      split; [auto|]. split; [auto|]. split; [auto|]. split; [auto|]. split; [rewrite firstn_length; lia|]. rewrite <- Hc. lia.
  - destruct (N.ltb_spec (N.of_nat (rb_size (rx_ring s))) (rx_cur s)) as [Hs|Hs].
    + assert (HR : exists b, (if (N.of_nat (rb_cap (rx_ring s)) <? rx_cur s)%N
                              then reserve (N.to_nat (rx_cur s)) (rx_ring s) else Ok (rx_ring s)) = Ok b /\
                     ring_ok b /\ content b = content (rx_ring s) /\
                     rb_cap b = Nat.max (rb_cap (rx_ring s)) (N.to_nat (rx_cur s))).
      { destruct (N.ltb_spec (N.of_nat (rb_cap (rx_ring s))) (rx_cur s)).
        - apply reserve_ok. assumption.
        - exists (rx_ring s). split; [reflexivity|]. split; [assumption|]. split; [reflexivity|]. lia. }
      destruct HR as (b & E1 & E2 & E3 & E4). rewrite E1. cbn [bind].
      assert (Esz : rb_size b = rb_size (rx_ring s)) by (rewrite <- content_length, E3; exact HcL).
      unfold read_some. cbn [rx_ring rx_pending rx_reading]. rewrite Esz, E4, Hread, Hdown.
      destruct (Nat.eqb_spec (Nat.max (rb_cap (rx_ring s)) (N.to_nat (rx_cur s)) - rb_size (rx_ring s)) 0); [lia|].
      cbn [bind]. eexists _, false. split; [reflexivity|]. split; [discriminate|]. intros _. split.
      * constructor; cbn [rx_ring rx_out rx_down rx_pending rx_reading]; auto.
        -- rewrite E4. lia.
        -- rewrite E3. assumption.
        -- rewrite Hnd. discriminate.
        -- intros _ _. unfold cur_waiting. cbn [rx_ring rx_cur]. rewrite Esz, E3, E4. split; [lia|].
           right. repeat split; auto; lia.
      * intros _. left. cbn [rx_pending rx_reading]. auto.
    + destruct (read_ok (rx_ring s) (N.to_nat (rx_cur s)) Hok) as (b' & E1 & E2 & E3 & E4 & _).
      replace (N.to_nat (rx_cur s) <=? length (content (rx_ring s))) with true in E1, E4 by lia.
      rewrite E1. cbn [bind fst snd].
      set (m := firstn (N.to_nat (rx_cur s)) (content (rx_ring s))) in *.
      assert (Hm : length m = N.to_nat (rx_cur s)) by (unfold m; rewrite firstn_length; lia).
      assert (Hspl : content (rx_ring s) = m ++ content b') by (rewrite E4; unfold m; symmetry; apply firstn_skipn).
      assert (Hcut' : cuts T (rx_out s ++ [m]) (content b' ++ rest)).
      { rewrite Hspl, <- app_assoc in Hcut. apply cuts_snoc; auto; rewrite ?Hm; try lia.
        - rewrite app_assoc, <- Hspl, app_length. lia.
        - rewrite N2Nat.id, app_assoc, <- Hspl, firstn_app.
          replace (4 - length (content (rx_ring s))) with 0 by lia. rewrite firstn_O, app_nil_r. exact Hc. }
      assert (Hsz : rb_size b' < rb_size (rx_ring s)).
      { rewrite <- content_length, E4, skipn_length. lia. }
      destruct (hd (rx_out s) m) eqn:Ehd.
      * eexists _, true. split; [reflexivity|]. split; [|discriminate]. intros _.
        split; [|split; [cbn [rx_ring]; lia|]].
        -- constructor; cbn [rx_ring rx_out rx_down rx_pending rx_reading rx_cur]; auto; [rewrite E3; lia|congruence].
        -- intros _. cbn [rx_down]. assumption.
      * eexists _, false. split; [reflexivity|]. split; [discriminate|]. intros _. split.
        -- constructor; cbn [rx_ring rx_out rx_down rx_pending rx_reading rx_cur]; auto; [rewrite E3; lia|congruence|].
           rewrite Hread. discriminate.
        -- intro Ha. rewrite (Ha _ _) in Ehd. discriminate.
      * eexists _, true. split; [reflexivity|]. split; [|discriminate]. intros _.
        split; [|split; [cbn [rx_shutdown rx_ring]; lia|]].
        -- constructor; cbn [rx_shutdown rx_ring rx_out rx_down rx_pending rx_reading rx_cur]; auto. rewrite E3; lia.
        -- intro Ha. rewrite (Ha _ _) in Ehd. discriminate.
Qed.

Lemma once_ok : forall hd T s rest, Pre T s rest ->
  exists s' b, dispatch_once hd s = Ok (s', b) /\
    (b = true -> Pre T s' rest /\ rb_size (rx_ring s') < rb_size (rx_ring s) /\
                 (accepts hd -> rx_down s' = false)) /\
    (b = false -> Inv T s' rest /\ (accepts hd -> rx_down s = false -> live s')).
Proof.
  intros hd T s rest HP. pose proof HP as [Hok Hcap Hcut Hdown Hread Hcur]. unfold dispatch_once.
  destruct (N.eqb_spec (rx_cur s) 0) as [E0|E0].
  - destruct (rx_down s) eqn:Ed.
    + eexists _, false. split; [reflexivity|]. split; [discriminate|]. intros _. split; [|discriminate].
      constructor; auto. rewrite Hread. discriminate.
    + destruct (Nat.leb_spec 4 (rb_size (rx_ring s))) as [H4|H4].
      * rewrite peek_ok by assumption. rewrite content_length.
        replace (4 <=? rb_size (rx_ring s)) with true by lia. cbn [bind].
        set (s1 := mkRx _ _ _ _ _ _).
        destruct (sized_ok hd T s1 rest) as (s' & b & E1 & E2 & E3); try reflexivity; try assumption.
        { constructor; cbn [s1 rx_ring rx_out rx_down rx_pending rx_reading rx_cur]; auto. }
        exists s', b. split; [exact E1|]. split; [exact E2|]. intro Hb. destruct (E3 Hb). auto.
      * unfold read_some.
        destruct (Nat.eqb_spec (rb_cap (rx_ring s) - rb_size (rx_ring s)) 0); [lia|].
        rewrite Hread, Hdown. cbn [bind]. eexists _, false. split; [reflexivity|]. split; [discriminate|]. intros _. split.
        -- constructor; cbn [rx_ring rx_out rx_down rx_pending rx_reading rx_cur]; auto. congruence.
           intros _ _. unfold cur_waiting. cbn [rx_ring rx_cur]. split; [lia|]. left. auto.
        -- intros _ _. left. auto.
  - destruct Hcur as [Hcur|(Hd & H4 & Hc)]; [contradiction|].
    destruct (sized_ok hd T s rest) as (s' & b & E1 & E2 & E3); auto.
    exists s', b. split; [exact E1|]. split; [exact E2|]. intro Hb. destruct (E3 Hb). auto.
Qed.

Lemma dispatch_ok : forall hd T rest f s, Pre T s rest -> rb_size (rx_ring s) < f ->
  exists s', dispatch f hd s = Ok (Some s') /\ Inv T s' rest /\ (accepts hd -> rx_down s = false -> live s').
Proof.
  intros hd T rest f. induction f as [|f IH]; intros s HP Hf; [lia|]. cbn [dispatch].
  destruct (once_ok hd T s rest HP) as (s' & b & E1 & E2 & E3). rewrite E1. cbn [bind fst snd].
  destruct b.
  - destruct (E2 eq_refl) as (HP' & Hlt & Hd). destruct (IH s' HP') as (s'' & F1 & F2 & F3); [lia|].
    exists s''. split; [exact F1|]. split; [exact F2|]. intros Ha _. auto.
  - destruct (E3 eq_refl) as (HI & Hl). exists s'. split; [reflexivity|]. split; [exact HI|]. exact Hl.
Qed.

Lemma step_ok : forall hd T e s rest, Inv T s rest ->
  exists s' rest', rx_step hd e s rest = Ok (Some (s', rest')) /\ Inv T s' rest' /\
    (rx_pending s = true -> rx_pending s' = true /\ rx_out s' = rx_out s /\ rest' = rest) /\
    (exists k, rest = k ++ rest') /\
    (accepts hd -> live s -> forall k, e = EChunk (S k) ->
       live s' /\ (rx_pending s = false -> rest <> [] -> length rest' < length rest)).
Proof.
  intros hd T e s rest HI. pose proof HI as [Hok Hcap Hcut Hdown Hread]. destruct e as [k| |]; cbn [rx_step].
  - destruct (rx_reading s) eqn:Er; cbn [negb].
    2:{ exists s, rest. split; [reflexivity|]. split; [constructor; auto; rewrite Er; discriminate|]. split; [auto|].
        split; [exists []; reflexivity|]. intros _ Hl k' _. split; [exact Hl|]. intro Hp.
        destruct Hl as [[_ Hl]|[Hl _]]; congruence. }
    destruct (rx_pending s) eqn:Ep.
    { eexists _, rest. split; [reflexivity|].
      split; [constructor; cbn [rx_ring rx_out rx_down rx_pending rx_reading rx_cur]; auto; discriminate|].
      split; [cbn [rx_pending rx_out]; auto|]. split; [exists []; reflexivity|]. intros _ Hl k' _.
      destruct Hl as [[Hl _]|[_ [_ [Hl _]]]]; congruence. }
    destruct (Hread eq_refl eq_refl) as (Hsz & Hcw).
    rewrite areas_total_eq by assumption.
    set (data := firstn _ rest).
    assert (Hd : length data <= rb_cap (rx_ring s) - rb_size (rx_ring s)) by (unfold data; rewrite firstn_length; lia).
    assert (Hdr : rest = data ++ skipn (length data) rest).
    { unfold data. rewrite firstn_length.
      rewrite <- (firstn_skipn (Nat.min k (rb_cap (rx_ring s) - rb_size (rx_ring s))) rest) at 1. f_equal.
      destruct (Nat.le_gt_cases (length rest) (Nat.min k (rb_cap (rx_ring s) - rb_size (rx_ring s)))).
      - rewrite !skipn_all2; try lia; reflexivity.
      - f_equal. lia. }
    destruct (Nat.eqb_spec (length data) 0) as [E0|E0].
    { exists s, rest. split; [reflexivity|]. split; [exact HI|]. split; [discriminate|].
      split; [exists []; reflexivity|]. intros _ Hl k' Hk. split; [exact Hl|]. intros _ Hne. exfalso.
      inversion Hk; subst k. unfold data in E0. rewrite firstn_length in E0. destruct rest; [now apply Hne|].
      cbn [length] in E0. lia. }
    destruct (fill_ok (rx_ring s) data Hok Hd) as (b & F1 & F2 & F3 & F4). rewrite F1. cbn [bind].
    assert (Hbs : rb_size b = rb_size (rx_ring s) + length data).
    { rewrite <- content_length, F3, app_length, content_length. reflexivity. }
    assert (Hndown : rx_down s = false).
    { destruct (rx_down s) eqn:E; [|reflexivity]. specialize (Hdown eq_refl). congruence. }
    set (s1 := mkRx b _ _ _ _ _).
    destruct (dispatch_ok hd T (skipn (length data) rest) (S (S (rb_size b))) s1) as (s' & G1 & G2 & G3).
    { constructor; cbn [s1 rx_ring rx_out rx_down rx_pending rx_reading rx_cur]; auto.
      - rewrite F4. assumption.
      - rewrite F3, <- app_assoc, <- Hdr. assumption.
      - destruct Hcw as [[Hc _]|(H4 & Hc & _)]; [left; exact Hc|right].
        split; [exact Hndown|]. split; [lia|]. rewrite F3, firstn_app, content_length.
        replace (4 - rb_size (rx_ring s)) with 0 by lia. rewrite firstn_O, app_nil_r. exact Hc. }
    { cbn [s1 rx_ring]. lia. }
    rewrite G1. cbn [bind]. exists s', (skipn (length data) rest). split; [reflexivity|]. split; [exact G2|].
    split; [discriminate|]. split; [exists data; exact Hdr|]. intros Ha _ k' _. split; [apply G3; auto|].
    intros _ _. rewrite Hdr at 2. rewrite app_length. lia.
  - eexists _, rest. split; [reflexivity|].
    split; [constructor; cbn [rx_shutdown rx_ring rx_out rx_down rx_pending rx_reading rx_cur]; auto; discriminate|].
    split; [cbn [rx_shutdown rx_pending rx_out]; auto|]. split; [exists []; reflexivity|]. discriminate.
  - eexists _, rest. split; [reflexivity|].
    split; [constructor; cbn [rx_shutdown rx_ring rx_out rx_down rx_pending rx_reading rx_cur]; auto; discriminate|].
    split; [cbn [rx_pending rx_out]; auto|]. split; [exists []; reflexivity|]. discriminate.
Qed.

Lemma run_ok : forall hd T l s rest, Inv T s rest ->
  exists s' rest', rx_run hd l s rest = Ok (Some (s', rest')) /\ Inv T s' rest' /\
    (rx_pending s = true -> rx_pending s' = true /\ rx_out s' = rx_out s /\ rest' = rest) /\
    (exists k, rest = k ++ rest') /\
    (accepts hd -> only_chunks l -> live s ->
       live s' /\ (rx_pending s' = true \/ length rest' + length l <= length rest \/ rest' = [])).
Proof.
  intros hd T l. induction l as [|e l IH]; intros s rest HI; cbn [rx_run].
  - exists s, rest. split; [reflexivity|]. split; [exact HI|]. split; [auto|]. split; [exists []; reflexivity|].
    intros _ _ Hl. split; [exact Hl|]. cbn [length]. right. left. lia.
  - destruct (step_ok hd T e s rest HI) as (s1 & r1 & E1 & E2 & E3 & (k1 & E4) & E5). rewrite E1. cbn [bind].
    destruct (IH s1 r1 E2) as (s2 & r2 & F1 & F2 & F3 & (k2 & F4) & F5). rewrite F1.
    exists s2, r2. split; [reflexivity|]. split; [exact F2|]. split.
    { intro Hp. destruct (E3 Hp) as (A1 & A2 & A3). destruct (F3 A1) as (B1 & B2 & B3). repeat split; congruence. }
    split; [exists (k1 ++ k2); now rewrite <- app_assoc, <- F4|].
    intros Ha Ho Hl. destruct (Ho e) as (k & Hk); [now left|].
    destruct (E5 Ha Hl k Hk) as (Hl1 & Hp1).
    destruct F5 as (Hl2 & Hd); auto. { intros e' He'. apply Ho. now right. }
    split; [exact Hl2|]. destruct Hd as [Hd|[Hd|Hd]]; auto.
    destruct (rx_pending s) eqn:Ep.
    + destruct (E3 eq_refl) as (A1 & _). destruct (F3 A1) as (B1 & _). auto.
    + destruct r1 as [|x r1].
      * right. right. destruct k2; [|discriminate]. cbn [app] in F4. congruence.
      * right. left. cbn [length]. assert (rest <> []). { intro; subst. destruct k1; discriminate. }
        specialize (Hp1 eq_refl H). lia.
Qed.

Lemma start_ok : forall cap stream, 4 <= cap ->
  exists s, rx_start cap = Ok s /\ Inv stream s stream /\ live s.
Proof.
  intros cap stream Hc. destruct (ring_new_ok cap) as (H1 & H2 & H3); [lia|]. unfold rx_start, read_some.
  cbn [rx_ring rx_pending rx_reading]. rewrite H3. cbn [ring_new rb_size].
  destruct (Nat.eqb_spec (cap - 0) 0); [lia|]. eexists. split; [reflexivity|].
  split; [|left; auto].
  constructor; cbn [rx_ring rx_out rx_down rx_pending rx_reading rx_cur]; auto.
  - rewrite H3. assumption.
  - rewrite H2. constructor.
  - intros _ _. unfold cur_waiting. cbn [rx_ring rx_cur]. rewrite H3. cbn [ring_new rb_size]. lia.
Qed.

Lemma no_cut_nil : no_cut [].
Proof. intro H. cbn in H. lia. Qed.
Lemma no_cut_bad : forall p tail, is_corrupt p -> no_cut (p ++ tail).
Proof.
  intros p tail [H1 H2] _. rewrite firstn_app, H1. rewrite Nat.sub_diag, firstn_O, app_nil_r, firstn_all2 by lia. assumption.
Qed.
Lemma frame_concat_len : forall m ms, is_frame m -> 4 <= length (concat (m :: ms)).
Proof. intros m ms (H & _). cbn [concat]. rewrite app_length. lia. Qed.

(** While a read is outstanding the buffered bytes do not contain a complete message or a corrupt prefix. *)
Lemma waiting_short : forall T s rest m ms r0, Inv T s rest -> rx_pending s = false -> rx_reading s = true ->
  is_frame m -> content (rx_ring s) ++ rest = concat (m :: ms) ++ r0 ->
  rb_size (rx_ring s) < length m.
Proof.
  intros T s rest m ms r0 [Hok Hcap Hcut Hdown Hread] Hp Hr Hm Heq.
  destruct (Hread Hr Hp) as (Hsz & [[Hc H4]|(H4 & Hc & _ & Hlt & _)]).
  - destruct Hm as (Hm & _). lia.
  - assert (E : firstn 4 (content (rx_ring s)) = firstn 4 (content (rx_ring s) ++ rest)).
    { rewrite firstn_app, content_length. replace (4 - rb_size (rx_ring s)) with 0 by lia. rewrite firstn_O, app_nil_r. reflexivity. }
    rewrite E, Heq in Hc. cbn [concat] in Hc. rewrite <- app_assoc in Hc. rewrite frame_len in Hc by assumption. lia.
Qed.

Lemma recv_frames : forall hd cap l msgs, 4 <= cap -> Forall is_frame msgs ->
  exists s rest, rx_conn hd cap l (concat msgs) = Ok (Some (s, rest)) /\ prefix (rx_out s) msgs /\
    (accepts hd -> only_chunks l ->
       rx_pending s = false /\ rx_reading s = true /\ rb_size (rx_ring s) < rb_cap (rx_ring s) /\
       (rest = [] -> rx_out s = msgs) /\ (length (concat msgs) <= length l -> rest = [])).
Proof.
  intros hd cap l msgs Hcap HF. destruct (start_ok cap (concat msgs) Hcap) as (s0 & E0 & HI0 & Hl0).
  destruct (run_ok hd _ l s0 _ HI0) as (s & rest & E1 & HI & _ & _ & HL).
  unfold rx_conn. rewrite E0. cbn [bind]. exists s, rest. split; [exact E1|].
  pose proof HI as [Hok Hc Hcut Hdown Hread].
  rewrite <- (app_nil_r (concat msgs)) in Hcut.
  destruct (cuts_frames msgs [] _ _ HF no_cut_nil Hcut) as (msgs' & Em & Er).
  split; [exists msgs'; exact Em|]. intros Ha Ho. destruct (HL Ha Ho Hl0) as (Hl & Hprog).
  assert (HF' : Forall is_frame msgs') by (rewrite Em in HF; apply Forall_app in HF; tauto).
  rewrite app_nil_r in Er.
  assert (Hlive : rx_pending s = false /\ rx_reading s = true).
  { destruct Hl as [Hl|(Hp & _ & _ & H4 & H5 & H6)]; [exact Hl|]. exfalso.
    destruct msgs' as [|m ms].
    - cbn [concat] in Er. apply app_eq_nil in Er. destruct Er as [Er _]. apply (f_equal (@length N)) in Er.
      rewrite content_length in Er. cbn in Er. lia.
    - inversion HF' as [|? ? Hm ?]; subst.
      assert (E : firstn 4 (content (rx_ring s)) = firstn 4 (content (rx_ring s) ++ rest)).
      { rewrite firstn_app, content_length. replace (4 - rb_size (rx_ring s)) with 0 by lia. rewrite firstn_O, app_nil_r. reflexivity. }
      rewrite E, Er in H6. cbn [concat] in H6. rewrite frame_len in H6 by assumption.
      destruct Hm as (Hm1 & Hm2 & _). lia. }
  destruct Hlive as [Hp Hr]. destruct (Hread Hr Hp) as (Hsz & _). split; [exact Hp|]. split; [exact Hr|]. split; [exact Hsz|].
  split.
  - intro Hrest. subst rest. rewrite app_nil_r in Er. destruct msgs' as [|m ms].
    + now rewrite app_nil_r in Em.
    + exfalso. inversion HF' as [|? ? Hm ?]; subst.
      assert (Hlt : rb_size (rx_ring s) < length m).
      { apply (waiting_short _ s [] m ms [] HI Hp Hr Hm). rewrite !app_nil_r. exact Er. }
      apply (f_equal (@length N)) in Er. rewrite content_length in Er. cbn [concat] in Er. rewrite app_length in Er. lia.
  - intro Hlen. destruct Hprog as [Hpr|[Hpr|Hpr]]; [congruence| |exact Hpr].
    destruct rest; [reflexivity|]. cbn [length] in Hpr. lia.
Qed.

Lemma recv_corrupt : forall hd cap l msgs p tail, 4 <= cap -> Forall is_frame msgs -> is_corrupt p ->
  exists s rest, rx_conn hd cap l (concat msgs ++ p ++ tail) = Ok (Some (s, rest)) /\ prefix (rx_out s) msgs /\
    (accepts hd -> only_chunks l ->
       (length rest <= length tail -> rx_down s = true /\ rx_pending s = true /\ rx_reading s = false /\ rx_out s = msgs) /\
       (length (concat msgs) + 4 <= length l -> length rest <= length tail)).
Proof.
  intros hd cap l msgs p tail Hcap HF Hp. set (T := concat msgs ++ p ++ tail).
  destruct (start_ok cap T Hcap) as (s0 & E0 & HI0 & Hl0).
  destruct (run_ok hd _ l s0 _ HI0) as (s & rest & E1 & HI & _ & _ & HL).
  unfold rx_conn. rewrite E0. cbn [bind]. exists s, rest. split; [exact E1|].
  pose proof HI as [Hok Hc Hcut Hdown Hread]. unfold T in Hcut.
  destruct (cuts_frames msgs (p ++ tail) _ _ HF (no_cut_bad p tail Hp) Hcut) as (msgs' & Em & Er).
  split; [exists msgs'; exact Em|]. intros Ha Ho. destruct (HL Ha Ho Hl0) as (Hl & Hprog).
  assert (HF' : Forall is_frame msgs') by (rewrite Em in HF; apply Forall_app in HF; tauto).
  assert (Hlen : rb_size (rx_ring s) + length rest = length (concat msgs') + (4 + length tail)).
  { apply (f_equal (@length N)) in Er. rewrite !app_length, content_length in Er. destruct Hp as [-> _] in Er. exact Er. }
  assert (Epre : 4 <= rb_size (rx_ring s) ->
          firstn 4 (content (rx_ring s)) = firstn 4 (concat msgs' ++ p ++ tail)).
  { intro H4. rewrite <- Er. rewrite firstn_app, content_length. replace (4 - rb_size (rx_ring s)) with 0 by lia.
    now rewrite firstn_O, app_nil_r. }
  assert (Hdead : rx_pending s = true -> msgs' = [] /\ rx_down s = true /\ rx_reading s = false).
  { intro Hpd. destruct Hl as [[Hl _]|(_ & Hd & Hr & H4 & H5 & H6)]; [congruence|].
    destruct msgs' as [|m ms]; [auto|]. exfalso. inversion HF' as [|? ? Hm ?]; subst.
    rewrite (Epre H4) in H6. cbn [concat] in H6. rewrite <- app_assoc, frame_len in H6 by assumption.
    destruct Hm as (Hm1 & Hm2 & _). lia. }
  assert (Halive : rx_pending s = false -> rb_size (rx_ring s) < length (concat msgs') + 4).
  { intro Hpd. destruct Hl as [[_ Hr]|(Hl & _)]; [|congruence].
    destruct msgs' as [|m ms].
    - cbn [concat length]. destruct (Hread Hr Hpd) as (_ & [[_ H4]|(H4 & Hcu & Hmax & _ & _)]); [lia|]. exfalso.
      rewrite (Epre H4) in Hcu. cbn [concat app] in Hcu. destruct (no_cut_bad p tail Hp) as [B|B]; [|lia|lia].
      rewrite app_length. destruct Hp. lia.
    - inversion HF' as [|? ? Hm ?]; subst.
      pose proof (waiting_short _ s rest m ms (p ++ tail) HI Hpd Hr Hm Er) as Hw.
      cbn [concat]. rewrite app_length. lia. }
  split.
  - intro Hrl. destruct (rx_pending s) eqn:Epd.
    + destruct (Hdead eq_refl) as (-> & Hd & Hr). rewrite app_nil_r in Em. auto.
    + exfalso. specialize (Halive eq_refl). lia.
  - intro Hl'. destruct (rx_pending s) eqn:Epd.
    + destruct (Hdead eq_refl) as (-> & _ & Hr). cbn [concat length] in Hlen.
      destruct Hl as [[Hl _]|(_ & _ & _ & H4 & _)]; [congruence|]. lia.
    + destruct Hprog as [Hpr|[Hpr|Hpr]]; [congruence| |subst rest; cbn; lia].
      unfold T in Hpr. rewrite !app_length in Hpr. destruct Hp as [Hp _]. rewrite Hp in Hpr. lia.
Qed.

(** Nothing is delivered after the connection has been shut down. *)
Lemma recv_after_shutdown : forall hd cap l l' stream s rest, 4 <= cap ->
  rx_conn hd cap l stream = Ok (Some (s, rest)) -> rx_pending s = true ->
  exists s', rx_run hd l' s rest = Ok (Some (s', rest)) /\ rx_out s' = rx_out s.
Proof.
  intros hd cap l l' stream s rest Hcap H Hp. destruct (start_ok cap stream Hcap) as (s0 & E0 & HI0 & Hl0).
  unfold rx_conn in H. rewrite E0 in H. cbn [bind] in H.
  destruct (run_ok hd _ l s0 _ HI0) as (s1 & r1 & E1 & HI & _). rewrite E1 in H. inversion H; subst s1 r1.
  destruct (run_ok hd _ l' s _ HI) as (s2 & r2 & E2 & _ & E3 & _). destruct (E3 Hp) as (_ & E4 & ->).
  exists s2. auto.
Qed.

(** Whatever arrives, the delivered messages are what the length fields say, and no byte is lost or duplicated. *)
Lemma recv_any : forall hd cap l stream, 4 <= cap ->
  exists s rest, rx_conn hd cap l stream = Ok (Some (s, rest)) /\
    cuts stream (rx_out s) (content (rx_ring s) ++ rest).
Proof.
  intros hd cap l stream Hcap. destruct (start_ok cap stream Hcap) as (s0 & E0 & HI0 & Hl0).
  destruct (run_ok hd _ l s0 _ HI0) as (s1 & r1 & E1 & HI & _). unfold rx_conn. rewrite E0. cbn [bind].
  exists s1, r1. split; [exact E1|]. apply HI.
Qed.
