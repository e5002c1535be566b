From Coq Require Import List NArith Arith Bool Lia.
From Verif Require Import Base RingBufferModel RingBufferSpec.
Import ListNotations.

Lemma mod_lt2 : forall x c, x < c + c -> x mod c = if x <? c then x else x - c.
Proof.
  intros x c H. destruct (Nat.ltb_spec x c).
  - now apply Nat.mod_small.
  - symmetry. apply Nat.mod_unique with (q := 1); lia.
Qed.
Ltac mods := repeat match goal with
  | |- context [?x mod ?c] => rewrite (mod_lt2 x c) by lia; destruct (Nat.ltb_spec x c)
  end.

Lemma nth_firstn : forall A (l : list A) n i d, i < n -> nth i (firstn n l) d = nth i l d.
Proof.
  induction l as [|x l IH]; intros [|n] [|i] d H; try lia; cbn; try reflexivity. apply IH. lia.
Qed.
Lemma nth_skipn : forall A (l : list A) n i d, nth i (skipn n l) d = nth (n + i) l d.
Proof.
  induction l as [|x l IH]; intros [|n] i d; cbn; try reflexivity.
  - now destruct i.
  - apply IH.
Qed.
Lemma nth_map_seq : forall (f : nat -> N) n i s d, i < n -> nth i (map f (seq s n)) d = f (s + i).
Proof.
  intros f n i s d H. rewrite nth_indep with (d' := f 0) by (now rewrite map_length, seq_length).
  rewrite map_nth, seq_nth by assumption. reflexivity.
Qed.

Lemma content_length : forall b, length (content b) = rb_size b.
Proof. intro b. unfold content. now rewrite map_length, seq_length. Qed.
Lemma content_nth : forall b i, i < rb_size b -> nth i (content b) 0%N = nth (unread_cell b i) (rb_buf b) 0%N.
Proof. intros b i H. unfold content. rewrite nth_map_seq by assumption. reflexivity. Qed.

Lemma list_ext : forall (l l' : list N), length l = length l' ->
  (forall i, i < length l -> nth i l 0%N = nth i l' 0%N) -> l = l'.
Proof. intros l l' H1 H2. apply nth_ext with (d := 0%N) (d' := 0%N); assumption. Qed.

Lemma peek_ok : forall b n, ring_ok b ->
  peek n b = Ok (if n <=? length (content b) then Some (firstn n (content b)) else None).
Proof.
  intros b n [Hc Hs Hr Hw]. unfold peek. rewrite content_length.
  destruct (Nat.leb_spec n (rb_size b)) as [Hn|Hn].
  2:{ replace (rb_size b <? n) with true by (symmetry; apply Nat.ltb_lt; lia). reflexivity. }
  replace (rb_size b <? n) with false by (symmetry; apply Nat.ltb_ge; lia).
  set (one := Nat.min (rb_cap b - rb_r b) n).
  assert (Hone : one = Nat.min (rb_cap b - rb_r b) n) by reflexivity. clearbody one.
  unfold read_range. fold (rb_cap b).
  replace (rb_r b + one <=? rb_cap b) with true by (symmetry; apply Nat.leb_le; lia). cbn [bind].
  destruct (Nat.ltb_spec one n) as [H1|H1].
  - replace (0 + (n - one) <=? rb_cap b) with true by (symmetry; apply Nat.leb_le; lia). cbn [bind].
    f_equal. f_equal. cbn [skipn]. apply list_ext.
    + rewrite app_length, !firstn_length, skipn_length, content_length. fold (rb_cap b). lia.
    + rewrite app_length, !firstn_length, skipn_length. fold (rb_cap b). intros i Hi.
      rewrite (nth_firstn _ (content b)) by lia. rewrite content_nth by lia. unfold unread_cell.
      destruct (Nat.ltb_spec i one) as [H2|H2].
      * rewrite app_nth1 by (rewrite firstn_length, skipn_length; fold (rb_cap b); lia).
        rewrite nth_firstn, nth_skipn by lia. mods; try reflexivity; lia.
      * rewrite app_nth2 by (rewrite firstn_length, skipn_length; fold (rb_cap b); lia).
        rewrite firstn_length, skipn_length. fold (rb_cap b). rewrite nth_firstn by lia. mods; [lia|].
        f_equal. lia.
  - f_equal. f_equal. apply list_ext.
    + rewrite !firstn_length, skipn_length, content_length. fold (rb_cap b). lia.
    + rewrite firstn_length, skipn_length. fold (rb_cap b). intros i Hi.
      rewrite !nth_firstn by lia. rewrite nth_skipn, content_nth by lia. unfold unread_cell. mods; [reflexivity|lia].
Qed.

Lemma advance_r_ok : forall b n, ring_ok b -> n <= rb_size b ->
  exists b', advance_r n b = Ok b' /\ ring_ok b' /\ content b' = skipn n (content b) /\ rb_cap b' = rb_cap b.
Proof.
  intros b n [Hc Hs Hr Hw] Hn. unfold advance_r.
  replace (rb_cap b =? 0) with false by (symmetry; apply Nat.eqb_neq; lia).
  replace (rb_size b <? n) with false by (symmetry; apply Nat.ltb_ge; lia).
  cbn [rb_size]. replace (rb_cap b <? rb_size b - n) with false by (symmetry; apply Nat.ltb_ge; lia).
  eexists. split; [reflexivity|].
  assert (Hcap : forall s w r, rb_cap (mkRing (rb_buf b) s w r) = rb_cap b) by reflexivity.
  split; [|split; [|reflexivity]].
  - constructor; rewrite ?Hcap; cbn [rb_size rb_r rb_w]; try lia.
    rewrite Hw. rewrite Nat.add_mod_idemp_l by lia. f_equal. lia.
  - apply list_ext; rewrite ?skipn_length, !content_length; cbn [rb_size]; [reflexivity|].
    intros i Hi. rewrite nth_skipn. rewrite !content_nth by (cbn [rb_size]; lia).
    unfold unread_cell. rewrite Hcap. cbn [rb_r rb_buf]. f_equal.
    rewrite Nat.add_mod_idemp_l by lia. f_equal. lia.
Qed.

Lemma read_ok : forall b n, ring_ok b ->
  exists b', read n b = Ok ((if n <=? length (content b) then Some (firstn n (content b)) else None), b') /\
    ring_ok b' /\ rb_cap b' = rb_cap b /\
    content b' = (if n <=? length (content b) then skipn n (content b) else content b) /\
    (n > length (content b) -> b' = b).
Proof.
  intros b n Hok. unfold read. rewrite peek_ok by assumption. cbn [bind].
  destruct (Nat.leb_spec n (length (content b))) as [Hn|Hn].
  - rewrite content_length in Hn. destruct (advance_r_ok b n Hok Hn) as (b' & H1 & H2 & H3 & H4).
    rewrite H1. cbn [bind]. exists b'. rewrite content_length. repeat split; try assumption; try apply H2. lia.
  - exists b. repeat split; try apply Hok.
Qed.

(** Free space. *)
Lemma free_one_eq : forall b, ring_ok b -> free_one b = Nat.min (rb_cap b - rb_w b) (rb_cap b - rb_size b).
Proof.
  intros b [Hc Hs Hr Hw]. unfold free_one, rb_empty. destruct (Nat.eqb_spec (rb_size b) 0); [|reflexivity]. lia.
Qed.
Lemma w_lt : forall b, ring_ok b -> rb_w b < rb_cap b.
Proof. intros b [Hc Hs Hr Hw]. rewrite Hw. apply Nat.mod_upper_bound. lia. Qed.
Lemma free_two_eq : forall b, ring_ok b -> free_two b = (rb_cap b - rb_size b) - free_one b.
Proof.
  intros b Hok. pose proof (w_lt b Hok). rewrite free_one_eq by assumption. destruct Hok as [Hc Hs Hr Hw].
  unfold free_two, rb_empty. destruct (Nat.eqb_spec (rb_size b) 0); [lia|].
  rewrite free_one_eq by (constructor; assumption). reflexivity.
Qed.
Lemma areas_total_eq : forall b, ring_ok b -> areas_total (writing_buffers b) = rb_cap b - rb_size b.
Proof.
  intros b Hok. unfold writing_buffers, areas_total.
  pose proof (free_one_eq b Hok) as H1. pose proof (free_two_eq b Hok) as H2. pose proof (w_lt b Hok).
  destruct (Nat.ltb_spec 0 (free_one b)), (Nat.ltb_spec 0 (free_two b)); cbn; lia.
Qed.

Lemma write_range_nth : forall (off : nat) (xs buf buf' : list N), write_range off xs buf = Ok buf' ->
  length buf' = length buf /\
  forall c, nth c buf' 0%N = if (off <=? c) && (c <? off + length xs) then nth (c - off) xs 0%N else nth c buf 0%N.
Proof.
  intros off xs buf buf' H. unfold write_range in H.
  destruct (Nat.leb_spec (off + length xs) (length buf)) as [Hl|Hl]; [|discriminate]. inversion H; subst; clear H.
  split; [rewrite !app_length, firstn_length, skipn_length; lia|].
  intro c. destruct (Nat.leb_spec off c); [destruct (Nat.ltb_spec c (off + length xs))|]; cbn [andb].
  - rewrite app_nth2 by (rewrite firstn_length; lia). rewrite app_nth1 by (rewrite firstn_length; lia).
    rewrite firstn_length. f_equal. lia.
  - rewrite app_nth2 by (rewrite firstn_length; lia). rewrite app_nth2 by (rewrite firstn_length; lia).
    rewrite nth_skipn, firstn_length. f_equal. lia.
  - rewrite app_nth1 by (rewrite firstn_length; lia). apply nth_firstn. lia.
Qed.
Lemma write_range_ok : forall off (xs buf : list N), off + length xs <= length buf ->
  exists buf', write_range off xs buf = Ok buf'.
Proof.
  intros off xs buf H. unfold write_range.
  replace (off + length xs <=? length buf) with true by (symmetry; apply Nat.leb_le; lia). eexists. reflexivity.
Qed.
Lemma write_range_nil' : forall off (buf : list N), off <= length buf -> write_range off [] buf = Ok buf.
Proof.
  intros off buf H. unfold write_range. cbn [length app]. rewrite Nat.add_0_r.
  replace (off <=? length buf) with true by (symmetry; apply Nat.leb_le; lia). now rewrite firstn_skipn.
Qed.

Lemma scatter_eq : forall b d, ring_ok b -> length d <= rb_cap b - rb_size b ->
  scatter (writing_buffers b) d (rb_buf b) =
  bind (write_range (rb_w b) (firstn (free_one b) d) (rb_buf b)) (fun buf => write_range 0 (skipn (free_one b) d) buf).
Proof.
  intros b d Hok Hd. pose proof (free_one_eq b Hok) as H1. pose proof (free_two_eq b Hok) as H2.
  pose proof (w_lt b Hok) as Hw. unfold writing_buffers.
  destruct (Nat.ltb_spec 0 (free_one b)) as [Ha|Ha], (Nat.ltb_spec 0 (free_two b)) as [Hb|Hb]; cbn [app scatter].
  - destruct (write_range (rb_w b) _ _); cbn [bind]; try reflexivity.
    rewrite (firstn_all2 (skipn (free_one b) d)) by (rewrite skipn_length; lia).
    try (destruct (write_range 0 _ _); reflexivity).
  - rewrite (skipn_all2 d) by lia. destruct (write_range (rb_w b) _ _); cbn [bind]; try reflexivity.
  - lia.
  - replace (free_one b) with 0 by lia. cbn [firstn skipn].
    destruct d; [|cbn [length] in Hd; lia]. rewrite write_range_nil' by (fold (rb_cap b); lia). cbn [bind].
    now rewrite write_range_nil' by lia.
Qed.

Lemma fill_ok : forall b d, ring_ok b -> length d <= rb_cap b - rb_size b ->
  exists b', socket_fill d b = Ok b' /\ ring_ok b' /\ content b' = content b ++ d /\ rb_cap b' = rb_cap b.
Proof.
  intros b d Hok Hd. unfold socket_fill. rewrite scatter_eq by assumption.
  pose proof (free_one_eq b Hok) as H1. pose proof (w_lt b Hok) as Hwl.
  pose proof Hok as [Hc Hs Hr Hw].
  destruct (write_range_ok (rb_w b) (firstn (free_one b) d) (rb_buf b)) as [buf1 E1].
  { rewrite firstn_length. fold (rb_cap b). lia. }
  rewrite E1. cbn [bind]. destruct (write_range_nth _ _ _ _ E1) as [L1 N1].
  destruct (write_range_ok 0 (skipn (free_one b) d) buf1) as [buf2 E2].
  { rewrite skipn_length, L1. fold (rb_cap b). lia. }
  rewrite E2. cbn [bind]. destruct (write_range_nth _ _ _ _ E2) as [L2 N2].
  rewrite L1 in L2. fold (rb_cap b) in L2.
  unfold advance_w. cbn [rb_size rb_w rb_r rb_buf].
  assert (Hcap : forall s w r, rb_cap (mkRing buf2 s w r) = rb_cap b) by (intros; exact L2).
  rewrite !Hcap.
  replace (rb_cap b =? 0) with false by (symmetry; apply Nat.eqb_neq; lia).
  replace (rb_cap b <? rb_size b + length d) with false by (symmetry; apply Nat.ltb_ge; lia).
  eexists. split; [reflexivity|]. split; [|split; [|apply Hcap]].
  - constructor; rewrite ?Hcap; cbn [rb_size rb_w rb_r]; try lia.
    rewrite Hw, Nat.add_mod_idemp_l by lia. f_equal. lia.
  - apply list_ext.
    + rewrite app_length, !content_length. reflexivity.
    + rewrite content_length. cbn [rb_size]. intros i Hi. rewrite content_nth by (cbn [rb_size]; lia).
      unfold unread_cell. rewrite Hcap. cbn [rb_r rb_buf]. rewrite N2, N1.
      rewrite firstn_length, skipn_length.
      destruct (Nat.ltb_spec i (rb_size b)) as [Hi1|Hi1].
      * rewrite app_nth1 by (rewrite content_length; lia). rewrite content_nth by lia. unfold unread_cell.
        rewrite (mod_lt2 (rb_r b + rb_size b)) in Hw by lia.
        rewrite (mod_lt2 (rb_r b + i)) by lia.
        repeat match goal with |- context [?a <=? ?b] => destruct (Nat.leb_spec a b)
                          | |- context [?a <? ?b] => destruct (Nat.ltb_spec a b)
                          | H : context [?a <? ?b] |- _ => destruct (Nat.ltb_spec a b) end; cbn [andb]; try reflexivity; lia.
      * rewrite app_nth2 by (rewrite content_length; lia). rewrite content_length.
        rewrite (mod_lt2 (rb_r b + rb_size b)) in Hw by lia.
        set (j := i - rb_size b) in *. assert (Hj : i = rb_size b + j) by lia. clearbody j. subst i.
        assert (Hm : (rb_r b + (rb_size b + j)) mod rb_cap b = if rb_w b + j <? rb_cap b then rb_w b + j else rb_w b + j - rb_cap b).
        { rewrite <- (mod_lt2 (rb_w b + j)) by lia. rewrite Hw.
          destruct (Nat.ltb_spec (rb_r b + rb_size b) (rb_cap b)).
          - f_equal. lia.
          - replace (rb_r b + (rb_size b + j)) with ((rb_r b + rb_size b - rb_cap b + j) + 1 * rb_cap b) by lia.
            apply Nat.mod_add. lia. }
        rewrite Hm.
        destruct (Nat.ltb_spec (rb_w b + j) (rb_cap b)) as [Hj|Hj].
        -- replace ((0 <=? rb_w b + j) && (rb_w b + j <? 0 + (length d - free_one b))) with false
             by (symmetry; apply andb_false_iff; right; apply Nat.ltb_ge;
                 destruct (Nat.ltb_spec (rb_r b + rb_size b) (rb_cap b)); lia).
           replace ((rb_w b <=? rb_w b + j) && (rb_w b + j <? rb_w b + Nat.min (free_one b) (length d))) with true
             by (symmetry; apply andb_true_iff; split; [apply Nat.leb_le; lia|apply Nat.ltb_lt; lia]).
           rewrite nth_firstn by lia. f_equal. lia.
        -- replace ((0 <=? rb_w b + j - rb_cap b) && (rb_w b + j - rb_cap b <? 0 + (length d - free_one b))) with true
             by (symmetry; apply andb_true_iff; split; [apply Nat.leb_le; lia|apply Nat.ltb_lt; lia]).
           rewrite nth_skipn. f_equal. lia.
Qed.

Lemma reserve_ok : forall b n, ring_ok b ->
  exists b', reserve n b = Ok b' /\ ring_ok b' /\ content b' = content b /\ rb_cap b' = Nat.max (rb_cap b) n.
Proof.
  intros b n Hok. pose proof Hok as [Hc Hs Hr Hw]. unfold reserve.
  destruct (Nat.leb_spec n (rb_cap b)) as [Hn|Hn].
  - exists b. repeat split; auto. lia.
  - rewrite peek_ok by assumption. rewrite content_length, Nat.leb_refl. cbn [bind].
    rewrite firstn_all2 by (rewrite content_length; lia).
    eexists. split; [reflexivity|].
    assert (Hlen : length (resize n 0%N (content b)) = n).
    { unfold resize. rewrite app_length, firstn_length, repeat_length, content_length. lia. }
    assert (Hcap : forall s w r, rb_cap (mkRing (resize n 0%N (content b)) s w r) = n) by (intros; exact Hlen).
    split; [|split; [|rewrite Hcap; lia]].
    + constructor; rewrite ?Hcap; cbn [rb_size rb_w rb_r]; try lia. rewrite Nat.mod_small by lia. lia.
    + apply list_ext; rewrite !content_length; cbn [rb_size]; [reflexivity|]. intros i Hi.
      rewrite content_nth by (cbn [rb_size]; lia). unfold unread_cell. rewrite Hcap. cbn [rb_r rb_buf].
      rewrite Nat.mod_small by lia. cbn [Nat.add]. unfold resize.
      rewrite app_nth1 by (rewrite firstn_length, content_length; lia). apply nth_firstn. lia.
Qed.

Lemma areas_ok_all : forall b, ring_ok b -> areas_ok b.
Proof.
  intros b Hok. unfold areas_ok. cbv zeta. split; [now apply areas_total_eq|].
  pose proof (free_one_eq b Hok) as H1. pose proof (free_two_eq b Hok) as H2. pose proof (w_lt b Hok) as Hwl.
  pose proof Hok as [Hc Hs Hr Hw]. rewrite (mod_lt2 (rb_r b + rb_size b)) in Hw by lia.
  assert (Hin : forall a, In a (writing_buffers b) ->
     (a = (rb_w b, free_one b) /\ 0 < free_one b) \/ (a = (0, free_two b) /\ 0 < free_two b)).
  { intros a Ha. unfold writing_buffers in Ha. apply in_app_or in Ha.
    destruct (Nat.ltb_spec 0 (free_one b)), (Nat.ltb_spec 0 (free_two b)); cbn in Ha; intuition; subst; auto. }
  split; [|split].
  - intros a Ha. destruct (Hin a Ha) as [[-> ?]|[-> ?]]; cbn [fst snd]; lia.
  - intros a i Ha Hi. unfold in_area, unread_cell. rewrite (mod_lt2 (rb_r b + i)) by lia.
    destruct (Hin a Ha) as [[-> ?]|[-> ?]]; cbn [fst snd];
      destruct (Nat.ltb_spec (rb_r b + rb_size b) (rb_cap b)), (Nat.ltb_spec (rb_r b + i) (rb_cap b)); lia.
  - intros i j a a' Hi Hj Hij c. unfold in_area.
    assert (Hd : free_two b <= rb_w b) by (destruct (Nat.ltb_spec (rb_r b + rb_size b) (rb_cap b)); lia).
    unfold writing_buffers in Hi, Hj.
    destruct (Nat.ltb_spec 0 (free_one b)), (Nat.ltb_spec 0 (free_two b)); cbn [app] in Hi, Hj;
      destruct i as [|[|[|i]]], j as [|[|[|j]]]; cbn in Hi, Hj; try discriminate; try congruence;
      inversion Hi; inversion Hj; subst; cbn [fst snd]; lia.
Qed.

Lemma ring_new_ok : forall c, 0 < c -> ring_ok (ring_new c) /\ content (ring_new c) = [] /\ rb_cap (ring_new c) = c.
Proof.
  intros c Hc. assert (H : rb_cap (ring_new c) = c) by apply repeat_length.
  split; [|split; [reflexivity|exact H]].
  constructor; rewrite ?H; cbn [ring_new rb_size rb_r rb_w]; try lia. rewrite Nat.mod_small; lia.
Qed.

Lemma rstep_refines : forall o b, ring_ok b ->
  exists x b', rstep o b = Ok (x, b') /\ ring_ok b' /\
    qstep o (content b, rb_cap b) = (x, (content b', rb_cap b')).
Proof.
  intros o b Hok. destruct o as [data|n|n|n]; cbn [rstep qstep].
  - rewrite areas_total_eq, content_length by assumption.
    destruct (fill_ok b (firstn (rb_cap b - rb_size b) data) Hok) as (b' & H1 & H2 & H3 & H4).
    { rewrite firstn_length. lia. }
    rewrite H1. cbn [bind]. eexists _, _. split; [reflexivity|]. split; [exact H2|]. now rewrite H3, H4.
  - rewrite peek_ok by assumption. cbn [bind]. eexists _, _. split; [reflexivity|]. split; [exact Hok|]. reflexivity.
  - destruct (read_ok b n Hok) as (b' & H1 & H2 & H3 & H4 & H5). rewrite H1. cbn [bind fst snd].
    eexists _, _. split; [reflexivity|]. split; [exact H2|]. rewrite H3, H4.
    destruct (n <=? length (content b)); reflexivity.
  - destruct (reserve_ok b n Hok) as (b' & H1 & H2 & H3 & H4). rewrite H1. cbn [bind].
    eexists _, _. split; [reflexivity|]. split; [exact H2|]. now rewrite H3, H4.
Qed.

Lemma rrun_refines : forall l b, ring_ok b ->
  exists xs b', rrun l b = Ok (xs, b') /\ ring_ok b' /\
    qrun l (content b, rb_cap b) = (xs, (content b', rb_cap b')).
Proof.
  induction l as [|o l IH]; intros b Hok; cbn [rrun qrun].
  - exists [], b. auto.
  - destruct (rstep_refines o b Hok) as (x & b1 & H1 & H2 & H3). rewrite H1, H3. cbn [bind fst snd].
    destruct (IH b1 H2) as (xs & b2 & H4 & H5 & H6). rewrite H4, H6. cbn [bind fst snd].
    exists (x :: xs), b2. auto.
Qed.

Lemma rrun_new : forall c l, 0 < c ->
  exists b, rrun l (ring_new c) = Ok (fst (qrun l ([], c)), b) /\ ring_ok b /\
    content b = fst (snd (qrun l ([], c))) /\ rb_cap b = snd (snd (qrun l ([], c))) /\ areas_ok b.
Proof.
  intros c l Hc. destruct (ring_new_ok c Hc) as (H1 & H2 & H3).
  destruct (rrun_refines l (ring_new c) H1) as (xs & b & H4 & H5 & H6). rewrite H2, H3 in H6. rewrite H6. cbn [fst snd].
  exists b. split; [exact H4|]. split; [exact H5|]. split; [reflexivity|]. split; [reflexivity|]. apply (areas_ok_all b H5).
Qed.
