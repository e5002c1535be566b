From Coq Require Import List NArith ZArith Bool Lia Arith Sorted.
From Verif Require Import Base MessageBufferModel MessageBufferSpec.
Import ListNotations.
Local Open Scope N_scope.

Lemma bind_ok : forall A B (a : A) (f : A -> res B), bind (Ok a) f = f a.
Proof. reflexivity. Qed.

Lemma resize_app : forall A (d : A) l k, resize (length l + k) d l = l ++ repeat d k.
Proof.
  intros A d l k. unfold resize.
  rewrite firstn_all2 by lia. f_equal. f_equal. lia.
Qed.

Lemma write_range_end : forall A (d : A) l xs,
  write_range (length l) xs (l ++ repeat d (length xs)) = Ok (l ++ xs).
Proof.
  intros A d l xs. unfold write_range.
  rewrite app_length, repeat_length.
  replace (length l + length xs <=? length l + length xs)%nat with true by (symmetry; apply Nat.leb_le; lia).
  rewrite firstn_app, firstn_all, Nat.sub_diag, firstn_O, app_nil_r.
  rewrite skipn_all2 by (rewrite app_length, repeat_length; lia).
  rewrite app_nil_r. reflexivity.
Qed.

Lemma write_range_nil : forall A (l : list A), write_range (length l) [] l = Ok l.
Proof.
  intros. unfold write_range. cbn [length]. rewrite Nat.add_0_r, Nat.leb_refl, firstn_all, skipn_all.
  now rewrite app_nil_r.
Qed.

Lemma w_object_end : forall bs st rp,
  w_object bs (mkMbuf st (length st) rp) = Ok (mkMbuf (st ++ bs) (length (st ++ bs)) rp).
Proof.
  intros bs st rp. unfold w_object. cbn [storage wpos rpos].
  destruct bs as [|x bs].
  - cbn [length]. rewrite Nat.add_0_r, Nat.ltb_irrefl, write_range_nil, bind_ok, app_nil_r. reflexivity.
  - replace (length st <? length st + length (x :: bs))%nat with true
      by (symmetry; apply Nat.ltb_lt; cbn [length]; lia).
    rewrite resize_app, write_range_end, bind_ok, app_length. reflexivity.
Qed.

Lemma w_raw_end : forall bs st rp,
  w_raw bs (mkMbuf st (length st) rp) = Ok (mkMbuf (st ++ bs) (length (st ++ bs)) rp).
Proof. exact w_object_end. Qed.

Lemma read_range_mid : forall A (pre bs post : list A),
  read_range (length pre) (length bs) (pre ++ bs ++ post) = Ok bs.
Proof.
  intros A pre bs post. unfold read_range.
  replace (length pre + length bs <=? length (pre ++ bs ++ post))%nat with true
    by (symmetry; apply Nat.leb_le; rewrite !app_length; lia).
  rewrite skipn_app, skipn_all, Nat.sub_diag. cbn [skipn app].
  rewrite firstn_app, firstn_all, Nat.sub_diag, firstn_O, app_nil_r. reflexivity.
Qed.

Lemma r_object_mid : forall pre bs post wp,
  r_object (length bs) (mkMbuf (pre ++ bs ++ post) wp (length pre)) =
  Ok (bs, mkMbuf (pre ++ bs ++ post) wp (length pre + length bs)).
Proof.
  intros pre bs post wp. unfold r_object. cbn [storage wpos rpos].
  replace (length (pre ++ bs ++ post) <? length pre + length bs)%nat with false
    by (symmetry; apply Nat.ltb_ge; rewrite !app_length; lia).
  rewrite read_range_mid, bind_ok. reflexivity.
Qed.

Lemma le_bytes_length : forall n x, length (le_bytes n x) = n.
Proof. induction n as [|n IH]; intro x; cbn; [reflexivity|]. now rewrite IH. Qed.

Lemma pow256_S : forall n, 256 ^ N.of_nat (S n) = 256 * 256 ^ N.of_nat n.
Proof. intro n. rewrite Nat2N.inj_succ, N.pow_succ_r'. reflexivity. Qed.

Lemma of_le_bytes : forall n x, is_u n x -> of_le (le_bytes n x) = x.
Proof.
  induction n as [|n IH]; intros x Hx; unfold is_u in *.
  - cbn in *. lia.
  - cbn [le_bytes of_le]. rewrite pow256_S in Hx. rewrite IH.
    + rewrite N.add_comm. symmetry. apply N.div_mod. lia.
    + apply N.div_lt_upper_bound; lia.
Qed.

Lemma le_bytes_byte : forall n x, Forall is_byte (le_bytes n x).
Proof.
  induction n as [|n IH]; intro x; cbn; constructor; [|apply IH].
  unfold is_byte. apply N.mod_lt. lia.
Qed.

(** Composition. *)
Lemma rt_ret : forall A (a : A), roundtrips w_skip (r_ret a) a.
Proof.
  intros A a. exists []. split.
  - intros st rp. unfold w_skip. rewrite app_nil_r. reflexivity.
  - intros pre post wp. unfold r_ret. cbn [length]. now rewrite Nat.add_0_r.
Qed.

Lemma rt_bind : forall A B (w1 w2 : W) (r : R A) (k : A -> R B) a b,
  roundtrips w1 r a -> roundtrips w2 (k a) b -> roundtrips (w_seq w1 w2) (r_bind r k) b.
Proof.
  intros A B w1 w2 r k a b (bs1 & Hw1 & Hr1) (bs2 & Hw2 & Hr2).
  exists (bs1 ++ bs2). split.
  - intros st rp. unfold w_seq. rewrite Hw1, bind_ok, Hw2, !app_assoc. reflexivity.
  - intros pre post wp. unfold r_bind.
    rewrite <- app_assoc, Hr1, bind_ok. cbn [fst snd].
    specialize (Hr2 (pre ++ bs1) post wp).
    rewrite <- app_assoc in Hr2. rewrite app_length in Hr2.
    rewrite Hr2. rewrite app_length. f_equal. f_equal. f_equal. lia.
Qed.

Lemma rt_bind_last : forall A B (w : W) (r : R A) (k : A -> B) a,
  roundtrips w r a -> roundtrips w (r_bind r (fun x => r_ret (k x))) (k a).
Proof.
  intros A B w r k a (bs & Hw & Hr). exists bs. split; [exact Hw|].
  intros. unfold r_bind. now rewrite Hr.
Qed.

Lemma rtne_rt : forall A w (r : R A) a, roundtrips_ne w r a -> roundtrips w r a.
Proof. intros A w r a (bs & _ & H). exists bs. exact H. Qed.

Lemma rtne_bind_l : forall A B (w1 w2 : W) (r : R A) (k : A -> R B) a b,
  roundtrips_ne w1 r a -> roundtrips w2 (k a) b -> roundtrips_ne (w_seq w1 w2) (r_bind r k) b.
Proof.
  intros A B w1 w2 r k a b (bs1 & Hne & Hw1 & Hr1) (bs2 & Hw2 & Hr2).
  exists (bs1 ++ bs2). split; [destruct bs1; [easy|discriminate]|]. split.
  - intros st rp. unfold w_seq. rewrite Hw1, bind_ok, Hw2, !app_assoc. reflexivity.
  - intros pre post wp. unfold r_bind.
    rewrite <- app_assoc, Hr1, bind_ok. cbn [fst snd].
    specialize (Hr2 (pre ++ bs1) post wp).
    rewrite <- app_assoc in Hr2. rewrite app_length in Hr2.
    rewrite Hr2. rewrite app_length. f_equal. f_equal. f_equal. lia.
Qed.

Lemma rtne_bind_last : forall A B (w : W) (r : R A) (k : A -> B) a,
  roundtrips_ne w r a -> roundtrips_ne w (r_bind r (fun x => r_ret (k x))) (k a).
Proof.
  intros A B w r k a (bs & Hne & Hw & Hr). exists bs. split; [exact Hne|]. split; [exact Hw|].
  intros. unfold r_bind. now rewrite Hr.
Qed.

Lemma rtne_object : forall bs, bs <> [] -> roundtrips_ne (w_object bs) (r_object (length bs)) bs.
Proof.
  intros bs Hne. exists bs. split; [exact Hne|]. split.
  - intros. apply w_object_end.
  - intros. apply r_object_mid.
Qed.

Lemma rtne_uint : forall n x, (0 < n)%nat -> is_u n x -> roundtrips_ne (w_uint n x) (r_uint n) x.
Proof.
  intros n x Hn Hx. unfold w_uint, r_uint.
  rewrite <- (of_le_bytes n x Hx) at 2.
  apply (rtne_bind_last _ _ _ (r_object n) of_le).
  rewrite <- (le_bytes_length n x) at 2. apply rtne_object.
  destruct n; [lia|]. discriminate.
Qed.

Lemma pow_2_256 : forall n, (2 ^ (8 * Z.of_nat n) = Z.of_N (256 ^ N.of_nat n))%Z.
Proof.
  intro n. rewrite Z.pow_mul_r by lia. change (2 ^ 8)%Z with 256%Z.
  rewrite N2Z.inj_pow, nat_N_Z. reflexivity.
Qed.

Lemma sign_adjust_mod : forall n z, (0 < n)%nat -> is_i n z ->
  sign_adjust n (Z.to_N (z mod 2 ^ (8 * Z.of_nat n))) = z.
Proof.
  intros n z Hn Hz. unfold is_i, sign_adjust in *.
  assert (Hp : (2 ^ (8 * Z.of_nat n) = 2 * 2 ^ (8 * Z.of_nat n - 1))%Z).
  { replace (8 * Z.of_nat n)%Z with (Z.succ (8 * Z.of_nat n - 1)) at 1 by lia.
    rewrite Z.pow_succ_r by lia. reflexivity. }
  set (h := (2 ^ (8 * Z.of_nat n - 1))%Z) in *.
  assert (Hh : (0 < h)%Z) by (apply Z.pow_pos_nonneg; lia).
  rewrite Hp.
  rewrite Z2N.id by (apply Z.mod_pos_bound; lia).
  destruct (Z_le_gt_dec 0 z) as [Hs|Hs].
  - rewrite Z.mod_small by lia. destruct (Z.ltb_spec z h); lia.
  - assert (Hm : (z mod (2 * h) = z + 2 * h)%Z).
    { rewrite <- (Z.mod_add z 1 (2 * h)) by lia. rewrite Z.mod_small; lia. }
    rewrite Hm. destruct (Z.ltb_spec (z + 2 * h) h); lia.
Qed.

Lemma rtne_int : forall n z, (0 < n)%nat -> is_i n z -> roundtrips_ne (w_int n z) (r_int n) z.
Proof.
  intros n z Hn Hz. unfold w_int, r_int.
  rewrite <- (sign_adjust_mod n z Hn Hz) at 2.
  apply (rtne_bind_last _ _ _ (r_uint n) (sign_adjust n)).
  apply rtne_uint; [exact Hn|]. unfold is_u.
  assert (H := Z.mod_pos_bound z (2 ^ (8 * Z.of_nat n)) ltac:(apply Z.pow_pos_nonneg; lia)).
  rewrite pow_2_256 in *. lia.
Qed.

Lemma rt_read_raw : forall bs,
  roundtrips (w_raw bs)
   (fun b => if Nlen (storage b) <? N.of_nat (rpos b) + Nlen bs then Exn else
    bind (read_range (rpos b) (N.to_nat (Nlen bs)) (storage b)) (fun x =>
    Ok (x, mkMbuf (storage b) (wpos b) (rpos b + N.to_nat (Nlen bs))))) bs.
Proof.
  intro bs. exists bs. split; [intros; apply w_raw_end|].
  intros pre post wp. cbn [storage rpos wpos].
  replace (Nlen (pre ++ bs ++ post) <? N.of_nat (length pre) + Nlen bs) with false
    by (symmetry; apply N.ltb_ge; unfold Nlen; rewrite !app_length; lia).
  unfold Nlen. rewrite Nat2N.id, read_range_mid, bind_ok. reflexivity.
Qed.

Lemma is_u4 : forall x, x < 2 ^ 32 -> is_u 4 x.
Proof. intros x H. unfold is_u. change (256 ^ N.of_nat 4) with (2 ^ 32). exact H. Qed.

Lemma rtne_bytes : forall bs, is_bytes bs -> roundtrips_ne (w_bytes bs) r_bytes bs.
Proof.
  intros bs H. unfold is_bytes in H.
  assert (Hc : roundtrips_ne (w_seq (w_u32 (Nlen bs)) (w_raw bs)) r_bytes bs).
  { unfold r_bytes. eapply rtne_bind_l; [|apply rt_read_raw].
    apply rtne_uint; [lia|]. now apply is_u4. }
  destruct Hc as (x & Hne & Hw & Hr). exists x. split; [exact Hne|]. split; [|exact Hr].
  intros st rp. unfold w_bytes.
  replace (u32_max <? Nlen bs) with false
    by (symmetry; apply N.ltb_ge; unfold u32_max; change (2^32) with 4294967296 in H; lia).
  apply Hw.
Qed.

Lemma rt_each : forall A (w : A -> W) (r : R A) l,
  Forall (fun a => roundtrips (w a) r a) l -> roundtrips (w_each w l) (r_each r (length l)) l.
Proof.
  intros A w r l H. induction H as [|a l Ha Hl IH]; cbn [w_each r_each length].
  - apply rt_ret.
  - eapply rt_bind; [exact Ha|].
    apply (rt_bind_last _ _ _ (r_each r (length l)) (cons a)). exact IH.
Qed.

(** Bytes written by a sequence of nonempty encoders: at least one per element. *)
Lemma rt_each_len : forall A (w : A -> W) (r : R A) l,
  Forall (fun a => roundtrips_ne (w a) r a) l ->
  exists bs, (length l <= length bs)%nat /\
    (forall st rp, w_each w l (mkMbuf st (length st) rp) = Ok (mkMbuf (st ++ bs) (length (st ++ bs)) rp)) /\
    (forall pre post wp,
        r_each r (length l) (mkMbuf (pre ++ bs ++ post) wp (length pre)) =
        Ok (l, mkMbuf (pre ++ bs ++ post) wp (length pre + length bs))).
Proof.
  intros A w r l H. induction H as [|a l Ha Hl IH].
  - exists []. cbn [length w_each r_each]. split; [lia|]. split.
    + intros. unfold w_skip. now rewrite app_nil_r.
    + intros. unfold r_ret. now rewrite Nat.add_0_r.
  - destruct Ha as (b1 & Hne & Hw1 & Hr1). destruct IH as (b2 & Hlen & Hw2 & Hr2).
    exists (b1 ++ b2). cbn [length w_each r_each]. split; [|split].
    + rewrite app_length. destruct b1; [easy|]. cbn [length]. lia.
    + intros. unfold w_seq. rewrite Hw1, bind_ok, Hw2, !app_assoc. reflexivity.
    + intros pre post wp. unfold r_bind. rewrite <- app_assoc, Hr1, bind_ok. cbn [fst snd].
      specialize (Hr2 (pre ++ b1) post wp).
      rewrite <- app_assoc in Hr2. rewrite app_length in Hr2.
      rewrite Hr2, bind_ok. cbn [fst snd]. unfold r_ret. rewrite app_length. f_equal. f_equal. f_equal. lia.
Qed.

Lemma rtne_vector : forall A (w : A -> W) (r : R A) l,
  Nlen l < 2 ^ 32 -> Forall (fun a => roundtrips_ne (w a) r a) l ->
  roundtrips_ne (w_vector w l) (r_vector r) l.
Proof.
  intros A w r l Hlen H.
  destruct (rt_each_len A w r l H) as (bs & Hl & Hw & Hr).
  assert (Hc : roundtrips_ne (w_seq (w_u32 (Nlen l)) (w_each w l)) (r_vector r) l).
  { unfold r_vector. eapply rtne_bind_l; [apply rtne_uint; [lia|now apply is_u4]|].
    exists bs. split; [exact Hw|]. intros pre post wp. cbn [storage rpos].
    replace (Nlen (pre ++ bs ++ post) <? N.of_nat (length pre) + Nlen l) with false
      by (symmetry; apply N.ltb_ge; unfold Nlen; rewrite !app_length; lia).
    unfold Nlen. rewrite Nat2N.id. apply Hr. }
  destruct Hc as (x & Hne & Hw' & Hr'). exists x. split; [exact Hne|]. split; [|exact Hr'].
  intros st rp. unfold w_vector.
  replace (u32_max <? Nlen l) with false
    by (symmetry; apply N.ltb_ge; unfold u32_max; change (2^32) with 4294967296 in Hlen; lia).
  apply Hw'.
Qed.

Lemma rtne_array : forall A (w : A -> W) (r : R A) l n,
  length l = n -> (0 < n)%nat -> Forall (fun a => roundtrips_ne (w a) r a) l ->
  roundtrips_ne (w_array w l) (r_array r n) l.
Proof.
  intros A w r l n Hn Hpos H.
  destruct (rt_each_len A w r l H) as (bs & Hl & Hw & Hr).
  exists bs. split; [destruct bs; [cbn in Hl; lia|discriminate]|]. split; [exact Hw|].
  intros pre post wp. unfold r_array. cbn [storage rpos].
  replace (length (pre ++ bs ++ post) <? length pre + n)%nat with false
    by (symmetry; apply Nat.ltb_ge; rewrite !app_length; lia).
  subst n. apply Hr.
Qed.

Lemma rtne_bytearray : forall l n, length l = n -> (0 < n)%nat ->
  roundtrips_ne (w_bytearray l) (r_bytearray n) l.
Proof.
  intros l n Hn Hpos. exists l. split; [destruct l; [cbn in Hn; lia|discriminate]|].
  split; [intros; apply w_raw_end|].
  intros pre post wp. unfold r_bytearray. cbn [storage rpos wpos]. subst n.
  replace (length (pre ++ l ++ post) <? length pre + length l)%nat with false
    by (symmetry; apply Nat.ltb_ge; rewrite !app_length; lia).
  rewrite read_range_mid, bind_ok. reflexivity.
Qed.

Lemma rtne_pair : forall A B (w1 : A -> W) (w2 : B -> W) r1 r2 p,
  roundtrips_ne (w1 (fst p)) r1 (fst p) -> roundtrips_ne (w2 (snd p)) r2 (snd p) ->
  roundtrips_ne (w_pair w1 w2 p) (r_pair r1 r2) p.
Proof.
  intros A B w1 w2 r1 r2 [a b] H1 H2. cbn [fst snd] in *. unfold w_pair, r_pair.
  eapply rtne_bind_l; [exact H1|].
  apply (rt_bind_last _ _ _ r2 (fun x => (a, x))). now apply rtne_rt.
Qed.

Lemma rtne_uuid : forall u, is_u 8 (fst u) -> is_u 8 (snd u) -> roundtrips_ne (w_uuid u) r_uuid u.
Proof.
  intros [a b] Ha Hb. cbn [fst snd] in *.
  apply (rtne_pair N N w_u64 w_u64 r_u64 r_u64 (a, b)); cbn [fst snd]; apply rtne_uint; try lia; assumption.
Qed.

(** The string order. *)
Lemma str_ltb_irrefl : forall a, str_ltb a a = false.
Proof. induction a as [|x a IH]; [reflexivity|]. cbn. rewrite N.ltb_irrefl, N.eqb_refl. exact IH. Qed.

Lemma str_eqb_eq : forall a b, str_eqb a b = true <-> a = b.
Proof.
  induction a as [|x a IH]; intros [|y b]; cbn; split; intro H; try easy.
  - apply andb_true_iff in H as [H1 H2]. apply N.eqb_eq in H1. apply IH in H2. now subst.
  - inversion H; subst. rewrite N.eqb_refl. now apply IH.
Qed.

Lemma str_ltb_trans : forall a b c, str_ltb a b = true -> str_ltb b c = true -> str_ltb a c = true.
Proof.
  induction a as [|x a IH]; intros [|y b] [|z c] H1 H2; cbn in *; try easy.
  apply orb_true_iff in H1. apply orb_true_iff in H2. apply orb_true_iff.
  destruct H1 as [H1|H1]; destruct H2 as [H2|H2].
  - left. lia.
  - apply andb_true_iff in H2 as [H2 _]. left. lia.
  - apply andb_true_iff in H1 as [H1 _]. left. lia.
  - apply andb_true_iff in H1 as [H1 H1']. apply andb_true_iff in H2 as [H2 H2'].
    right. apply andb_true_iff. split; [lia|]. eapply IH; eassumption.
Qed.

Lemma str_ltb_asym : forall a b, str_ltb a b = true -> str_ltb b a = false.
Proof.
  intros a b H. destruct (str_ltb b a) eqn:E; [|reflexivity].
  pose proof (str_ltb_trans _ _ _ H E) as T. rewrite str_ltb_irrefl in T. discriminate.
Qed.

Lemma str_trichotomy : forall a b, str_ltb a b = false -> str_eqb a b = false -> str_ltb b a = true.
Proof.
  induction a as [|x a IH]; intros [|y b] H1 H2; cbn in *; try easy.
  apply orb_false_iff in H1 as [H1 H1']. apply orb_true_iff.
  destruct (N.eqb_spec x y) as [->|Hn].
  - right. rewrite N.eqb_refl. cbn in *. apply IH; assumption.
  - left. lia.
Qed.

Lemma map_assign_append : forall m k v,
  Forall (fun kv => str_ltb (fst kv) k = true) m -> map_assign k v m = m ++ [(k, v)].
Proof.
  intros m k v H. induction H as [|[k' v'] m Hk Hm IH]; [reflexivity|].
  cbn [map_assign fst app] in *. rewrite (str_ltb_asym _ _ Hk).
  destruct (str_eqb k k') eqn:E.
  - apply str_eqb_eq in E. subst. rewrite str_ltb_irrefl in Hk. discriminate.
  - now rewrite IH.
Qed.

Lemma rt_map_loop : forall m tmp,
  StronglySorted (fun a b => str_ltb (fst a) (fst b) = true) (tmp ++ m) ->
  Forall (fun kv => is_bytes (fst kv) /\ is_bytes (snd kv)) m ->
  roundtrips (w_each (w_pair w_string w_string) m) (r_map_loop (length m) tmp) (tmp ++ m).
Proof.
  induction m as [|[k v] m IH]; intros tmp Hs Hb; cbn [w_each r_map_loop length].
  - rewrite app_nil_r. apply rt_ret.
  - inversion Hb as [|? ? [Hk Hv] Hb']; subst. cbn [fst snd] in *.
    assert (Hpre : Forall (fun kv => str_ltb (fst kv) k = true) tmp).
    { clear -Hs. induction tmp as [|a tmp IHt]; [constructor|].
      cbn [app] in Hs. inversion Hs as [|? ? Hs' Hf]; subst. constructor; [|now apply IHt].
      rewrite Forall_app in Hf. destruct Hf as [_ Hf]. inversion Hf; subst. assumption. }
    assert (Hw : w_seq (w_pair w_string w_string (k, v)) (w_each (w_pair w_string w_string) m)
                 = w_seq (w_seq (w_string k) (w_string v)) (w_each (w_pair w_string w_string) m)) by reflexivity.
    rewrite Hw.
    assert (H : roundtrips (w_seq (w_string k) (w_seq (w_string v) (w_each (w_pair w_string w_string) m)))
                  (r_bind r_string (fun key => r_bind r_string (fun value =>
                     r_map_loop (length m) (map_assign key value tmp)))) (tmp ++ (k, v) :: m)).
    { eapply rt_bind; [apply rtne_rt, rtne_bytes, Hk|].
      eapply rt_bind; [apply rtne_rt, rtne_bytes, Hv|].
      rewrite map_assign_append by assumption.
      replace (tmp ++ (k, v) :: m) with ((tmp ++ [(k, v)]) ++ m) by (now rewrite <- app_assoc).
      apply IH; [|assumption]. now rewrite <- app_assoc. }
    destruct H as (bs & H1 & H2). exists bs. split; [|exact H2].
    intros st rp. specialize (H1 st rp). unfold w_seq in *.
    destruct (w_string k (mkMbuf st (length st) rp)) as [b| |]; cbn [bind] in *; try exact H1.
Qed.

Lemma rtne_map : forall m, is_map m -> roundtrips_ne (w_map m) r_map m.
Proof.
  intros m (Hl & Hs & Hb). unfold w_map, r_map.
  rewrite N.mod_small by exact Hl.
  eapply rtne_bind_l; [apply rtne_uint; [lia|now apply is_u4]|].
  destruct (rt_map_loop m [] Hs Hb) as (bs & Hw & Hr). exists bs. split; [exact Hw|].
  intros pre post wp. unfold r_bind. unfold Nlen. rewrite Nat2N.id, Hr, bind_ok.
  cbn [fst snd app]. now rewrite N.eqb_refl.
Qed.

Lemma rtne_value : forall t v, wty_ok t -> wval_ok t v -> roundtrips_ne (wwrite t v) (wread t) v.
Proof.
  induction t as [n|n| |t IH|n t IH|n|t1 IH1 t2 IH2| |]; intros v Ht Hv; cbn [wwrite wread wval_ok wty_ok] in *.
  - now apply rtne_uint.
  - now apply rtne_int.
  - now apply rtne_bytes.
  - destruct Hv as [Hl Hf]. apply rtne_vector; [exact Hl|].
    eapply Forall_impl; [|exact Hf]. intros a Ha. now apply IH.
  - destruct Ht as [Hn Ht], Hv as [Hl Hf]. apply rtne_array; [exact Hl|exact Hn|].
    eapply Forall_impl; [|exact Hf]. intros a Ha. now apply IH.
  - now apply rtne_bytearray.
  - destruct Ht, Hv. apply rtne_pair; [now apply IH1|now apply IH2].
  - now apply rtne_map.
  - destruct Hv. now apply rtne_uuid.
Qed.

Lemma rt_sequence : forall l, Forall wdyn_ok l ->
  roundtrips (write_all l) (read_all (map (@projT1 _ _) l)) l.
Proof.
  intros l H. induction H as [|[t v] l [Ht Hv] Hl IH]; cbn [map projT1 read_all].
  - apply rt_ret.
  - unfold write_all. cbn [w_each]. eapply rt_bind; [apply rtne_rt, rtne_value; assumption|].
    cbn [projT1 projT2].
    apply (rt_bind_last _ _ _ _ (cons (existT _ t v))). exact IH.
Qed.

(** Safety on arbitrary input. *)
Lemma safe_ret : forall A (a : A), safe_decoder (r_ret a).
Proof. intros A a st wp rp H. cbn. repeat split; lia. Qed.

Lemma safe_throw : forall A, safe_decoder (@r_throw A).
Proof. intros A st wp rp H. exact I. Qed.

Lemma safe_bind : forall A B (r : R A) (k : A -> R B),
  safe_decoder r -> (forall a, safe_decoder (k a)) -> safe_decoder (r_bind r k).
Proof.
  intros A B r k Hr Hk st wp rp H. unfold r_bind. specialize (Hr st wp rp H).
  destruct (r (mkMbuf st wp rp)) as [[a [st' wp' rp']]| |]; cbn [bind fst snd]; try exact Hr.
  cbn [storage wpos rpos] in Hr. destruct Hr as (-> & -> & Hp).
  specialize (Hk a st wp rp' (proj2 Hp)).
  destruct (k a (mkMbuf st wp rp')) as [[b [st'' wp'' rp'']]| |]; try exact Hk.
  destruct Hk as (H1 & H2 & H3). repeat split; auto; lia.
Qed.

Lemma safe_object : forall n, safe_decoder (r_object n).
Proof.
  intros n st wp rp H. unfold r_object. cbn [storage wpos rpos].
  destruct (Nat.ltb_spec (length st) (rp + n)); [exact I|].
  unfold read_range. destruct (Nat.leb_spec (rp + n) (length st)); [|lia].
  cbn. repeat split; lia.
Qed.

Lemma safe_uint : forall n, safe_decoder (r_uint n).
Proof. intro n. apply safe_bind; [apply safe_object|]. intro. apply safe_ret. Qed.

Lemma safe_int : forall n, safe_decoder (r_int n).
Proof. intro n. apply safe_bind; [apply safe_uint|]. intro. apply safe_ret. Qed.

Lemma safe_bytes : safe_decoder r_bytes.
Proof.
  apply safe_bind; [apply safe_uint|]. intros len st wp rp H. cbn [storage wpos rpos].
  destruct (N.ltb_spec (Nlen st) (N.of_nat rp + len)) as [Hl|Hl]; [exact I|].
  unfold Nlen in Hl. unfold read_range.
  destruct (Nat.leb_spec (rp + N.to_nat len) (length st)); [|lia].
  cbn. repeat split; lia.
Qed.

Lemma safe_each : forall A (r : R A) n, safe_decoder r -> safe_decoder (r_each r n).
Proof.
  intros A r n H. induction n as [|n IH]; cbn [r_each]; [apply safe_ret|].
  apply safe_bind; [exact H|]. intro a. apply safe_bind; [exact IH|]. intro. apply safe_ret.
Qed.

Lemma safe_vector : forall A (r : R A), safe_decoder r -> safe_decoder (r_vector r).
Proof.
  intros A r H. apply safe_bind; [apply safe_uint|]. intros n st wp rp Hp. cbn [storage rpos].
  destruct (N.ltb_spec (Nlen st) (N.of_nat rp + n)) as [Hl|Hl]; [exact I|].
  now apply safe_each.
Qed.

Lemma safe_array : forall A (r : R A) n, safe_decoder r -> safe_decoder (r_array r n).
Proof.
  intros A r n H st wp rp Hp. unfold r_array. cbn [storage rpos].
  destruct (Nat.ltb_spec (length st) (rp + n)) as [Hl|Hl]; [exact I|].
  now apply safe_each.
Qed.

Lemma safe_bytearray : forall n, safe_decoder (r_bytearray n).
Proof. exact safe_object. Qed.

Lemma safe_pair : forall A B (r1 : R A) (r2 : R B), safe_decoder r1 -> safe_decoder r2 ->
  safe_decoder (r_pair r1 r2).
Proof.
  intros A B r1 r2 H1 H2. apply safe_bind; [exact H1|]. intro a. apply safe_bind; [exact H2|].
  intro b. apply safe_ret.
Qed.

Lemma safe_map_loop : forall n tmp, safe_decoder (r_map_loop n tmp).
Proof.
  induction n as [|n IH]; intro tmp; cbn [r_map_loop]; [apply safe_ret|].
  apply safe_bind; [apply safe_bytes|]. intro k. apply safe_bind; [apply safe_bytes|]. intro v. apply IH.
Qed.

Lemma safe_map : safe_decoder r_map.
Proof.
  apply safe_bind; [apply safe_uint|]. intro n. apply safe_bind; [apply safe_map_loop|].
  intro tmp. destruct (n =? Nlen tmp); [apply safe_ret|apply safe_throw].
Qed.

Lemma safe_uuid : safe_decoder r_uuid.
Proof. apply (safe_pair N N r_u64 r_u64); apply safe_uint. Qed.

Lemma safe_if_remaining : forall A (f g : R A), safe_decoder f -> safe_decoder g ->
  safe_decoder (r_if_remaining f g).
Proof.
  intros A f g Hf Hg st wp rp H. unfold r_if_remaining.
  destruct (0 <? remaining _)%nat; [now apply Hf|now apply Hg].
Qed.

Lemma safe_value : forall t, safe_decoder (wread t).
Proof.
  induction t; cbn [wread].
  - apply safe_uint.
  - apply safe_int.
  - apply safe_bytes.
  - now apply safe_vector.
  - now apply safe_array.
  - apply safe_bytearray.
  - now apply safe_pair.
  - apply safe_map.
  - apply safe_uuid.
Qed.

(** Decoded maps really are maps (sorted, no duplicate keys). *)
Lemma map_assign_sorted : forall m k v,
  StronglySorted (fun a b => str_ltb (fst a) (fst b) = true) m ->
  StronglySorted (fun a b => str_ltb (fst a) (fst b) = true) (map_assign k v m) /\
  Forall (fun kv => fst kv = k \/ In kv m) (map_assign k v m).
Proof.
  induction m as [|[k' v'] m IH]; intros k v Hs; cbn [map_assign].
  - split; [repeat constructor|]. repeat constructor.
  - inversion Hs as [|? ? Hs' Hf]; subst.
    destruct (str_ltb k k') eqn:E1.
    + split.
      * constructor; [assumption|]. constructor; [exact E1|].
        eapply Forall_impl; [|exact Hf]. intros [k2 v2] H. cbn in *. eapply str_ltb_trans; eassumption.
      * constructor; [now left|]. apply Forall_forall. intros x Hx. now right.
    + destruct (str_eqb k k') eqn:E2.
      * apply str_eqb_eq in E2. subst. split.
        -- constructor; [assumption|]. exact Hf.
        -- constructor; [now left|]. apply Forall_forall. intros x Hx. right. now right.
      * destruct (IH k v Hs') as [Ha Hb]. split.
        -- constructor; [exact Ha|].
           rewrite Forall_forall in *. intros x Hx. specialize (Hb x Hx). destruct Hb as [Hb|Hb].
           ++ cbn [fst]. rewrite Hb. now apply str_trichotomy.
           ++ now apply Hf.
        -- constructor; [right; now left|].
           eapply Forall_impl; [|exact Hb]. intros x [Hx|Hx]; [now left|right; now right].
Qed.

Lemma sequence_roundtrip : forall l, Forall wdyn_ok l ->
  exists bs, write_all l mbuf_new = Ok (mkMbuf bs (length bs) 0) /\
    read_all (map (@projT1 _ _) l) (mbuf_of bs) = Ok (l, mkMbuf bs (length bs) (length bs)).
Proof.
  intros l H. destruct (rt_sequence l H) as (bs & Hw & Hr). exists bs. split.
  - apply (Hw [] 0%nat).
  - specialize (Hr [] [] (length bs)). rewrite app_nil_r in Hr. exact Hr.
Qed.

Lemma encoding_injective : forall t (v1 v2 : wval t) b,
  wty_ok t -> wval_ok t v1 -> wval_ok t v2 ->
  wwrite t v1 mbuf_new = Ok b -> wwrite t v2 mbuf_new = Ok b -> v1 = v2.
Proof.
  intros t v1 v2 b Ht H1 H2 E1 E2.
  destruct (rtne_value t v1 Ht H1) as (b1 & _ & Hw1 & Hr1).
  destruct (rtne_value t v2 Ht H2) as (b2 & _ & Hw2 & Hr2).
  specialize (Hw1 [] 0%nat). specialize (Hw2 [] 0%nat).
  change (mkMbuf [] (length (@nil N)) 0) with mbuf_new in *.
  rewrite Hw1 in E1. rewrite Hw2 in E2.
  assert (b1 = b2) by (rewrite <- E2 in E1; cbn [app] in E1; now inversion E1). subst b2.
  specialize (Hr1 [] [] 0%nat). specialize (Hr2 [] [] 0%nat). rewrite Hr1 in Hr2. now inversion Hr2.
Qed.

Lemma bytes_oversized : forall bs b, 2 ^ 32 <= Nlen bs -> w_bytes bs b = Exn.
Proof.
  intros bs b H. unfold w_bytes. replace (u32_max <? Nlen bs) with true; [reflexivity|].
  symmetry. apply N.ltb_lt. unfold u32_max. change (2 ^ 32) with 4294967296 in H. lia.
Qed.
