(** Proofs about ShowModel.v *)
From Coq Require Import String NArith List Arith Bool Lia.
From Verif Require Import Base TextModel TextSpec TextProofs UriProofs MetricsText ShowModel.
Import ListNotations.
Open Scope N_scope.
Open Scope list_scope.

(** ** Splitting texts *)
Definition starts (c : N) (x : text) : Prop := match x with [] => True | d :: _ => d = c end.
Lemma span : forall c a b x y, ~ In c a -> ~ In c b -> starts c x -> starts c y -> a ++ x = b ++ y -> a = b /\ x = y.
Proof.
  induction a as [|d a IH]; intros [|e b] x y A B X Y H; cbn in H.
  - auto.
  - subst x. cbn in X. exfalso. apply B. now left.
  - subst y. cbn in Y. exfalso. apply A. now left.
  - injection H as -> H. destruct (IH b x y) as [-> ->]; auto; intro I; [apply A|apply B]; now right.
Qed.
Definition nodigit (x : text) : Prop := match x with [] => True | c :: _ => digit c = false end.
Lemma dec_sep : forall n m x y, nodigit x -> nodigit y -> decimal n ++ x = decimal m ++ y -> n = m /\ x = y.
Proof. intros n m x y X Y H. pose proof (read_number_decimal n x X) as A. rewrite H, (read_number_decimal m y Y) in A. injection A as -> ->. auto. Qed.
Lemma dec_inj : forall n m, decimal n = decimal m -> n = m.
Proof. intros n m H. apply (dec_sep n m [] []); [exact I|exact I|now rewrite H]. Qed.

(** ** Lists of texts *)
Definition rest_of (sep : text) (l : list text) : text := flat_map (fun y => sep ++ y) l.
Lemma rest_starts : forall c s l, starts c (rest_of (c :: s) l).
Proof. intros c s [|x l]; cbn; auto. Qed.
Lemma rest_inj : forall c s l1 l2, Forall (fun x => ~ In c x) l1 -> Forall (fun x => ~ In c x) l2 -> rest_of (c :: s) l1 = rest_of (c :: s) l2 -> l1 = l2.
Proof.
  intros c s. induction l1 as [|x l1 IH]; intros [|y l2] A B H; try reflexivity; try discriminate.
  inversion A; inversion B; subst. cbn in H. injection H as H. rewrite <- !app_assoc in H. apply app_inv_head in H. change (x ++ rest_of (c :: s) l1 = y ++ rest_of (c :: s) l2) in H.
  apply span with (c := c) in H; auto using rest_starts. destruct H as [-> H]. f_equal. now apply IH.
Qed.
Lemma join_inj : forall c s l1 l2, Forall (fun x => x <> [] /\ ~ In c x) l1 -> Forall (fun x => x <> [] /\ ~ In c x) l2 -> join_with (c :: s) l1 = join_with (c :: s) l2 -> l1 = l2.
Proof.
  intros c s l1 l2 A B H.
  assert (W : forall l, Forall (fun x : text => x <> [] /\ ~ In c x) l -> Forall (fun x => ~ In c x) l) by (intros l F; eapply Forall_impl; [|exact F]; intros ? [_ ?]; assumption).
  destruct l1 as [|x l1], l2 as [|y l2]; [reflexivity| | |].
  - inversion B; subst. destruct H2 as [N _]. cbn in H. destruct y; [congruence|discriminate].
  - inversion A; subst. destruct H2 as [N _]. cbn in H. destruct x; [congruence|discriminate].
  - apply W in A, B. inversion A; inversion B; subst. change (x ++ rest_of (c :: s) l1 = y ++ rest_of (c :: s) l2) in H.
    apply span with (c := c) in H; auto using rest_starts. destruct H as [-> H]. f_equal. now apply (rest_inj c s).
Qed.
Lemma in_join : forall d sep l, ~ In d sep -> Forall (fun x => ~ In d x) l -> ~ In d (join_with sep l).
Proof.
  intros d sep [|x l] S F; [tauto|]. inversion F; subst. cbn. intro I. apply in_app_or in I as [I|I]; [tauto|].
  apply in_flat_map in I as (y & Y & I). apply in_app_or in I as [I|I]; [tauto|]. rewrite Forall_forall in H2. now apply (H2 y).
Qed.

(** ** Bytes *)
Lemma byte_hex_two : forall b, b < 256 -> byte_hex b = [digit_char false (b / 16); digit_char false (b mod 16)].
Proof. exact hex2. Qed.
Lemma byte_hex_inj : forall a b x y, a < 256 -> b < 256 -> byte_hex a ++ x = byte_hex b ++ y -> a = b /\ x = y.
Proof.
  intros a b x y A B H. rewrite !byte_hex_two in H by assumption. cbn in H. injection H as H1 H2 ->. split; [|reflexivity].
  apply (f_equal hex_value) in H1, H2. rewrite !hex_value_digit in H1, H2 by (try (apply N.mod_lt; lia); apply N.div_lt_upper_bound; lia). injection H1 as H1. injection H2 as H2.
  rewrite (N.div_mod' a 16), (N.div_mod' b 16). congruence.
Qed.
Lemma byte_hex_dots : forall a x y, a < 256 -> byte_hex a ++ x <> 46 :: y.
Proof.
  intros a x y A H. rewrite byte_hex_two in H by assumption. cbn in H. injection H as H _. apply (f_equal hex_value) in H.
  rewrite hex_value_digit in H by (apply N.div_lt_upper_bound; lia). vm_compute in H. discriminate.
Qed.
(** what follows the first byte *)
Definition hex_rest (sep data : text) (more : bool) : text := flat_map (fun b => sep ++ byte_hex b) data ++ if more then sep ++ lit "..." else [].
Lemma flat_map_map : forall {A B C} (f : A -> B) (g : B -> list C) l, flat_map g (map f l) = flat_map (fun x => g (f x)) l.
Proof. intros. induction l; cbn; congruence. Qed.
Lemma hex_rest_inj : forall sep a b m n x y, bytes_ok a -> bytes_ok b -> (forall d, In d x -> False) -> (forall d, In d y -> False) -> hex_rest sep a m ++ x = hex_rest sep b n ++ y -> a = b /\ m = n.
Proof.
  intros sep a b m n x y A B X Y. assert (x = []) as -> by (destruct x; [reflexivity|exfalso; eapply X; left; reflexivity]). assert (y = []) as -> by (destruct y; [reflexivity|exfalso; eapply Y; left; reflexivity]). rewrite !app_nil_r. clear X Y.
  revert b A B. unfold hex_rest. induction a as [|d a IH]; intros [|e b] A B H.
  - split; [reflexivity|]. cbn [flat_map app] in H. destruct m, n; auto; apply (f_equal (@length N)) in H; cbn in H; rewrite ?app_length in H; cbn in H; lia.
  - exfalso. inversion B; subst. cbn [flat_map] in H. rewrite <- !app_assoc in H. cbn [app] in H. destruct m.
    + apply app_inv_head in H. symmetry in H. now apply byte_hex_dots in H.
    + apply (f_equal (@length N)) in H. rewrite !app_length, (byte_hex_two e) in H by assumption. cbn in H. lia.
  - exfalso. inversion A; subst. cbn [flat_map] in H. rewrite <- !app_assoc in H. cbn [app] in H. destruct n.
    + apply app_inv_head in H. now apply byte_hex_dots in H.
    + apply (f_equal (@length N)) in H. rewrite !app_length, (byte_hex_two d) in H by assumption. cbn in H. lia.
  - inversion A; inversion B; subst. cbn [flat_map] in H. rewrite <- !app_assoc in H. apply app_inv_head in H. apply byte_hex_inj in H; auto. destruct H as [-> H].
    destruct (IH b) as [-> ->]; auto.
Qed.
Lemma firstn_ok : forall n l, bytes_ok l -> bytes_ok (firstn n l).
Proof. intros n l. revert n. unfold bytes_ok. induction l as [|x l IH]; intros [|n] F; cbn; auto. inversion F; subst. constructor; auto. Qed.
Lemma as_hex_cons : forall sep max d data, as_hex sep (S max) (d :: data) = byte_hex d ++ hex_rest sep (firstn max data) (Nat.ltb max (length data)).
Proof.
  intros. unfold as_hex. cbn [length Nat.min Nat.eqb firstn map join_with]. rewrite flat_map_map, <- app_assoc. f_equal. unfold hex_rest.
  replace (firstn (Nat.min max (length data)) data) with (firstn max data).
  - f_equal. replace (Nat.ltb (S (Nat.min max (length data))) (S (length data))) with (Nat.ltb max (length data)); [reflexivity|].
    destruct (Nat.ltb_spec max (length data)), (Nat.ltb_spec (S (Nat.min max (length data))) (S (length data))); lia.
  - destruct (Nat.le_ge_cases max (length data)); [now rewrite Nat.min_l|]. rewrite Nat.min_r by assumption. now rewrite !firstn_all2.
Qed.
Lemma as_hex_nil : forall sep max, as_hex sep max [] = [].
Proof. intros. unfold as_hex. cbn [length]. now rewrite Nat.min_0_r. Qed.
Lemma as_hex_inj : forall sep max a b, bytes_ok a -> bytes_ok b -> (0 < max)%nat -> as_hex sep max a = as_hex sep max b -> firstn max a = firstn max b /\ (max < length a <-> max < length b)%nat.
Proof.
  intros sep [|max] a b A B P H; [lia|]. destruct a as [|d a], b as [|e b].
  - tauto.
  - exfalso. inversion B; subst. rewrite as_hex_nil, as_hex_cons, byte_hex_two in H by assumption. discriminate.
  - exfalso. inversion A; subst. rewrite as_hex_nil, as_hex_cons, byte_hex_two in H by assumption. discriminate.
  - inversion A; inversion B; subst. rewrite !as_hex_cons in H. apply byte_hex_inj in H; auto. destruct H as [-> H].
    destruct (hex_rest_inj sep (firstn max a) (firstn max b) (Nat.ltb max (length a)) (Nat.ltb max (length b)) [] []) as [E F]; auto using firstn_ok; try (intros ? []); [now rewrite !app_nil_r|].
    cbn [firstn length]. split; [congruence|]. destruct (Nat.ltb_spec max (length a)), (Nat.ltb_spec max (length b)); try discriminate; lia.
Qed.
Lemma as_hex_all_inj : forall sep a b, bytes_ok a -> bytes_ok b -> as_hex_all sep a = as_hex_all sep b -> a = b.
Proof.
  assert (Z : forall sep m a, (length a <= m)%nat -> as_hex sep m a = as_hex_all sep a).
  { intros sep m a L. unfold as_hex_all, as_hex. rewrite Nat.min_r, Nat.min_id by assumption. reflexivity. }
  intros sep a b A B H. set (m := S (Nat.max (length a) (length b))). rewrite <- (Z sep m a), <- (Z sep m b) in H by lia.
  apply as_hex_inj in H; auto; [|lia]. destruct H as [H _]. rewrite !firstn_all2 in H by lia. exact H.
Qed.
Lemma in_byte_hex : forall c b, hex_value c = None -> b < 256 -> ~ In c (byte_hex b).
Proof.
  intros c b C B I. rewrite byte_hex_two in I by assumption. destruct I as [<-|[<-|[]]]; rewrite hex_value_digit in C; try discriminate; [apply N.div_lt_upper_bound; lia|apply N.mod_lt; lia].
Qed.
Lemma in_as_hex : forall c sep max a, hex_value c = None -> c <> 46 -> ~ In c sep -> bytes_ok a -> ~ In c (as_hex sep max a).
Proof.
  intros c sep max a C D S A I. unfold as_hex in I. destruct (Nat.eqb _ 0); [exact I|]. apply in_app_or in I as [I|I].
  - revert I. apply in_join; [exact S|]. apply Forall_map. pose proof (firstn_ok (Nat.min max (length a)) a A) as F. eapply Forall_impl; [|exact F]. intros b B. now apply in_byte_hex.
  - destruct (Nat.ltb _ _); [|exact I]. apply in_app_or in I as [I|I]; [tauto|]. vm_compute in I. intuition congruence.
Qed.

(** ** Enumerations *)
Lemma lit_inj : forall a b, lit a = lit b -> a = b.
Proof.
  intros a b H. unfold lit in H. apply (f_equal (map Ascii.ascii_of_N)) in H. rewrite !map_map in H.
  assert (E : forall l, map (fun x => Ascii.ascii_of_N (Ascii.N_of_ascii x)) l = l) by (intro l; rewrite <- (map_id l) at 2; apply map_ext; apply Ascii.ascii_N_embedding).
  rewrite !E in H. rewrite <- (string_of_list_ascii_of_string a), <- (string_of_list_ascii_of_string b). congruence.
Qed.
Fixpoint prefixed_by (p t : text) : bool := match p, t with [], _ => true | a :: p, b :: t => (a =? b) && prefixed_by p t | _, [] => false end.
Lemma prefixed_app : forall p t, prefixed_by p (p ++ t) = true.
Proof. induction p; intros; cbn; [reflexivity|]. now rewrite N.eqb_refl, IHp. Qed.
Definition enum_fine (e : enum) : bool :=
  forallb (fun x => forallb (fun y => N.eqb (fst x) (fst y) || negb (String.eqb (snd x) (snd y))) (fst e)) (fst e)
  && match snd e with Throws => true | Number p s | Raw p s => forallb (fun x => negb (prefixed_by (lit p) (lit (snd x)))) (fst e) && negb (prefixed_by [] [] && String.eqb p "" ) | Always _ => false end.
Lemma lookup_in : forall t v s, lookup t v = Some s -> In (v, s) t.
Proof. induction t as [|[w x] t IH]; intros v s H; [discriminate|]. cbn in H. destruct (N.eqb_spec v w); [injection H as ->; subst; now left|right; auto]. Qed.
Lemma number_sep : forall n m s, decimal n ++ lit s = decimal m ++ lit s -> n = m.
Proof. intros n m s H. apply app_inv_tail in H. now apply dec_inj. Qed.
Lemma enum_inj_fine : forall e v w t, enum_fine e = true -> enum_text e v = Ok t -> enum_text e w = Ok t -> v = w.
Proof.
  intros [tb o] v w t F V W. unfold enum_fine in F. cbn [fst snd] in F. apply andb_prop in F as [F1 F2]. unfold enum_text in V, W. cbn [fst snd] in V, W.
  rewrite forallb_forall in F1.
  assert (P : forall p x (a : string), match o with Number q _ | Raw q _ => q = p | _ => False end -> lookup tb x = Some a -> forall r, lit p ++ r <> lit a).
  { intros p x a O L r E. apply lookup_in in L. destruct o as [|q s| |q s]; try contradiction; subst q; apply andb_prop in F2 as [F2 _]; rewrite forallb_forall in F2; specialize (F2 _ L); cbn [snd] in F2; rewrite <- E, prefixed_app in F2; discriminate. }
  destruct (lookup tb v) as [a|] eqn:LV, (lookup tb w) as [b|] eqn:LW.
  - injection V as <-. injection W as W. apply lit_inj in W. subst b. pose proof (lookup_in _ _ _ LV) as I. pose proof (lookup_in _ _ _ LW) as J.
    specialize (F1 _ I). rewrite forallb_forall in F1. specialize (F1 _ J). cbn [fst snd] in F1. rewrite String.eqb_refl, orb_false_r in F1. now apply N.eqb_eq.
  - injection V as <-. destruct o as [|p s|x|p s]; try discriminate; injection W as W; exfalso; now apply (P p v a eq_refl LV _ W).
  - injection W as <-. destruct o as [|p s|x|p s]; try discriminate; injection V as V; exfalso; now apply (P p w b eq_refl LW _ V).
  - destruct o as [|p s|x|p s]; try discriminate; injection V as <-; injection W as W; apply app_inv_head in W.
    + symmetry. now apply number_sep in W.
    + injection W as W. now symmetry.
Qed.
Lemma enums_fine : Forall (fun e => enum_fine e = true) enums.
Proof. repeat constructor. Qed.
Lemma enum_free : forall c e v t, digit c = false -> match snd e with Raw _ _ => False | _ => True end ->
  forallb (fun x => negb (existsb (N.eqb c) (lit (snd x)))) (fst e) && match snd e with Number p s => negb (existsb (N.eqb c) (lit p)) && negb (existsb (N.eqb c) (lit s)) | Always x => negb (existsb (N.eqb c) (lit x)) | _ => true end = true ->
  enum_text e v = Ok t -> ~ In c t.
Proof.
  assert (X : forall c l, negb (existsb (N.eqb c) l) = true -> ~ In c l).
  { intros c l E I. apply negb_true_iff in E. assert (existsb (N.eqb c) l = true) by (apply existsb_exists; exists c; split; [exact I|apply N.eqb_refl]). congruence. }
  intros c [tb o] v t D R F H I. cbn [fst snd] in *. apply andb_prop in F as [F1 F2]. unfold enum_text in H. cbn [fst snd] in H. destruct (lookup tb v) as [a|] eqn:L.
  - injection H as <-. apply lookup_in in L. rewrite forallb_forall in F1. specialize (F1 _ L). cbn [snd] in F1. now apply X in F1.
  - destruct o as [|p s|x|p s]; try discriminate; try contradiction; injection H as <-.
    + apply andb_prop in F2 as [F2 F3]. apply in_app_or in I as [I|I]; [now apply X in F2|]. apply in_app_or in I as [I|I]; [now apply not_in_decimal in I|now apply X in F3].
    + now apply X in F2.
Qed.

(** ** Flags of CAN frames *)
Notation flag_bits f := (filter (fun b => N.testbit f (N.of_nat b)) (seq 0 32)).
Lemma flag_fine : forallb (fun b => negb (Nat.eqb (length (flag_text b)) 0) && negb (existsb (N.eqb 44) (flag_text b)) && negb (existsb (N.eqb 93) (flag_text b))) (seq 0 32) = true.
Proof. vm_cast_no_check (eq_refl true). Qed.
Fixpoint same (a b : text) : bool := match a, b with [], [] => true | x :: a, y :: b => (x =? y) && same a b | _, _ => false end.
Lemma same_refl : forall a, same a a = true.
Proof. induction a; cbn; [reflexivity|]. now rewrite N.eqb_refl, IHa. Qed.
Lemma flag_distinct : forallb (fun b => forallb (fun c => Nat.eqb b c || negb (same (flag_text b) (flag_text c))) (seq 0 32)) (seq 0 32) = true.
Proof. vm_cast_no_check (eq_refl true). Qed.
Lemma bits_in : forall f b, In b (flag_bits f) -> In b (seq 0 32).
Proof. intros f b I. exact (proj1 (proj1 (filter_In _ _ _) I)). Qed.
Lemma flag_prop : forall b, In b (seq 0 32) -> flag_text b <> [] /\ ~ In 44 (flag_text b) /\ ~ In 93 (flag_text b).
Proof.
  assert (X : forall c l, negb (existsb (N.eqb c) l) = true -> ~ In c l).
  { intros c l E I. apply negb_true_iff in E. assert (existsb (N.eqb c) l = true) by (apply existsb_exists; exists c; split; [exact I|apply N.eqb_refl]). congruence. }
  intros b I. pose proof (proj1 (forallb_forall _ _) flag_fine _ I) as F. cbn beta in F. apply andb_prop in F as [F F3]. apply andb_prop in F as [F1 F2].
  clear I. generalize dependent (flag_text b). intros t F1 F2 F3. split; [|split; [exact (X _ _ F2)|exact (X _ _ F3)]]. intros ->. discriminate F1.
Qed.
Lemma map_flag_inj : forall l1 l2, (forall b, In b l1 -> In b (seq 0 32)) -> (forall b, In b l2 -> In b (seq 0 32)) -> map flag_text l1 = map flag_text l2 -> l1 = l2.
Proof.
  induction l1 as [|b l1 IH]; intros [|c l2] A B H; try discriminate; [reflexivity|]. cbn [map] in H. injection H as H1 H2.
  rewrite (IH l2 (fun x X => A x (or_intror X)) (fun x X => B x (or_intror X)) H2). f_equal.
  pose proof (proj1 (forallb_forall _ _) (proj1 (forallb_forall _ _) flag_distinct b (A b (or_introl eq_refl))) c (B c (or_introl eq_refl))) as F. cbn beta in F.
  rewrite <- H1, same_refl in F. cbn [negb] in F. rewrite orb_false_r in F. now apply Nat.eqb_eq.
Qed.
Lemma flag_bits_inj : forall f g, f < 2 ^ 32 -> g < 2 ^ 32 -> flag_bits f = flag_bits g -> f = g.
Proof.
  intros f g F G H. apply N.bits_inj. intro i. destruct (N.lt_ge_cases i 32) as [L|L].
  - assert (E : forall h, N.testbit h i = true <-> In (N.to_nat i) (flag_bits h)).
    { intro h. rewrite filter_In, N2Nat.id, in_seq. split; [intros; split; [lia|assumption]|tauto]. }
    destruct (N.testbit f i) eqn:X, (N.testbit g i) eqn:Y; auto.
    + apply E in X. rewrite H in X. apply E in X. congruence.
    + apply E in Y. rewrite <- H in Y. apply E in Y. congruence.
  - assert (Z : forall h, h < 2 ^ 32 -> N.testbit h i = false).
    { intros h HH. rewrite <- (N.mod_small h (2 ^ 32)) by assumption. now apply N.mod_pow2_bits_high. }
    now rewrite !Z.
Qed.

(** ** Messages *)
Lemma digit_char_inj : forall a b, a < 16 -> b < 16 -> digit_char false a = digit_char false b -> a = b.
Proof. intros a b A B H. apply (f_equal hex_value) in H. rewrite !hex_value_digit in H by assumption. congruence. Qed.
Lemma hex_any_eq : forall n, hex_any n = map (digit_char false) (digits 16 n).
Proof.
  intro n. unfold hex_any, hex, padded. pose proof (digits_nonempty 16 n ltac:(lia)) as E. destruct (digits 16 n) as [|d l]; [congruence|].
  replace (1 - length (d :: l))%nat with 0%nat by (cbn; lia). reflexivity.
Qed.
Lemma map_digit_inj : forall a b, Forall (fun d => d < 16) a -> Forall (fun d => d < 16) b -> map (digit_char false) a = map (digit_char false) b -> a = b.
Proof.
  induction a as [|x a IH]; intros [|y b] A B H; try discriminate; [reflexivity|]. inversion A; inversion B; subst. cbn [map] in H. injection H; intros.
  f_equal; [now apply digit_char_inj|now apply IH].
Qed.
Lemma hex_any_inj : forall n m, hex_any n = hex_any m -> n = m.
Proof.
  intros n m H. rewrite !hex_any_eq in H. apply map_digit_inj in H; try (apply digits_small; lia).
  rewrite <- (number_digits 16 n), <- (number_digits 16 m) by lia. congruence.
Qed.
Lemma in_hex_any : forall c n, hex_value c = None -> ~ In c (hex_any n).
Proof.
  intros c n C I. rewrite hex_any_eq in I. apply in_map_iff in I as (d & <- & I). pose proof (digits_small 16 n ltac:(lia)) as F. rewrite Forall_forall in F. specialize (F d I).
  now rewrite hex_value_digit in C.
Qed.
Lemma mark_sep : forall x y b c r s, length (lit x) = 1%nat -> length (lit y) = 1%nat -> lit x <> lit y -> mark b x y ++ r = mark c x y ++ s -> b = c /\ r = s.
Proof.
  intros x y b c r s X Y D H. unfold mark in H. destruct (lit x) as [|u [|? ?]] eqn:EX; try discriminate. destruct (lit y) as [|v [|? ?]] eqn:EY; try discriminate.
  destruct b, c; rewrite ?EX, ?EY in H; injection H; intros; subst; auto; congruence.
Qed.
Lemma enum_in : forall e v t, In e enums -> forall w, enum_text e v = Ok t -> enum_text e w = Ok t -> v = w.
Proof. intros e v t I w. pose proof enums_fine as F. rewrite Forall_forall in F. apply enum_inj_fine. now apply F. Qed.

Lemma can_frame_inj : forall a b, bytes_ok (cf_data a) -> bytes_ok (cf_data b) -> cf_flags a < 2 ^ 32 -> cf_flags b < 2 ^ 32 -> can_frame_text a = can_frame_text b ->
  cf_id a = cf_id b /\ cf_flags a = cf_flags b /\ cf_dlc a = cf_dlc b /\ cf_sdt a = cf_sdt b /\ cf_vcid a = cf_vcid b /\ cf_af a = cf_af b /\ length (cf_data a) = length (cf_data b) /\ firstn 8 (cf_data a) = firstn 8 (cf_data b).
Proof.
  intros a b A B FA FB H. unfold can_frame_text in H. apply app_inv_head in H. apply dec_sep in H as [E1 H]; [|reflexivity..]. apply app_inv_head in H.
  apply (span 93) in H as [E2 H]; [| | |reflexivity..]; cycle 1.
  1,2: apply in_join; [intros [X|[]]; discriminate|apply Forall_map; apply Forall_forall; intros x I; apply bits_in in I; apply flag_prop; exact I].
  apply app_inv_head in H. apply dec_sep in H as [E3 H]; [|reflexivity..]. apply app_inv_head in H. apply dec_sep in H as [E4 H]; [|reflexivity..].
  apply app_inv_head in H. apply dec_sep in H as [E5 H]; [|reflexivity..]. apply app_inv_head in H. apply dec_sep in H as [E6 H]; [|reflexivity..]. apply app_inv_head in H.
  apply (span 93) in H as [E7 H]; [| | |reflexivity..]; cycle 1.
  1,2: apply in_as_hex; [reflexivity|discriminate|intros [X|[]]; discriminate|assumption].
  apply app_inv_head in H. apply dec_sep in H as [E8 H]; [|reflexivity..].
  apply as_hex_inj in E7 as [E7 _]; [|assumption..|lia]. repeat split; auto; [|lia].
  apply flag_bits_inj; [assumption..|]. apply (join_inj 44 []) in E2.
  - apply map_flag_inj in E2; [exact E2|intros x I; exact (bits_in _ _ I)..].
  - apply Forall_map, Forall_forall. intros x I. apply bits_in in I. apply flag_prop in I. tauto.
  - apply Forall_map, Forall_forall. intros x I. apply bits_in in I. apply flag_prop in I. tauto.
Qed.
Lemma hex_sep : forall c sep m a b x y, hex_value c = None -> c <> 46 -> ~ In c sep -> bytes_ok a -> bytes_ok b -> (0 < m)%nat -> starts c x -> starts c y -> as_hex sep m a ++ x = as_hex sep m b ++ y ->
  firstn m a = firstn m b /\ x = y.
Proof. intros c sep m a b x y C D S A B M X Y H. apply (span c) in H as [E H]; auto using in_as_hex. apply as_hex_inj in E as [E _]; auto. Qed.
Lemma hex_all_sep : forall c sep a b x y, hex_value c = None -> c <> 46 -> ~ In c sep -> bytes_ok a -> bytes_ok b -> starts c x -> starts c y -> as_hex_all sep a ++ x = as_hex_all sep b ++ y -> a = b /\ x = y.
Proof. intros c sep a b x y C D S A B X Y H. apply (span c) in H as [E H]; auto; [|unfold as_hex_all; auto using in_as_hex..]. apply as_hex_all_inj in E; auto. Qed.
Lemma skipn_ok : forall n l, bytes_ok l -> bytes_ok (skipn n l).
Proof. intros n l. revert n. unfold bytes_ok. induction l as [|x l IH]; intros [|n] F; cbn; auto. inversion F; auto. Qed.
Lemma firstn_split : forall {A} n m (l : list A), firstn (n + m) l = firstn n l ++ firstn m (skipn n l).
Proof. induction n as [|n IH]; intros m [|x l]; cbn; try reflexivity; [now rewrite firstn_nil|]. now rewrite IH. Qed.
Lemma eth_frame_inj : forall a b, bytes_ok a -> bytes_ok b -> eth_frame_text a = eth_frame_text b -> length a = length b /\ firstn 8 a = firstn 8 b /\ ((12 <= length a)%nat -> firstn 12 a = firstn 12 b).
Proof.
  intros a b A B H. unfold eth_frame_text in H. destruct (Nat.eqb_spec (length a) 0) as [EA|EA], (Nat.eqb_spec (length b) 0) as [EB|EB].
  - destruct a, b; try discriminate. auto.
  - exfalso. change (lit "EthernetFrame{size=0}") with (lit "EthernetFrame{size=" ++ decimal 0 ++ lit "}") in H. apply app_inv_head in H. apply dec_sep in H as [H _]; [lia|reflexivity|]. destruct (Nat.leb 12 (length b)); reflexivity.
  - exfalso. change (lit "EthernetFrame{size=0}") with (lit "EthernetFrame{size=" ++ decimal 0 ++ lit "}") in H. apply app_inv_head in H. apply dec_sep in H as [H _]; [lia| |reflexivity]. destruct (Nat.leb 12 (length a)); reflexivity.
  - apply app_inv_head in H. apply dec_sep in H as [E H]; [|destruct (Nat.leb 12 (length a)); reflexivity|destruct (Nat.leb 12 (length b)); reflexivity].
    apply Nat2N.inj in E. rewrite <- E in H. destruct (Nat.leb_spec 12 (length a)) as [L|L].
    + rewrite <- !app_assoc in H. apply app_inv_head in H. apply (hex_all_sep 44) in H as [E1 H]; [|reflexivity|discriminate|intros [X|[]]; discriminate|auto using firstn_ok, skipn_ok..|reflexivity|reflexivity].
      apply app_inv_head in H. apply (hex_all_sep 44) in H as [E2 H]; [|reflexivity|discriminate|intros [X|[]]; discriminate|auto using firstn_ok, skipn_ok..|reflexivity|reflexivity].
      apply app_inv_head in H. apply (hex_sep 93) in H as [E3 _]; [|reflexivity|discriminate|intros [X|[]]; discriminate|assumption|assumption|lia|reflexivity|reflexivity].
      repeat split; auto. intros _. change 12%nat with (6 + 6)%nat. rewrite !firstn_split. congruence.
    + cbn [app] in H. apply app_inv_head in H. apply (hex_sep 93) in H as [E3 _]; [|reflexivity|discriminate|intros [X|[]]; discriminate|assumption|assumption|lia|reflexivity|reflexivity].
      repeat split; auto. lia.
Qed.
Lemma Ok_inj : forall {A} (a b : A), Ok a = Ok b -> a = b.
Proof. intros A a b H. now injection H. Qed.
Lemma lin_frame_sep : forall a b ta tb x y, bytes_ok (lf_data a) -> bytes_ok (lf_data b) -> lin_frame_text a = Ok ta -> lin_frame_text b = Ok tb -> ta ++ x = tb ++ y -> a = b /\ x = y.
Proof.
  intros [i c l d] [i' c' l' d'] ta tb x y A B HA HB H. unfold lin_frame_text in HA, HB. cbn [lf_id lf_checksum lf_length lf_data] in *.
  destruct (enum_text (lin_checksum_ Throws) c) as [u| |] eqn:U; try discriminate. destruct (enum_text (lin_checksum_ Throws) c') as [v| |] eqn:V; try discriminate. apply Ok_inj in HA. apply Ok_inj in HB. subst ta tb.
  rewrite <- !app_assoc in H. apply app_inv_head in H. apply dec_sep in H as [-> H]; [|reflexivity..]. apply app_inv_head in H.
  apply (span 44) in H as [-> H]; [|eapply enum_free; [| | |eassumption]; [reflexivity|exact I|vm_compute; reflexivity]..|reflexivity|reflexivity].
  assert (c = c') as -> by (eapply (enum_in (lin_checksum_ Throws)); [|eassumption..]; cbn; tauto).
  apply app_inv_head in H. apply dec_sep in H as [-> H]; [|reflexivity..]. apply app_inv_head in H.
  apply (hex_all_sep 125) in H as [-> H]; [|reflexivity|discriminate|intros [X|[]]; discriminate|assumption|assumption|reflexivity|reflexivity].
  apply app_inv_head in H. auto.
Qed.
Lemma lin_frame_inj : forall a b t, bytes_ok (lf_data a) -> bytes_ok (lf_data b) -> lin_frame_text a = Ok t -> lin_frame_text b = Ok t -> a = b.
Proof. intros a b t A B HA HB. apply (lin_frame_sep a b t t [] [] A B HA HB eq_refl). Qed.
Lemma lin_request_inj : forall a b t, bytes_ok (lf_data (fst a)) -> bytes_ok (lf_data (fst b)) -> lin_request_text a = Ok t -> lin_request_text b = Ok t -> a = b.
Proof.
  intros [a r] [b s] t A B HA HB. unfold lin_request_text in *. cbn [fst snd] in *.
  destruct (lin_frame_text a) as [u| |] eqn:U; try discriminate. destruct (enum_text lin_response_type r) as [p| |] eqn:P; try discriminate.
  destruct (lin_frame_text b) as [v| |] eqn:V; try discriminate. destruct (enum_text lin_response_type s) as [q| |] eqn:Q; try discriminate.
  apply Ok_inj in HA. apply Ok_inj in HB. pose proof (eq_trans HA (eq_sym HB)) as H. clear HA HB. apply app_inv_head in H. apply (lin_frame_sep a b u v _ _ A B U V) in H as [-> H]. apply app_inv_head in H. apply app_inv_tail in H. subst q.
  f_equal. eapply (enum_in lin_response_type); [|eassumption..]. cbn. tauto.
Qed.
Lemma lin_wakeup_inj : forall a b, lin_wakeup_text a = lin_wakeup_text b -> a = b.
Proof. intros a b H. apply app_inv_head in H. now apply dec_sep in H as [H _]. Qed.
Lemma lin_update_inj : forall a b, lin_update_text a = lin_update_text b -> a = b.
Proof.
  intros a b H. unfold lin_update_text in H. apply app_inv_head in H. apply app_inv_tail in H. apply (join_inj 44 []) in H.
  - revert b H. induction a as [|x a IH]; intros [|y b] H; try discriminate; [reflexivity|]. cbn [map] in H. injection H as H1 H2. apply dec_inj in H1. f_equal; auto.
  - apply Forall_map, Forall_forall. intros x _. split; [apply decimal_nonempty|now apply not_in_decimal].
  - apply Forall_map, Forall_forall. intros x _. split; [apply decimal_nonempty|now apply not_in_decimal].
Qed.
Lemma flexray_header_sep : forall a b x y, flexray_header_text a ++ x = flexray_header_text b ++ y ->
  (forall i, i < 4 -> N.testbit (fh_flags a) i = N.testbit (fh_flags b) i) /\ fh_frame a = fh_frame b /\ fh_length a = fh_length b /\ fh_crc a = fh_crc b /\ fh_cycle a = fh_cycle b /\ x = y.
Proof.
  intros a b x y H. unfold flexray_header_text in H. rewrite <- !app_assoc in H. apply app_inv_head in H.
  do 4 (apply mark_sep in H as [? H]; [|reflexivity|reflexivity|discriminate]). apply app_inv_head in H. apply dec_sep in H as [-> H]; [|reflexivity..]. apply app_inv_head in H. apply dec_sep in H as [-> H]; [|reflexivity..].
  apply app_inv_head in H. apply (span 44) in H as [E H]; [|apply in_hex_any; reflexivity..|reflexivity|reflexivity]. apply hex_any_inj in E. apply app_inv_head in H. apply dec_sep in H as [-> H]; [|reflexivity..]. apply app_inv_head in H.
  repeat split; auto. intros i L. assert (i = 0 \/ i = 1 \/ i = 2 \/ i = 3) as [->|[->|[->| ->]]] by lia; assumption.
Qed.
Lemma flexray_frame_inj : forall c1 c2 a b t1 t2 p q t, bytes_ok p -> bytes_ok q -> 0 < fh_length a -> ~ In 109 t1 -> ~ In 109 t2 -> flexray_frame_text c1 a t1 p = Ok t -> flexray_frame_text c2 b t2 q = Ok t ->
  c1 = c2 /\ (forall i, i < 4 -> N.testbit (fh_flags a) i = N.testbit (fh_flags b) i) /\ fh_frame a = fh_frame b /\ fh_length a = fh_length b /\ fh_crc a = fh_crc b /\ fh_cycle a = fh_cycle b /\ t1 = t2 /\
  (N.testbit (fh_flags a) 2 = true -> firstn (N.to_nat (fh_length a)) p = firstn (N.to_nat (fh_length a)) q).
Proof.
  intros c1 c2 a b t1 t2 p q t A B Z T1 T2 HA HB. unfold flexray_frame_text in *. destruct (enum_text flexray_channel c1) as [u| |] eqn:U; try discriminate. destruct (enum_text flexray_channel c2) as [v| |] eqn:V; try discriminate.
  apply Ok_inj in HA. apply Ok_inj in HB. pose proof (eq_trans HA (eq_sym HB)) as H. clear HA HB. apply app_inv_head in H.
  apply (span 44) in H as [-> H]; [|eapply enum_free; [| | |eassumption]; [reflexivity|exact I|vm_compute; reflexivity]..|reflexivity|reflexivity].
  assert (c1 = c2) as -> by (eapply (enum_in flexray_channel); [|eassumption..]; cbn; tauto).
  apply app_inv_head in H. apply flexray_header_sep in H as (F & E1 & E2 & E3 & E4 & H). apply app_inv_head in H. apply (span 109) in H as [-> H]; [|assumption|assumption|reflexivity|reflexivity].
  apply app_inv_head in H. repeat split; auto. intro X. rewrite <- (F 2 ltac:(lia)), X, <- E2, <- !app_assoc in H. apply app_inv_head in H.
  apply (hex_sep 125) in H as [E _]; [exact E|reflexivity|discriminate|intros [Y|[]]; discriminate|assumption|assumption|lia|reflexivity|reflexivity].
Qed.
Lemma one_sep : forall (a b : N) x y, [a] ++ x = [b] ++ y -> a = b /\ x = y.
Proof. intros a b x y H. injection H; auto. Qed.
Lemma flexray_buffer_inj : forall a b t, flexray_buffer_text a = Ok t -> flexray_buffer_text b = Ok t -> a = b.
Proof.
  intros [ch s p c o r m] [ch' s' p' c' o' r' m'] t HA HB. unfold flexray_buffer_text in *. cbn [fb_channels fb_slot fb_pp fb_crc fb_offset fb_repetition fb_mode] in *.
  destruct (enum_text flexray_channel ch) as [u| |] eqn:U; try discriminate. destruct (enum_text flexray_mode m) as [w| |] eqn:W; try discriminate.
  destruct (enum_text flexray_channel ch') as [v| |] eqn:V; try discriminate. destruct (enum_text flexray_mode m') as [z| |] eqn:Z'; try discriminate.
  apply Ok_inj in HA. apply Ok_inj in HB. pose proof (eq_trans HA (eq_sym HB)) as H. clear HA HB. apply app_inv_head in H.
  apply (span 44) in H as [-> H]; [|eapply enum_free; [| | |eassumption]; [reflexivity|exact I|vm_compute; reflexivity]..|reflexivity|reflexivity].
  assert (ch = ch') as -> by (eapply (enum_in flexray_channel); [|eassumption..]; cbn; tauto).
  apply app_inv_head in H. apply dec_sep in H as [-> H]; [|destruct p; reflexivity|destruct p'; reflexivity].
  assert (p = p') as -> by (destruct p, p'; auto; discriminate H). apply app_inv_head in H. apply app_inv_head in H. apply dec_sep in H as [-> H]; [|reflexivity..]. apply app_inv_head in H.
  apply one_sep in H as [-> H]. apply app_inv_head in H. apply one_sep in H as [-> H]. apply app_inv_head in H. apply app_inv_tail in H. subst z. f_equal. eapply (enum_in flexray_mode); [|eassumption..]. cbn. tauto.
Qed.
Lemma flexray_update_inj : forall i v p j w q, bytes_ok p -> bytes_ok q -> flexray_update_text (i, v, p) = flexray_update_text (j, w, q) -> i = j /\ v = w /\ (v = true -> length p = length q /\ firstn 8 p = firstn 8 q).
Proof.
  intros i v p j w q A B H. unfold flexray_update_text in H. apply app_inv_head in H. apply dec_sep in H as [-> H]; [|reflexivity..]. apply app_inv_head in H.
  destruct v, w; try discriminate H; [|repeat split; auto; discriminate]. apply app_inv_head in H.
  apply (hex_sep 93) in H as [E H]; [|reflexivity|discriminate|intros [X|[]]; discriminate|assumption|assumption|lia|reflexivity|reflexivity]. apply app_inv_head in H. apply dec_inj in H. repeat split; auto. lia.
Qed.
Lemma data_inj : forall a b, bytes_ok a -> bytes_ok b -> data_text a = data_text b -> length a = length b /\ firstn 16 a = firstn 16 b.
Proof.
  intros a b A B H. unfold data_text in H. apply app_inv_head in H.
  apply (hex_sep 44) in H as [E H]; [|reflexivity|discriminate|intros [X|[]]; discriminate|assumption|assumption|lia|reflexivity|reflexivity]. apply app_inv_head in H. apply dec_sep in H as [H _]; [|reflexivity..]. split; [lia|exact E].
Qed.
Lemma workflow_inj : forall a b, Forall (fun x => x <> [] /\ ~ In 44 x) a -> Forall (fun x => x <> [] /\ ~ In 44 x) b -> workflow_text a = workflow_text b -> a = b.
Proof. intros a b A B H. unfold workflow_text in H. apply app_inv_head in H. apply app_inv_tail in H. now apply (join_inj 44 [32]) in H. Qed.
Lemma can_mode_inj : forall a b t, can_mode_text a = Ok t -> can_mode_text b = Ok t -> a = b.
Proof.
  assert (V : forall m t, enum_text can_state m = Ok t -> m = 0 \/ m = 1 \/ m = 2 \/ m = 3).
  { intros m t H. unfold enum_text in H. cbn [fst snd can_state lookup] in H. destruct (N.eqb_spec m 0); [auto|]. destruct (N.eqb_spec m 1); [auto|]. destruct (N.eqb_spec m 2); [auto|]. destruct (N.eqb_spec m 3); [auto|discriminate]. }
  intros [[m c] r] [[n d] s] t A B.
  assert (m = 0 \/ m = 1 \/ m = 2 \/ m = 3) as M by (unfold can_mode_text in A; destruct (enum_text can_state m) eqn:E; try discriminate; now apply V in E).
  assert (n = 0 \/ n = 1 \/ n = 2 \/ n = 3) as N by (unfold can_mode_text in B; destruct (enum_text can_state n) eqn:E; try discriminate; now apply V in E).
  rewrite <- B in A. clear B V t.
  destruct M as [->|[->|[->| ->]]], N as [->|[->|[->| ->]]]; destruct c, r, d, s; try reflexivity; vm_compute in A; discriminate A.
Qed.
Lemma can_baudrate_inj : forall b fd xl b' fd' xl', can_baudrate_text (b, fd, xl) = can_baudrate_text (b', fd', xl') -> b = b' /\ fd = fd'.
Proof. intros. unfold can_baudrate_text in H. apply app_inv_head in H. apply dec_sep in H as [-> H]; [|reflexivity..]. apply app_inv_head in H. apply dec_sep in H as [-> _]; [auto|reflexivity..]. Qed.
