From Coq Require Import String Ascii NArith List Arith Bool Lia.
From Verif Require Import Base TextModel TextSpec.
Import ListNotations.
Open Scope N_scope.
Open Scope list_scope.

(** ** Digits *)
Lemma digits_fuel_enough : forall b, 2 <= b -> forall f n f', n < 2 ^ N.of_nat f -> n < 2 ^ N.of_nat f' -> digits_fuel (S f) b n = digits_fuel (S f') b n.
Proof.
  intros b Hb. induction f as [|f IH]; intros n f' H H'.
  - cbn in H. assert (n = 0) by lia. subst. cbn. destruct (0 <? b) eqn:E; [reflexivity|lia].
  - destruct f' as [|f'].
    + cbn in H'. assert (n = 0) by lia. subst. cbn. destruct (0 <? b) eqn:E; [reflexivity|lia].
    + cbn [digits_fuel]. destruct (n <? b) eqn:E; [reflexivity|]. f_equal.
      assert (D : n / b <= n / 2) by (apply N.div_le_compat_l; lia).
      assert (P : forall g, n < 2 ^ N.of_nat (S g) -> n / 2 < 2 ^ N.of_nat g). { intros g L. apply N.div_lt_upper_bound; [lia|]. rewrite Nat2N.inj_succ, N.pow_succ_r' in L. lia. }
      apply (IH (n / b) f'); [specialize (P f H)|specialize (P f' H')]; lia.
Qed.
Lemma digits_eq : forall b n, 2 <= b -> digits b n = if n <? b then [n] else digits b (n / b) ++ [n mod b].
Proof.
  intros b n Hb. unfold digits. cbn [digits_fuel]. destruct (n <? b) eqn:E; [reflexivity|]. f_equal.
  pose proof (N.size_gt n) as G. destruct (N.to_nat (N.size n)) as [|f] eqn:F.
  - assert (N.size n = 0) by lia. rewrite H in G. cbn in G. lia.
  - apply (digits_fuel_enough b Hb); [|rewrite N2Nat.id; apply N.size_gt].
    assert (X : N.size n = N.of_nat (S f)) by lia. rewrite X, Nat2N.inj_succ, N.pow_succ_r' in G.
    assert (D : n / b <= n / 2) by (apply N.div_le_compat_l; lia). assert (n / 2 < 2 ^ N.of_nat f) by (apply N.div_lt_upper_bound; lia). lia.
Qed.
(** induction along the division *)
Lemma digits_ind : forall b, 2 <= b -> forall P : N -> Prop, (forall n, n < b -> P n) -> (forall n, b <= n -> P (n / b) -> P n) -> forall n, P n.
Proof.
  intros b Hb P H0 H1 n. induction n using (well_founded_induction N.lt_wf_0). destruct (N.lt_ge_cases n b) as [L|L]; [now apply H0|]. apply H1; [exact L|]. apply H. apply N.div_lt; lia.
Qed.
Lemma digits_small : forall b n, 2 <= b -> Forall (fun d => d < b) (digits b n).
Proof.
  intros b n Hb. revert n. apply (digits_ind b Hb).
  - intros n L. rewrite digits_eq by exact Hb. destruct (n <? b) eqn:E; [|lia]. now constructor.
  - intros n L IH. rewrite digits_eq by exact Hb. destruct (n <? b) eqn:E; [lia|]. apply Forall_app. split; [exact IH|]. constructor; [|constructor]. apply N.mod_lt. lia.
Qed.
Lemma number_app : forall b l d, number b (l ++ [d]) = number b l * b + d.
Proof. intros. unfold number. now rewrite fold_left_app. Qed.
Lemma number_digits : forall b n, 2 <= b -> number b (digits b n) = n.
Proof.
  intros b n Hb. revert n. apply (digits_ind b Hb).
  - intros n L. rewrite digits_eq by exact Hb. destruct (n <? b) eqn:E; [|lia]. reflexivity.
  - intros n L IH. rewrite digits_eq by exact Hb. destruct (n <? b) eqn:E; [lia|]. rewrite number_app, IH. pose proof (N.div_mod' n b). lia.
Qed.
Lemma digits_nonempty : forall b n, 2 <= b -> digits b n <> [].
Proof. intros b n Hb. rewrite digits_eq by exact Hb. destruct (n <? b); [discriminate|]. intros H. apply app_eq_nil in H as [_ H]. discriminate. Qed.

(** exactly [w] digits *)
Fixpoint fixed (w : nat) (n : N) : list N := match w with O => [] | S w => fixed w (n / 16) ++ [n mod 16] end.
Lemma fixed_0 : forall w, fixed w 0 = repeat 0 w.
Proof. induction w as [|w IH]; [reflexivity|]. cbn [fixed]. change (0 / 16) with 0. rewrite IH. change (0 mod 16) with 0. replace (repeat 0 (S w)) with (repeat 0 (w + 1)) by (f_equal; lia). now rewrite repeat_app. Qed.
Lemma padded_fixed : forall w n, n < 16 ^ N.of_nat (S w) -> padded (S w) (digits 16 n) = fixed (S w) n.
Proof.
  induction w as [|w IH]; intros n L.
  - cbn in L. rewrite digits_eq by lia. destruct (n <? 16) eqn:E; [|lia]. cbn [fixed padded length Nat.sub repeat app]. unfold padded. cbn. f_equal. symmetry. apply N.mod_small. lia.
  - rewrite digits_eq by lia. destruct (n <? 16) eqn:E.
    + change (fixed (S (S w)) n) with (fixed (S w) (n / 16) ++ [n mod 16]). rewrite N.div_small, N.mod_small, fixed_0 by lia. unfold padded. cbn [length]. now replace (S (S w) - 1)%nat with (S w) by lia.
    + change (fixed (S (S w)) n) with (fixed (S w) (n / 16) ++ [n mod 16]). rewrite <- IH.
      * unfold padded. rewrite app_length. cbn [length]. replace (S (S w) - (length (digits 16 (n / 16)) + 1))%nat with (S w - length (digits 16 (n / 16)))%nat by lia. now rewrite app_assoc.
      * apply N.div_lt_upper_bound; [lia|]. rewrite (Nat2N.inj_succ (S w)), N.pow_succ_r' in L. lia.
Qed.
Lemma fixed_length : forall w n, length (fixed w n) = w.
Proof. induction w as [|w IH]; intros; [reflexivity|]. cbn [fixed]. rewrite app_length, IH. cbn. lia. Qed.
Lemma fixed_small : forall w n, Forall (fun d => d < 16) (fixed w n).
Proof. induction w as [|w IH]; intros; [constructor|]. cbn [fixed]. apply Forall_app. split; [apply IH|]. constructor; [|constructor]. apply N.mod_lt. lia. Qed.
Lemma hex_fixed : forall up w n, n < 16 ^ N.of_nat (S w) -> hex up (S w) n = map (digit_char up) (fixed (S w) n).
Proof. intros. unfold hex. now rewrite padded_fixed. Qed.
Lemma hex_length : forall up w n, n < 16 ^ N.of_nat (S w) -> length (hex up (S w) n) = S w.
Proof. intros. rewrite hex_fixed by assumption. now rewrite map_length, fixed_length. Qed.

Lemma hex_value_digit : forall up d, d < 16 -> hex_value (digit_char up d) = Some d.
Proof.
  intros up d L. unfold digit_char, hex_value. destruct (d <? 10) eqn:E.
  - replace ((48 <=? 48 + d) && (48 + d <=? 57)) with true by lia. f_equal. lia.
  - destruct up.
    + replace ((48 <=? 55 + d) && (55 + d <=? 57)) with false by lia. replace ((97 <=? 55 + d) && (55 + d <=? 102)) with false by lia. replace ((65 <=? 55 + d) && (55 + d <=? 70)) with true by lia. f_equal. lia.
    + replace ((48 <=? 87 + d) && (87 + d <=? 57)) with false by lia. replace ((97 <=? 87 + d) && (87 + d <=? 102)) with true by lia. f_equal. lia.
Qed.
Lemma hex_number_app : forall s acc t, hex_number acc (s ++ t) = match hex_number acc s with Some v => hex_number v t | None => None end.
Proof. induction s as [|c s IH]; intros; [reflexivity|]. cbn [app hex_number]. destruct (hex_value c); [apply IH|reflexivity]. Qed.
Lemma hex_number_fixed : forall up w n acc, n < 16 ^ N.of_nat w -> hex_number acc (map (digit_char up) (fixed w n)) = Some (acc * 16 ^ N.of_nat w + n).
Proof.
  intros up. induction w as [|w IH]; intros n acc L.
  - cbn in *. f_equal. lia.
  - cbn [fixed]. rewrite map_app, hex_number_app. rewrite Nat2N.inj_succ, N.pow_succ_r' in *. rewrite IH by (apply N.div_lt_upper_bound; lia). cbn [map hex_number]. rewrite hex_value_digit by (apply N.mod_lt; lia). f_equal. pose proof (N.div_mod' n 16). lia.
Qed.
Lemma hex_number_hex : forall up w n acc, n < 16 ^ N.of_nat (S w) -> hex_number acc (hex up (S w) n) = Some (acc * 16 ^ N.of_nat (S w) + n).
Proof. intros. rewrite hex_fixed by assumption. now apply hex_number_fixed. Qed.

(** ** Escaping *)
Lemma escape_char_eq : forall c, escape_char c =
  if c =? 8 then [92; 98] else if c =? 9 then [92; 116] else if c =? 10 then [92; 110] else if c =? 12 then [92; 102] else if c =? 13 then [92; 114]
  else if c =? 34 then [92; 34] else if c =? 92 then [92; 92] else [c].
Proof. intros [|p]; [reflexivity|]. do 7 (try destruct p as [p|p|]; try reflexivity). Qed.
Ltac eqs := repeat match goal with |- context [?a =? ?b] => let E := fresh "E" in destruct (a =? b) eqn:E; [apply N.eqb_eq in E; try subst|apply N.eqb_neq in E] end.
Lemma read_escape : forall strict s rest, (strict = true -> Forall (fun c => ~ other_control c) s) -> read_string strict (escape s ++ 34 :: rest) = Some (s, rest).
Proof.
  intros strict s rest. induction s as [|c s IH]; intros H; [reflexivity|].
  assert (IH' := IH (fun e => Forall_inv_tail (H e))). clear IH.
  change (escape (c :: s)) with (escape_char c ++ escape s). rewrite escape_char_eq.
  destruct (c =? 8) eqn:E1; [apply N.eqb_eq in E1; subst; cbn; now rewrite IH'|].
  destruct (c =? 9) eqn:E2; [apply N.eqb_eq in E2; subst; cbn; now rewrite IH'|].
  destruct (c =? 10) eqn:E3; [apply N.eqb_eq in E3; subst; cbn; now rewrite IH'|].
  destruct (c =? 12) eqn:E4; [apply N.eqb_eq in E4; subst; cbn; now rewrite IH'|].
  destruct (c =? 13) eqn:E5; [apply N.eqb_eq in E5; subst; cbn; now rewrite IH'|].
  destruct (c =? 34) eqn:E6; [apply N.eqb_eq in E6; subst; cbn; now rewrite IH'|].
  destruct (c =? 92) eqn:E7; [apply N.eqb_eq in E7; subst; cbn; now rewrite IH'|].
  cbn [app read_string]. rewrite E6, E7, IH'. destruct (strict && (c <? 32)) eqn:E8; [|reflexivity].
  apply andb_true_iff in E8 as [E8 E9]. exfalso. apply (Forall_inv (H E8)). split; [lia|]. cbn. lia.
Qed.
Lemma read_control : forall s rest, ~ Forall (fun c => ~ other_control c) s -> read_string true (escape s ++ 34 :: rest) = None.
Proof.
  intros s rest. induction s as [|c s IH]; intros H; [exfalso; apply H; constructor|].
  change (escape (c :: s)) with (escape_char c ++ escape s). rewrite escape_char_eq.
  assert (IH' : ~ other_control c -> read_string true (escape s ++ 34 :: rest) = None) by (intros N; apply IH; intros F; apply H; now constructor).
  destruct (c =? 8) eqn:E1; [apply N.eqb_eq in E1; subst; cbn; rewrite IH'; [reflexivity|unfold other_control; cbn; intuition]|].
  destruct (c =? 9) eqn:E2; [apply N.eqb_eq in E2; subst; cbn; rewrite IH'; [reflexivity|unfold other_control; cbn; intuition]|].
  destruct (c =? 10) eqn:E3; [apply N.eqb_eq in E3; subst; cbn; rewrite IH'; [reflexivity|unfold other_control; cbn; intuition]|].
  destruct (c =? 12) eqn:E4; [apply N.eqb_eq in E4; subst; cbn; rewrite IH'; [reflexivity|unfold other_control; cbn; intuition]|].
  destruct (c =? 13) eqn:E5; [apply N.eqb_eq in E5; subst; cbn; rewrite IH'; [reflexivity|unfold other_control; cbn; intuition]|].
  destruct (c =? 34) eqn:E6; [apply N.eqb_eq in E6; subst; cbn; rewrite IH'; [reflexivity|unfold other_control; cbn; lia]|].
  destruct (c =? 92) eqn:E7; [apply N.eqb_eq in E7; subst; cbn; rewrite IH'; [reflexivity|unfold other_control; cbn; lia]|].
  cbn [app read_string]. rewrite E6, E7. destruct (c <? 32) eqn:E8; [reflexivity|]. cbn [andb]. rewrite IH'; [reflexivity|]. intros [L _]. lia.
Qed.

(** ** Safe characters *)
Lemma in_lit : forall c l, existsb (N.eqb c) l = true -> In c l.
Proof. intros c l H. apply existsb_exists in H as (x & I & E). apply N.eqb_eq in E. now subst. Qed.
Lemma small_cases : forall (P : N -> bool) k, forallb (fun i => P (N.of_nat i)) (seq 0 k) = true -> forall c, c < N.of_nat k -> P c = true.
Proof. intros P k H c L. rewrite forallb_forall in H. specialize (H (N.to_nat c)). rewrite N2Nat.id in H. apply H. apply in_seq. lia. Qed.
Lemma safe_iff : forall c, letter c || digit c || symbol c = true <-> In c safe_chars.
Proof.
  intros c. split.
  - intros H. assert (L : c < 128) by (unfold letter, digit, symbol in H; lia). revert H.
    pose proof (small_cases (fun c => implb (letter c || digit c || symbol c) (existsb (N.eqb c) safe_chars)) 128 (ltac:(vm_compute; reflexivity)) c L) as X. cbn beta in X.
    intros H. rewrite H in X. cbn [implb] in X. now apply in_lit.
  - intros I. assert (X : forallb (fun c => letter c || digit c || symbol c) safe_chars = true) by (vm_compute; reflexivity). rewrite forallb_forall in X. now apply X.
Qed.
Lemma alnum_iff : forall c, letter c || digit c = true <-> In c alnum_chars.
Proof.
  intros c. split.
  - intros H. assert (L : c < 128) by (unfold letter, digit in H; lia). revert H.
    pose proof (small_cases (fun c => implb (letter c || digit c) (existsb (N.eqb c) alnum_chars)) 128 (ltac:(vm_compute; reflexivity)) c L) as X. cbn beta in X.
    intros H. rewrite H in X. cbn [implb] in X. now apply in_lit.
  - intros I. assert (X : forallb (fun c => letter c || digit c) alnum_chars = true) by (vm_compute; reflexivity). rewrite forallb_forall in X. now apply X.
Qed.
Lemma digit_char_hex : forall d, d < 16 -> In (digit_char false d) hex_chars.
Proof. intros d L. apply in_lit. exact (small_cases (fun d => existsb (N.eqb (digit_char false d)) hex_chars) 16 (ltac:(vm_compute; reflexivity)) d L). Qed.
Lemma digit_char_safe : forall up d, d < 16 -> letter (digit_char up d) || digit (digit_char up d) = true.
Proof. intros up d L. unfold digit_char, letter, digit. destruct (d <? 10) eqn:E; destruct up; lia. Qed.
Lemma hex_all : forall up w n (P : N -> Prop), (forall d, d < 16 -> P (digit_char up d)) -> n < 16 ^ N.of_nat (S w) -> Forall P (hex up (S w) n).
Proof. intros up w n P H L. rewrite hex_fixed by exact L. apply Forall_map. pose proof (fixed_small (S w) n) as F. rewrite Forall_forall in *. intros d I. apply H. now apply F. Qed.

Lemma printable_safe : forall s, bytes_ok s -> Forall (fun c => In c safe_chars) (printable s).
Proof.
  intros s B. unfold printable. induction B as [|c s L B IH]; [constructor|]. cbn [flat_map]. apply Forall_app. split; [|exact IH].
  destruct (letter c || digit c || symbol c) eqn:E; [constructor; [now apply safe_iff|constructor]|].
  apply hex_all; [|cbn; lia]. intros d H. apply safe_iff. now rewrite digit_char_safe.
Qed.
Lemma printable_same : forall s, Forall (fun c => In c safe_chars) s -> printable s = s.
Proof. induction s as [|c s IH]; intros F; [reflexivity|]. unfold printable in *. cbn [flat_map]. rewrite (proj2 (safe_iff c) (Forall_inv F)), IH by exact (Forall_inv_tail F). reflexivity. Qed.
Lemma printable_fixed_point : forall s, bytes_ok s -> printable s = s -> Forall (fun c => In c safe_chars) s.
Proof. intros s B E. rewrite <- E. now apply printable_safe. Qed.

(** ** Splitting *)
Lemma find_char : forall c s, find_text [c] s = match find (N.eqb c) s with None => None | Some _ => find_text [c] s end.
Proof. induction s as [|x s IH]; [reflexivity|]. cbn [find_text starts find]. rewrite andb_true_r. destruct (c =? x) eqn:E; [reflexivity|]. rewrite IH. now destruct (find (N.eqb c) s). Qed.
Lemma find_char_none : forall c s, find_text [c] s = None <-> ~ In c s.
Proof.
  induction s as [|x s IH]; cbn [find_text starts]; [split; [intros _ []|reflexivity]|]. rewrite andb_true_r. destruct (c =? x) eqn:E.
  - apply N.eqb_eq in E. subst. split; [discriminate|]. intros H. exfalso. apply H. now left.
  - apply N.eqb_neq in E. destruct (find_text [c] s); cbn; split; intros H; try discriminate; try reflexivity.
    + exfalso. apply H. right. destruct (in_dec N.eq_dec c s) as [I|I]; [exact I|]. apply IH in I. discriminate.
    + intros [I|I]; [congruence|]. now apply (proj1 IH).
Qed.
Lemma find_char_some : forall c s i, find_text [c] s = Some i -> s = firstn i s ++ c :: skipn (S i) s /\ ~ In c (firstn i s) /\ (i < length s)%nat.
Proof.
  induction s as [|x s IH]; cbn [find_text starts]; intros i H; [discriminate|]. rewrite andb_true_r in H. destruct (c =? x) eqn:E.
  - apply N.eqb_eq in E. injection H as <-. subst. cbn. repeat split; [tauto|lia].
  - apply N.eqb_neq in E. destruct (find_text [c] s) as [j|]; [|discriminate]. injection H as <-. destruct (IH j eq_refl) as (A & B & C). cbn [firstn skipn app length]. repeat split; [now f_equal|intros [I|I]; [congruence|contradiction]|lia].
Qed.
Lemma find_char_app : forall c a b, ~ In c a -> find_text [c] (a ++ c :: b) = Some (length a).
Proof.
  induction a as [|x a IH]; intros b N; cbn [app find_text starts length].
  - now rewrite N.eqb_refl.
  - rewrite andb_true_r. destruct (c =? x) eqn:E; [apply N.eqb_eq in E; exfalso; apply N; now left|]. rewrite IH; [reflexivity|]. intros I. apply N. now right.
Qed.
Lemma join_cons : forall sep x t l, join sep (x :: t :: l) = x ++ sep ++ join sep (t :: l).
Proof. reflexivity. Qed.
Lemma split_spec : forall c f s, (length s <= f)%nat -> exists l, split_fuel f [c] s = Ok l /\ Forall (fun t => ~ In c t) l /\ (join [c] l = s \/ join [c] l ++ [c] = s) /\ (s <> [] -> l <> []) /\ (forall t, l = [t] -> s = t ++ [c] \/ (s = t /\ t <> [])).
Proof.
  intros c. induction f as [|f IH]; intros s L.
  - destruct s; [|cbn in L; lia]. exists []. cbn. repeat split; auto. discriminate.
  - assert (X : split_fuel (S f) [c] s = match find_text [c] s with None => Ok (match s with [] => [] | _ => [s] end) | Some i => bind (split_fuel f [c] (skipn (i + 1) s)) (fun r => Ok (firstn i s :: r)) end) by (destruct s; reflexivity).
    rewrite X. destruct (find_text [c] s) as [i|] eqn:F.
    + apply find_char_some in F as (A & B & C). rewrite Nat.add_1_r. destruct (IH (skipn (S i) s)) as (l & E & G & H & NE & ON); [rewrite skipn_length; lia|]. rewrite E. cbn [bind]. exists (firstn i s :: l). split; [reflexivity|]. split; [now constructor|].
      set (p := firstn i s) in *. set (q := skipn (S i) s) in *. split; [|split; [discriminate|]].
      * destruct l as [|t l].
        -- right. cbn [join]. destruct H as [H|H]; [|exfalso; apply NE; [rewrite <- H; discriminate|reflexivity]]. assert (Z : q = []) by (symmetry; exact H). rewrite Z in A. cbn [join]. now rewrite A.
        -- rewrite join_cons. destruct H as [H|H]; [left|right]; rewrite <- ?app_assoc, H; now rewrite A.
      * intros t Et. injection Et as <- ->. left. destruct (list_eq_dec N.eq_dec q []) as [Z|Z]; [now rewrite Z in A|]. exfalso. now apply (NE Z).
    + apply find_char_none in F. destruct s as [|x s].
      * exists []. repeat split; auto. discriminate.
      * exists [x :: s]. repeat split; auto; [discriminate|]. intros t Et. injection Et as <-. right. split; [reflexivity|discriminate].
Qed.

(** ** UUIDs *)
Lemma pow16_32 : 16 ^ N.of_nat 8 = 2 ^ 32. Proof. reflexivity. Qed.
Lemma pow16_16 : 16 ^ N.of_nat 4 = 2 ^ 16. Proof. reflexivity. Qed.
Lemma halves : forall x k, x = N.shiftr x k * 2 ^ k + N.land x (N.ones k).
Proof. intros x k. rewrite N.shiftr_div_pow2, N.land_ones. pose proof (N.div_mod' x (2 ^ k)). lia. Qed.
Lemma land_lt : forall x k, N.land x (N.ones k) < 2 ^ k.
Proof. intros. rewrite N.land_ones. apply N.mod_lt. apply N.pow_nonzero. lia. Qed.
Lemma shiftr_lt : forall x k m, x < 2 ^ (k + m) -> N.shiftr x k < 2 ^ m.
Proof. intros x k m L. rewrite N.shiftr_div_pow2. apply N.div_lt_upper_bound; [apply N.pow_nonzero; lia|]. now rewrite <- N.pow_add_r. Qed.

Section Pieces.
Variables (a b c d e f : text).
Hypotheses (La : length a = 8%nat) (Lb : length b = 4%nat) (Lc : length c = 4%nat) (Ld : length d = 4%nat) (Le : length e = 4%nat) (Lf : length f = 8%nat).
Let s := a ++ [45] ++ b ++ [45] ++ c ++ [45] ++ d ++ [45] ++ e ++ f.
Ltac ex x L := destruct x as [|? x]; [discriminate|]; cbn in L; injection L as L.
Lemma pieces : length s = 36%nat /\ nth 8 s 0 = 45 /\ nth 13 s 0 = 45 /\ nth 18 s 0 = 45 /\ nth 23 s 0 = 45 /\
  firstn 8 s = a /\ firstn 4 (skipn 9 s) = b /\ firstn 4 (skipn 14 s) = c /\ firstn 4 (skipn 19 s) = d /\ firstn 12 (skipn 24 s) = e ++ f.
Proof.
  subst s. destruct a as [|a1 [|a2 [|a3 [|a4 [|a5 [|a6 [|a7 [|a8 [|]]]]]]]]]; try discriminate.
  destruct b as [|b1 [|b2 [|b3 [|b4 [|]]]]]; try discriminate. destruct c as [|c1 [|c2 [|c3 [|c4 [|]]]]]; try discriminate. destruct d as [|d1 [|d2 [|d3 [|d4 [|]]]]]; try discriminate.
  destruct e as [|e1 [|e2 [|e3 [|e4 [|]]]]]; try discriminate. destruct f as [|f1 [|f2 [|f3 [|f4 [|f5 [|f6 [|f7 [|f8 [|]]]]]]]]]; try discriminate. cbn. repeat split.
Qed.
End Pieces.

Definition half_hi (x : N) := N.shiftr x 32.
Definition half_lo (x : N) := N.land x 0xFFFFFFFF.
Lemma parts_lt : forall x, x < 2 ^ 64 -> half_hi x < 2 ^ 32 /\ half_lo x < 2 ^ 32 /\ N.shiftr (half_lo x) 16 < 2 ^ 16 /\ N.land (half_lo x) 0xFFFF < 2 ^ 16 /\ N.shiftr (half_hi x) 16 < 2 ^ 16 /\ N.land (half_hi x) 0xFFFF < 2 ^ 16.
Proof.
  intros x L. assert (A : half_hi x < 2 ^ 32) by (apply (shiftr_lt x 32 32); exact L). assert (B : half_lo x < 2 ^ 32) by (apply (land_lt x 32)).
  repeat split; auto; try (apply (land_lt _ 16)); apply (shiftr_lt _ 16 16); assumption.
Qed.
Lemma read_uuid_text : forall u, uuid_ok u -> read_uuid (uuid_text u) = Some u /\ length (uuid_text u) = 36%nat.
Proof.
  intros [ab cd] [L1 L2]. cbn [u_ab u_cd] in *. destruct (parts_lt ab L1) as (A1 & A2 & A3 & A4 & _). destruct (parts_lt cd L2) as (C1 & C2 & _ & _ & C3 & C4).
  unfold uuid_text. cbn [u_ab u_cd]. fold (half_hi ab) (half_lo ab) (half_hi cd) (half_lo cd).
  destruct (pieces (hex false 8 (half_hi ab)) (hex false 4 (N.shiftr (half_lo ab) 16)) (hex false 4 (N.land (half_lo ab) 65535)) (hex false 4 (N.shiftr (half_hi cd) 16)) (hex false 4 (N.land (half_hi cd) 65535)) (hex false 8 (half_lo cd)))
    as (P1 & P2 & P3 & P4 & P5 & P6 & P7 & P8 & P9 & P10); try (apply hex_length; rewrite ?pow16_32, ?pow16_16; assumption).
  split; [|exact P1]. unfold read_uuid. rewrite P1, P2, P3, P4, P5, P6, P7, P8, P9, P10. cbn [Nat.eqb N.eqb Pos.eqb andb].
  repeat (rewrite hex_number_app || rewrite hex_number_hex by (rewrite ?pow16_32, ?pow16_16; assumption)). rewrite !pow16_32, !pow16_16. f_equal. f_equal.
  - pose proof (halves ab 32) as X. pose proof (halves (half_lo ab) 16) as Y. change (N.ones 32) with 0xFFFFFFFF in X. change (N.ones 16) with 65535 in Y. fold (half_hi ab) (half_lo ab) in X.
    change (2 ^ 32) with 4294967296 in *. change (2 ^ 16) with 65536 in *. clear - X Y. lia.
  - pose proof (halves cd 32) as X. pose proof (halves (half_hi cd) 16) as Y. change (N.ones 32) with 0xFFFFFFFF in X. change (N.ones 16) with 65535 in Y. fold (half_hi cd) (half_lo cd) in X.
    change (2 ^ 32) with 4294967296 in *. change (2 ^ 16) with 65536 in *. clear - X Y. lia.
Qed.
