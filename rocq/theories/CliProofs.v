(** Command lines as lists of items, and proofs about the parser *)
From Coq Require Import String Ascii NArith ZArith List Bool Lia.
From Verif Require Import Base TextModel YamlModel YamlCheckModel ParticipantModel CliModel.
Import ListNotations.
Open Scope Z_scope.
Open Scope list_scope.

(** * What a command line means *)
(** An item: a value without a name, --name=value or -short=value, --name value or -short value, --name or -short. *)
Inductive item := IPos (v : text) | IEq (sh : bool) (n v : text) | ISp (sh : bool) (n v : text) | IFlag (sh : bool) (n : text).
Definition dashed (sh : bool) (n : text) : text := (if sh then [45] else [45; 45])%N ++ n.
Definition render (i : item) : list text :=
  match i with IPos v => [v] | IEq sh n v => [dashed sh n ++ [61%N] ++ v] | ISp sh n v => [dashed sh n; v] | IFlag sh n => [dashed sh n] end.
Definition command_line (l : list item) : list text := flat_map render l.

(** a name in an item is that of an argument: the long one, or the short one unless that is empty *)
Definition goes_by (sh : bool) (n name short : text) : Prop := if sh then short = n /\ n <> [] else name = n.
Definition has_opt (ds : list argument) (sh : bool) (n : text) : Prop := exists name s d v, In (AOpt name s d v) ds /\ goes_by sh n name s.
Definition has_flag (ds : list argument) (sh : bool) (n : text) : Prop := exists name s v, In (AFlag name s v) ds /\ goes_by sh n name s.
(** the name and what follows in the same argument do not look like the other form *)
Definition form_ok (sh : bool) (n rest : text) : Prop :=
  n ++ rest <> [] /\ (sh = true -> n ++ rest = [45%N] \/ hd 0%N (n ++ rest) <> 45%N).
Definition wf (ds : list argument) (i : item) : Prop :=
  match i with
  | IPos v => forall c r, v <> 45%N :: c :: r
  | IEq sh n v => ~ In 61%N n /\ form_ok sh n (61%N :: v) /\ has_opt ds sh n
  | ISp sh n v => ~ In 61%N n /\ form_ok sh n [] /\ has_opt ds sh n
  | IFlag sh n => ~ In 61%N n /\ form_ok sh n [] /\ ~ has_opt ds sh n /\ has_flag ds sh n
  end.
(** the arguments have different names *)
Fixpoint distinct_args (ds : list argument) : Prop :=
  match ds with
  | [] => True
  | AOpt n s _ _ :: r => (forall m t d v, In (AOpt m t d v) r -> m <> n /\ (t = s -> s = [])) /\ distinct_args r
  | AFlag n s _ :: r => (forall m t v, In (AFlag m t v) r -> m <> n /\ (t = s -> s = [])) /\ distinct_args r
  | _ :: r => distinct_args r
  end.
(** what the items say about an argument *)
Definition goes_byb (sh : bool) (n name short : text) : bool := if sh then text_eqb short n && negb (is_nil n) else text_eqb name n.
Definition given (name short : text) (l : list item) : list text :=
  flat_map (fun i => match i with IEq sh n v | ISp sh n v => if goes_byb sh n name short then [v] else [] | _ => [] end) l.
Definition flagged (name short : text) (l : list item) : bool :=
  existsb (fun i => match i with IFlag sh n => goes_byb sh n name short | _ => false end) l.
Definition positionals (l : list item) : list text := flat_map (fun i => match i with IPos v => [v] | _ => [] end) l.
(** the values after a command line: the last one given to an option, the flags that were given, the values without a name in the order of
    the arguments *)
Fixpoint expected (ds : list argument) (l : list item) (ps : list text) : list argument :=
  match ds with
  | [] => []
  | APos n v :: r => match ps with [] => APos n v :: expected r l [] | p :: ps => APos n p :: expected r l ps end
  | AList n vs :: r => AList n (vs ++ ps) :: expected r l []
  | AOpt n s d v :: r => AOpt n s d (last (given n s l) v) :: expected r l ps
  | AFlag n s b :: r => AFlag n s (b || flagged n s l) :: expected r l ps
  end.
(** there is an argument for each value without a name *)
Fixpoint room (ds : list argument) (k : nat) : Prop :=
  match k with
  | O => True
  | S j => match ds with [] => False | APos _ _ :: r => room r j | AList _ _ :: _ => True | _ :: r => room r k end
  end.

(** * Lemmas *)
Lemma text_eqb_eq : forall a b, text_eqb a b = true <-> a = b.
Proof. intros a b. unfold text_eqb. destruct (list_eq_dec N.eq_dec a b); split; intros; try congruence; discriminate. Qed.
Lemma text_eqb_refl : forall a, text_eqb a a = true.
Proof. intros a. now apply text_eqb_eq. Qed.
Lemma is_nil_true : forall {A} (l : list A), is_nil l = true <-> l = [].
Proof. intros A [|x l]; cbn; split; congruence. Qed.
Lemma goes_byb_iff : forall sh n name s, goes_byb sh n name s = true <-> goes_by sh n name s.
Proof.
  intros [] n name s; unfold goes_byb, goes_by.
  - rewrite andb_true_iff, negb_true_iff, text_eqb_eq. destruct n; cbn; split; intros [A B]; split; congruence.
  - apply text_eqb_eq.
Qed.
Lemma opt_named_iff : forall sh n a, opt_named sh n a = true <-> exists name s d v, a = AOpt name s d v /\ goes_by sh n name s.
Proof.
  intros sh n a. unfold opt_named. split.
  - destruct a as [| |name s d v|]; try discriminate. intros H. exists name, s, d, v. split; [reflexivity|]. unfold goes_by. destruct sh.
    + apply andb_true_iff in H. destruct H as [A B]. apply text_eqb_eq in B. subst. split; [reflexivity|]. now destruct n.
    + now apply text_eqb_eq.
  - intros (name & s & d & v & -> & G). unfold goes_by in G. destruct sh.
    + destruct G as [-> G]. rewrite text_eqb_refl. now destruct n.
    + subst. apply text_eqb_refl.
Qed.
Lemma flag_named_iff : forall sh n a, flag_named sh n a = true <-> exists name s v, a = AFlag name s v /\ goes_by sh n name s.
Proof.
  intros sh n a. unfold flag_named. split.
  - destruct a as [| | |name s v]; try discriminate. intros H. exists name, s, v. split; [reflexivity|]. unfold goes_by. destruct sh.
    + apply andb_true_iff in H. destruct H as [A B]. apply text_eqb_eq in B. subst. split; [reflexivity|]. now destruct n.
    + now apply text_eqb_eq.
  - intros (name & s & v & -> & G). unfold goes_by in G. destruct sh.
    + destruct G as [-> G]. rewrite text_eqb_refl. now destruct n.
    + subst. apply text_eqb_refl.
Qed.
Lemma has_opt_existsb : forall ds sh n, existsb (opt_named sh n) ds = true <-> has_opt ds sh n.
Proof.
  intros ds sh n. rewrite existsb_exists. split.
  - intros (a & I & H). apply opt_named_iff in H. destruct H as (name & s & d & v & -> & G). exists name, s, d, v. auto.
  - intros (name & s & d & v & I & G). exists (AOpt name s d v). split; [exact I|]. apply opt_named_iff. eauto 6.
Qed.
Lemma has_flag_existsb : forall ds sh n, existsb (flag_named sh n) ds = true <-> has_flag ds sh n.
Proof.
  intros ds sh n. rewrite existsb_exists. split.
  - intros (a & I & H). apply flag_named_iff in H. destruct H as (name & s & v & -> & G). exists name, s, v. auto.
  - intros (name & s & v & I & G). exists (AFlag name s v). split; [exact I|]. apply flag_named_iff. eauto 6.
Qed.

(** ** Names are not changed *)
Definition shape (a : argument) : argument :=
  match a with APos n _ => APos n [] | AList n _ => AList n [] | AOpt n s d _ => AOpt n s d [] | AFlag n s _ => AFlag n s false end.
Lemma shape_expected : forall ds l ps, map shape (expected ds l ps) = map shape ds.
Proof.
  induction ds as [|d ds IH]; intros l ps; [reflexivity|]. destruct d; cbn; [destruct ps|..]; cbn; now rewrite IH.
Qed.
Lemma shape_opt_named : forall sh n a b, shape a = shape b -> opt_named sh n a = opt_named sh n b.
Proof. intros sh n a b H. destruct a, b; cbn in *; try discriminate; try reflexivity. injection H as -> -> _. reflexivity. Qed.
Lemma shape_flag_named : forall sh n a b, shape a = shape b -> flag_named sh n a = flag_named sh n b.
Proof. intros sh n a b H. destruct a, b; cbn in *; try discriminate; try reflexivity. injection H as -> ->. reflexivity. Qed.
Lemma shape_existsb : forall (p : argument -> bool), (forall a b, shape a = shape b -> p a = p b) ->
  forall ds es, map shape ds = map shape es -> existsb p ds = existsb p es.
Proof.
  intros p P. induction ds as [|d ds IH]; intros [|e es] H; try discriminate; [reflexivity|]. cbn in *. injection H as A B.
  rewrite (P _ _ A), (IH es B). reflexivity.
Qed.
Lemma shape_has_opt : forall ds es, map shape ds = map shape es -> forall sh n, has_opt ds sh n <-> has_opt es sh n.
Proof. intros ds es H sh n. rewrite <- !has_opt_existsb. now rewrite (shape_existsb _ (shape_opt_named sh n) _ _ H). Qed.
Lemma shape_has_flag : forall ds es, map shape ds = map shape es -> forall sh n, has_flag ds sh n <-> has_flag es sh n.
Proof. intros ds es H sh n. rewrite <- !has_flag_existsb. now rewrite (shape_existsb _ (shape_flag_named sh n) _ _ H). Qed.
Lemma change_first_shape : forall p f ds ds', (forall a, shape (f a) = shape a) -> change_first p f ds = Some ds' -> map shape ds' = map shape ds.
Proof.
  intros p f ds ds' F. revert ds'. induction ds as [|d ds IH]; intros ds' H; [discriminate|]. cbn in H.
  destruct (p d). { injection H as <-. cbn. now rewrite F. }
  destruct (change_first p f ds) as [x|]; [|discriminate]. injection H as <-. cbn. now rewrite (IH x).
Qed.
Lemma change_first_some : forall p f ds, change_first p f ds = None <-> existsb p ds = false.
Proof.
  intros p f. induction ds as [|d ds IH]; cbn; [tauto|]. destruct (p d); cbn; [split; discriminate|].
  destruct (change_first p f ds) as [x|]; cbn; rewrite <- IH; split; congruence.
Qed.
Lemma set_opt_shape : forall v a, shape (set_opt v a) = shape a.
Proof. intros v []; reflexivity. Qed.
Lemma set_flag_shape : forall a, shape (set_flag a) = shape a.
Proof. intros []; reflexivity. Qed.
Lemma set_positional_shape : forall v ds cur ds' b, set_positional v ds cur = Some (ds', b) -> map shape ds' = map shape ds.
Proof.
  intros v. induction ds as [|d ds IH]; intros [|cur] ds' b H; try discriminate; cbn in H.
  - destruct d; try discriminate; injection H as <- _; reflexivity.
  - destruct (set_positional v ds cur) as [[x y]|] eqn:E; [|discriminate]. injection H as <- <-. cbn. now rewrite (IH _ _ _ E).
Qed.

(** ** The next argument without a name *)
Fixpoint slot (ds : list argument) (k : nat) : nat :=
  match ds with
  | [] => 0
  | APos _ _ :: r => match k with O => 0 | S j => S (slot r j) end
  | AList _ _ :: _ => 0
  | _ :: r => S (slot r k)
  end%nat.
Lemma slot_shape : forall ds es, map shape ds = map shape es -> forall k, slot ds k = slot es k.
Proof.
  induction ds as [|d ds IH]; intros [|e es] H k; try discriminate; [reflexivity|]. cbn in H. injection H as A B.
  destruct d, e; try discriminate; cbn; try reflexivity; try (now rewrite (IH _ B)). destruct k; [reflexivity|]. now rewrite (IH _ B).
Qed.
Lemma next_positional_0 : forall ds, next_positional ds 0 = slot ds 0.
Proof. induction ds as [|[] ds IH]; cbn; congruence. Qed.
Lemma next_positional_shape : forall ds es, map shape ds = map shape es -> forall k, next_positional ds k = next_positional es k.
Proof.
  induction ds as [|d ds IH]; intros [|e es] H k; try discriminate; [reflexivity|]. cbn in H. injection H as A B.
  destruct k; cbn; [|now rewrite (IH _ B)]. rewrite (IH _ B). destruct d, e; try discriminate; reflexivity.
Qed.
(** the argument that gets the value after [ps] *)
Lemma set_positional_expected : forall v ds l ps,
  match set_positional v (expected ds l ps) (slot ds (length ps)) with
  | None => ~ room ds (S (length ps))
  | Some (ds', b) => room ds (S (length ps)) /\ ds' = expected ds l (ps ++ [v]) /\
      (if b then next_positional ds (S (slot ds (length ps))) = slot ds (S (length ps)) else slot ds (S (length ps)) = slot ds (length ps))
  end.
Proof.
  intros v. induction ds as [|d ds IH]; intros l ps; cbn [expected slot].
  - cbn. tauto.
  - destruct d as [n x|n vs|n s dv x|n s x].
    + destruct ps as [|p ps]; cbn [length set_positional].
      * cbn [app room next_positional slot]. split; [destruct ds; exact I|]. split; [reflexivity|].
        rewrite next_positional_0. reflexivity.
      * specialize (IH l ps). destruct (set_positional v (expected ds l ps) (slot ds (length ps))) as [[ds' b]|]; cbn [option_map fst snd].
        -- destruct IH as (A & B & C). split; [exact A|]. split; [cbn; now rewrite B|]. cbn [slot next_positional]. destruct b; now rewrite C.
        -- exact IH.
    + cbn [set_positional]. split; [exact I|]. split; [now rewrite app_assoc|]. reflexivity.
    + specialize (IH l ps). cbn [set_positional]. destruct (set_positional v (expected ds l ps) (slot ds (length ps))) as [[ds' b]|]; cbn [option_map fst snd].
      * destruct IH as (A & B & C). split; [exact A|]. split; [now rewrite B|]. cbn [slot next_positional]. destruct b; now rewrite C.
      * exact IH.
    + specialize (IH l ps). cbn [set_positional]. destruct (set_positional v (expected ds l ps) (slot ds (length ps))) as [[ds' b]|]; cbn [option_map fst snd].
      * destruct IH as (A & B & C). split; [exact A|]. split; [now rewrite B|]. cbn [slot next_positional]. destruct b; now rewrite C.
      * exact IH.
Qed.

(** ** One more item *)
Lemma given_app : forall n s l l', given n s (l ++ l') = given n s l ++ given n s l'.
Proof. intros. apply flat_map_app. Qed.
Lemma flagged_app : forall n s l l', flagged n s (l ++ l') = flagged n s l || flagged n s l'.
Proof. intros. apply existsb_app. Qed.
Lemma positionals_app : forall l l', positionals (l ++ l') = positionals l ++ positionals l'.
Proof. intros. apply flat_map_app. Qed.
Lemma last_app1 : forall {A} (l : list A) x d, last (l ++ [x]) d = x.
Proof. induction l as [|y l IH]; intros; [reflexivity|]. cbn [app]. destruct (l ++ [x]) eqn:E; [destruct l; discriminate|]. rewrite <- E. cbn. rewrite E, <- E. apply IH. Qed.
Lemma expected_ext : forall ds l l' ps,
  (forall n s d v, In (AOpt n s d v) ds -> last (given n s l') v = last (given n s l) v) ->
  (forall n s v, In (AFlag n s v) ds -> flagged n s l' = flagged n s l) ->
  expected ds l' ps = expected ds l ps.
Proof.
  induction ds as [|d ds IH]; intros l l' ps A B; [reflexivity|].
  assert (IH' : forall ps, expected ds l' ps = expected ds l ps).
  { intros q. apply IH; intros; [eapply A|eapply B]; right; eassumption. }
  destruct d; cbn; rewrite ?IH'; try reflexivity.
  - destruct ps; rewrite ?IH'; reflexivity.
  - now rewrite (A name short default value (or_introl eq_refl)).
  - now rewrite (B name short value (or_introl eq_refl)).
Qed.
Definition is_value (sh : bool) (n v : text) (i : item) : Prop := i = IEq sh n v \/ i = ISp sh n v.
Lemma given_value : forall sh n v i name s, is_value sh n v i -> given name s [i] = if goes_byb sh n name s then [v] else [].
Proof. intros sh n v i name s [-> | ->]; cbn; now rewrite app_nil_r. Qed.
Lemma flagged_value : forall sh n v i name s, is_value sh n v i -> flagged name s [i] = false.
Proof. intros sh n v i name s [-> | ->]; reflexivity. Qed.
Lemma two_opts : forall sh n name s m t, goes_by sh n name s -> goes_by sh n m t -> m <> name /\ (t = s -> s = []) -> False.
Proof. intros [] n name s m t A B [C D]; cbn in *; [destruct A as [-> A], B as [-> B]; apply A, D; reflexivity|congruence]. Qed.
Lemma change_opt_expected : forall sh n v i l ds ps, is_value sh n v i -> distinct_args ds -> has_opt ds sh n ->
  change_first (opt_named sh n) (set_opt v) (expected ds l ps) = Some (expected ds (l ++ [i]) ps).
Proof.
  intros sh n v i l ds ps V. revert ps. induction ds as [|d ds IH]; intros ps D H.
  { destruct H as (? & ? & ? & ? & [] & _). }
  assert (T : (forall a b c e, d = AOpt a b c e -> ~ goes_by sh n a b) -> has_opt ds sh n).
  { intros K. destruct H as (name & s & dv & x & [E|I] & G); [|exists name, s, dv, x; auto]. exfalso. exact (K _ _ _ _ E G). }
  destruct d as [m x|m vs|m s dv x|m s x]; cbn [expected change_first distinct_args] in *.
  - specialize (T ltac:(intros; discriminate)). destruct ps; cbn [change_first opt_named]; rewrite (IH _ D T); reflexivity.
  - specialize (T ltac:(intros; discriminate)). cbn [opt_named]. rewrite (IH _ D T). reflexivity.
  - destruct D as [D1 D]. destruct (opt_named sh n (AOpt m s dv (last (given m s l) x))) eqn:E.
    + apply opt_named_iff in E. destruct E as (m' & s' & d' & x' & E & G). injection E as <- <- <- <-.
      cbn [set_opt]. rewrite given_app, (given_value sh n v i m s V).
      rewrite (proj2 (goes_byb_iff sh n m s) G), last_app1. f_equal. f_equal. symmetry. apply expected_ext.
      * intros m2 s2 d2 x2 I. rewrite given_app, (given_value sh n v i m2 s2 V). destruct (goes_byb sh n m2 s2) eqn:Q; [|now rewrite app_nil_r].
        apply goes_byb_iff in Q. exfalso. exact (two_opts sh n m s m2 s2 G Q (D1 _ _ _ _ I)).
      * intros m2 s2 x2 I. now rewrite flagged_app, (flagged_value sh n v i m2 s2 V), orb_false_r.
    + assert (NG : goes_byb sh n m s = false).
      { destruct (goes_byb sh n m s) eqn:Q; [|reflexivity]. apply goes_byb_iff in Q. rewrite <- E. symmetry. apply opt_named_iff. eauto 8. }
      assert (T' : has_opt ds sh n).
      { apply T. intros a b c e Q G. injection Q as -> -> -> ->. apply goes_byb_iff in G. congruence. }
      rewrite (IH _ D T'). cbn [option_map]. rewrite given_app, (given_value sh n v i m s V), NG, app_nil_r. reflexivity.
  - destruct D as [_ D]. specialize (T ltac:(intros; discriminate)). cbn [opt_named]. rewrite (IH _ D T). cbn [option_map].
    rewrite flagged_app, (flagged_value sh n v i m s V), orb_false_r. reflexivity.
Qed.
Lemma change_flag_expected : forall sh n l ds ps, distinct_args ds -> has_flag ds sh n ->
  change_first (flag_named sh n) set_flag (expected ds l ps) = Some (expected ds (l ++ [IFlag sh n]) ps).
Proof.
  intros sh n l ds ps. revert ps. induction ds as [|d ds IH]; intros ps D H.
  { destruct H as (? & ? & ? & [] & _). }
  assert (T : (forall a b e, d = AFlag a b e -> ~ goes_by sh n a b) -> has_flag ds sh n).
  { intros K. destruct H as (name & s & x & [E|I] & G); [|exists name, s, x; auto]. exfalso. exact (K _ _ _ E G). }
  assert (FV : forall name s, flagged name s [IFlag sh n] = goes_byb sh n name s) by (intros; cbn; apply orb_false_r).
  assert (GV : forall name s, given name s (l ++ [IFlag sh n]) = given name s l) by (intros; rewrite given_app; cbn; apply app_nil_r).
  destruct d as [m x|m vs|m s dv x|m s x]; cbn [expected change_first distinct_args] in *.
  - specialize (T ltac:(intros; discriminate)). destruct ps; cbn [change_first flag_named]; rewrite (IH _ D T); reflexivity.
  - specialize (T ltac:(intros; discriminate)). cbn [flag_named]. rewrite (IH _ D T). reflexivity.
  - destruct D as [_ D]. specialize (T ltac:(intros; discriminate)). cbn [flag_named]. rewrite (IH _ D T). cbn [option_map]. now rewrite GV.
  - destruct D as [D1 D]. destruct (flag_named sh n (AFlag m s (x || flagged m s l))) eqn:E.
    + apply flag_named_iff in E. destruct E as (m' & s' & x' & E & G). injection E as <- <- <-.
      cbn [set_flag]. rewrite flagged_app, FV, (proj2 (goes_byb_iff sh n m s) G), !orb_true_r. f_equal. f_equal. symmetry. apply expected_ext.
      * intros m2 s2 d2 x2 I. now rewrite GV.
      * intros m2 s2 x2 I. rewrite flagged_app, FV. destruct (goes_byb sh n m2 s2) eqn:Q; [|apply orb_false_r].
        apply goes_byb_iff in Q. exfalso. exact (two_opts sh n m s m2 s2 G Q (D1 _ _ _ I)).
    + assert (NG : goes_byb sh n m s = false).
      { destruct (goes_byb sh n m s) eqn:Q; [|reflexivity]. apply goes_byb_iff in Q. rewrite <- E. symmetry. apply flag_named_iff. eauto 8. }
      assert (T' : has_flag ds sh n).
      { apply T. intros a b e Q G. injection Q as -> -> ->. apply goes_byb_iff in G. congruence. }
      rewrite (IH _ D T'). cbn [option_map]. rewrite flagged_app, FV, NG, orb_false_r. reflexivity.
Qed.

(** ** The texts of items *)
Lemma prefixed_form : forall sh n rest, form_ok sh n rest -> prefixed (dashed sh n ++ rest) = Some (sh, n ++ rest).
Proof.
  intros sh n rest [A B]. unfold dashed. rewrite <- app_assoc. destruct sh; cbn [app].
  - destruct (n ++ rest) as [|c r] eqn:E; [congruence|]. unfold prefixed. rewrite N.eqb_refl. destruct (B eq_refl) as [C|C].
    + injection C as -> ->. reflexivity.
    + cbn in C. apply N.eqb_neq in C. rewrite C. reflexivity.
  - destruct (n ++ rest) as [|c r] eqn:E; [congruence|]. reflexivity.
Qed.
Lemma prefixed_none : forall v, prefixed v = None <-> forall c r, v <> 45%N :: c :: r.
Proof.
  intros [|x [|y r]]; cbn; split; intros H; try reflexivity; try (intros; discriminate).
  - intros c q E. injection E as -> -> ->. rewrite N.eqb_refl in H. destruct ((c =? 45)%N && negb (is_nil q)); discriminate.
  - destruct (x =? 45)%N eqn:E; [|reflexivity]. apply N.eqb_eq in E. subst. exfalso. apply (H y r). reflexivity.
Qed.
Lemma prefixed_some : forall a sh arg, prefixed a = Some (sh, arg) -> a = dashed sh arg /\ form_ok sh arg [].
Proof.
  intros [|x [|y r]] sh arg H; try discriminate. cbn in H. destruct (x =? 45)%N eqn:E; [|discriminate]. apply N.eqb_eq in E. subst x.
  destruct (y =? 45)%N eqn:Y; cbn [andb] in H.
  - apply N.eqb_eq in Y. subst y. destruct r as [|c r]; cbn in H; injection H as <- <-.
    + split; [reflexivity|]. split; [discriminate|]. intros _. left. reflexivity.
    + split; [reflexivity|]. split; [discriminate|]. discriminate.
  - injection H as <- <-. split; [reflexivity|]. split; [discriminate|]. intros _. right. cbn. now apply N.eqb_neq.
Qed.
Lemma split_eq_some : forall s n v, split_eq s = Some (n, v) <-> s = n ++ 61%N :: v /\ ~ In 61%N n.
Proof.
  induction s as [|c s IH]; intros n v; cbn.
  - split; [discriminate|]. intros [H _]. destruct n; discriminate.
  - destruct (c =? 61)%N eqn:E.
    + apply N.eqb_eq in E. subst. split.
      * intros H. injection H as <- <-. split; [reflexivity|intros []].
      * intros [H N]. destruct n as [|x n]; [injection H as <-; reflexivity|]. injection H as <- _. exfalso. apply N. left. reflexivity.
    + apply N.eqb_neq in E. destruct (split_eq s) as [[n' v']|] eqn:Q; cbn.
      * split.
        -- intros H. injection H as <- <-. destruct (proj1 (IH n' v') eq_refl) as [-> N]. split; [reflexivity|]. intros [X|X]; [congruence|auto].
        -- intros [H N]. destruct n as [|x n]; [injection H as X _; congruence|]. injection H as <- H.
           assert (R : Some (n', v') = Some (n, v)) by (apply IH; split; [exact H|intros X; apply N; right; exact X]). injection R as -> ->. reflexivity.
      * split; [discriminate|]. intros [H N]. destruct n as [|x n]; [injection H as X _; congruence|]. injection H as <- H.
        assert (R : None = Some (n, v)) by (apply IH; split; [exact H|intros X; apply N; right; exact X]). discriminate.
Qed.
Lemma split_eq_none : forall s, split_eq s = None <-> ~ In 61%N s.
Proof.
  induction s as [|c s IH]; cbn; [tauto|]. destruct (c =? 61)%N eqn:E.
  - apply N.eqb_eq in E. subst. split; [discriminate|]. intros H. exfalso. apply H. left. reflexivity.
  - apply N.eqb_neq in E. destruct (split_eq s) as [[n v]|]; cbn.
    + split; [discriminate|]. intros H. exfalso. assert (X : Some (n, v) = None) by (apply IH; intros I; apply H; right; exact I). discriminate.
    + split; [|reflexivity]. intros _ [X|X]; [congruence|]. apply IH; auto.
Qed.

(** ** Command lines *)
Lemma room_shape : forall ds es, map shape ds = map shape es -> forall k, room ds k <-> room es k.
Proof.
  induction ds as [|d ds IH]; intros [|e es] H k; try discriminate; [tauto|]. cbn in H. injection H as A B.
  destruct k; [cbn; tauto|]. destruct d, e; try discriminate; cbn; try tauto; apply (IH es B).
Qed.
Lemma room_le : forall ds k j, (j <= k)%nat -> room ds k -> room ds j.
Proof.
  induction ds as [|d ds IH]; intros k j L R; destruct j; try exact I; destruct k; try lia; [destruct R|].
  destruct d; cbn in *; try exact I; (eapply IH; [|exact R]; lia).
Qed.
(** the state after [done]: what follows is parsed with the values so far *)
Lemma parse_items : forall ds l done rest, distinct_args ds -> Forall (wf ds) l -> room ds (length (positionals (done ++ l))) ->
  parse_from (expected ds done (positionals done)) (slot ds (length (positionals done))) (command_line l ++ rest) =
  parse_from (expected ds (done ++ l) (positionals (done ++ l))) (slot ds (length (positionals (done ++ l)))) rest.
Proof.
  intros ds l. induction l as [|i l IH]; intros done rest D W R.
  { rewrite app_nil_r. reflexivity. }
  inversion W as [|? ? Wi Wl]; subst. clear W.
  replace (done ++ i :: l) with ((done ++ [i]) ++ l) in * by (rewrite <- app_assoc; reflexivity).
  rewrite <- (IH (done ++ [i]) rest D Wl R). clear IH. cbn [command_line flat_map]. rewrite <- app_assoc. fold (command_line l).
  rewrite !positionals_app in *. rewrite app_length in R.
  pose proof (shape_expected ds done (positionals done)) as SH.
  destruct i as [v|sh n v|sh n v|sh n]; cbn [wf render positionals flat_map app] in *.
  - apply prefixed_none in Wi. cbn [parse_from]. rewrite Wi.
    pose proof (set_positional_expected v ds done (positionals done)) as P.
    destruct (set_positional v (expected ds done (positionals done)) (slot ds (length (positionals done)))) as [[ds' b]|].
    + destruct P as (_ & -> & P).
      assert (X : expected ds (done ++ [IPos v]) (positionals done ++ [v]) = expected ds done (positionals done ++ [v])).
      { apply expected_ext; intros; rewrite ?given_app, ?flagged_app; cbn; rewrite ?app_nil_r, ?orb_false_r; reflexivity. }
      rewrite X, app_length. cbn [length]. rewrite Nat.add_1_r. destruct b.
      * rewrite (next_positional_shape _ ds); [now rewrite P|]. apply shape_expected.
      * now rewrite P.
    + exfalso. apply P. eapply room_le; [|exact R]. rewrite app_length. cbn. lia.
  - destruct Wi as (E & F & H). cbn [parse_from]. rewrite app_nil_r in *. rewrite (prefixed_form sh n (61%N :: v) F).
    rewrite (proj2 (split_eq_some _ n v) (conj eq_refl E)).
    rewrite (change_opt_expected sh n v (IEq sh n v) done ds (positionals done) (or_introl eq_refl) D H). reflexivity.
  - destruct Wi as (E & F & H). cbn [parse_from]. rewrite app_nil_r in *.
    pose proof (prefixed_form sh n [] F) as P. rewrite !app_nil_r in P. rewrite P.
    rewrite (proj2 (split_eq_none n) E).
    rewrite (shape_existsb _ (shape_opt_named sh n) _ _ SH), (proj2 (has_opt_existsb ds sh n) H).
    rewrite (change_opt_expected sh n v (ISp sh n v) done ds (positionals done) (or_intror eq_refl) D H). reflexivity.
  - destruct Wi as (E & F & N & H). cbn [parse_from]. rewrite app_nil_r in *.
    pose proof (prefixed_form sh n [] F) as P. rewrite !app_nil_r in P. rewrite P.
    rewrite (proj2 (split_eq_none n) E).
    rewrite (shape_existsb _ (shape_opt_named sh n) _ _ SH).
    destruct (existsb (opt_named sh n) ds) eqn:X; [apply has_opt_existsb in X; contradiction|].
    rewrite (change_flag_expected sh n done ds (positionals done) D H). reflexivity.
Qed.
Lemma expected_nil : forall ds, expected ds [] [] = ds.
Proof. induction ds as [|[] ds IH]; cbn; rewrite ?IH, ?app_nil_r, ?orb_false_r; reflexivity. Qed.
Theorem parse_complete : forall ds l, distinct_args ds -> Forall (wf ds) l -> room ds (length (positionals l)) ->
  parse ds (command_line l) = inl (expected ds l (positionals l)).
Proof.
  intros ds l D W R. unfold parse. rewrite next_positional_0. pose proof (parse_items ds l [] [] D W R) as P. cbn [positionals flat_map length app] in P.
  rewrite expected_nil, app_nil_r in P. rewrite P. reflexivity.
Qed.
(** what is accepted is such a command line, also if names are not distinct *)
Lemma parse_sound_from : forall m args ds cur ds', (length args < m)%nat -> parse_from ds cur args = inl ds' ->
  exists l, args = command_line l /\ Forall (wf ds) l.
Proof.
  induction m as [|m IH]; intros args ds cur ds' L H; [lia|].
  destruct args as [|a args]; [exists []; split; [reflexivity|constructor]|].
  cbn [parse_from] in H. cbn in L.
  assert (W : forall ds1 l, map shape ds1 = map shape ds -> Forall (wf ds1) l -> Forall (wf ds) l).
  { intros ds1 l S F. eapply Forall_impl; [|exact F]. intros [v|sh n v|sh n v|sh n]; cbn; auto;
    rewrite ?(shape_has_opt _ _ S sh n), ?(shape_has_flag _ _ S sh n); auto. }
  destruct (prefixed a) as [[sh arg]|] eqn:P.
  - destruct (prefixed_some _ _ _ P) as [-> F]. destruct (split_eq arg) as [[n v]|] eqn:Q.
    + apply split_eq_some in Q. destruct Q as [-> N].
      destruct (change_first (opt_named sh n) (set_opt v) ds) as [ds1|] eqn:C; [|discriminate].
      destruct (IH args ds1 cur ds' ltac:(lia) H) as (l & -> & Fl).
      exists (IEq sh n v :: l). split; [cbn; unfold dashed; rewrite <- app_assoc; reflexivity|].
      pose proof (change_first_shape _ _ _ _ (set_opt_shape v) C) as S1. constructor; [|exact (W _ _ S1 Fl)].
      split; [exact N|]. split; [unfold form_ok in *; rewrite app_nil_r in F; exact F|].
      apply has_opt_existsb. destruct (existsb (opt_named sh n) ds) eqn:X; [reflexivity|]. apply (change_first_some _ (set_opt v)) in X. congruence.
    + apply split_eq_none in Q. destruct (existsb (opt_named sh arg) ds) eqn:X.
      * destruct args as [|v args]; [discriminate|]. destruct (change_first (opt_named sh arg) (set_opt v) ds) as [ds1|] eqn:C; [|discriminate].
        cbn in L. destruct (IH args ds1 cur ds' ltac:(lia) H) as (l & -> & Fl).
        exists (ISp sh arg v :: l). split; [reflexivity|].
        pose proof (change_first_shape _ _ _ _ (set_opt_shape v) C) as S1. constructor; [|exact (W _ _ S1 Fl)].
        split; [exact Q|]. split; [exact F|]. now apply has_opt_existsb.
      * destruct (change_first (flag_named sh arg) set_flag ds) as [ds1|] eqn:C; [|discriminate].
        destruct (IH args ds1 cur ds' ltac:(lia) H) as (l & -> & Fl).
        exists (IFlag sh arg :: l). split; [reflexivity|].
        pose proof (change_first_shape _ _ _ _ set_flag_shape C) as S1. constructor; [|exact (W _ _ S1 Fl)].
        split; [exact Q|]. split; [exact F|]. split.
        -- intros O. apply has_opt_existsb in O. congruence.
        -- apply has_flag_existsb. destruct (existsb (flag_named sh arg) ds) eqn:Y; [reflexivity|]. apply (change_first_some _ set_flag) in Y. congruence.
  - destruct (set_positional a ds cur) as [[ds1 b]|] eqn:C; [|discriminate].
    assert (G : exists cur', parse_from ds1 cur' args = inl ds') by (destruct b; eauto). destruct G as [cur' G].
    destruct (IH args ds1 cur' ds' ltac:(lia) G) as (l & -> & Fl).
    exists (IPos a :: l). split; [reflexivity|]. constructor; [exact (proj1 (prefixed_none a) P)|]. exact (W _ _ (set_positional_shape _ _ _ _ _ C) Fl).
Qed.
(** without room for a value it is rejected *)
Lemma parse_no_room : forall ds l done, distinct_args ds -> Forall (wf ds) l -> room ds (length (positionals done)) ->
  ~ room ds (length (positionals (done ++ l))) ->
  exists a, parse_from (expected ds done (positionals done)) (slot ds (length (positionals done))) (command_line l) = inr (Bad a) /\ In a (positionals l).
Proof.
  intros ds l. induction l as [|i l IH]; intros done D W R NR.
  { rewrite app_nil_r in NR. contradiction. }
  inversion W as [|? ? Wi Wl]; subst.
  assert (K : room ds (length (positionals (done ++ [i]))) ->
     exists a, parse_from (expected ds done (positionals done)) (slot ds (length (positionals done))) (command_line (i :: l)) = inr (Bad a) /\ In a (positionals (i :: l))).
  { intros R1. change (i :: l) with ([i] ++ l). unfold command_line. rewrite flat_map_app. fold (command_line [i]) (command_line l).
    rewrite (parse_items ds [i] done (command_line l) D (Forall_cons _ Wi (Forall_nil _)) R1).
    destruct (IH (done ++ [i]) D Wl R1) as (a & A & B). { rewrite <- app_assoc. exact NR. }
    exists a. split; [exact A|]. rewrite positionals_app. apply in_app_iff. right. exact B. }
  destruct i as [v|sh n v|sh n v|sh n]; try (apply K; rewrite positionals_app; cbn; rewrite app_nil_r; exact R).
  destruct (set_positional v (expected ds done (positionals done)) (slot ds (length (positionals done)))) as [[ds' b]|] eqn:E.
  - pose proof (set_positional_expected v ds done (positionals done)) as P. rewrite E in P. destruct P as (R1 & _).
    apply K. rewrite positionals_app, app_length. cbn. rewrite Nat.add_1_r. exact R1.
  - exists v. split; [|left; reflexivity]. cbn [command_line flat_map render app parse_from]. cbn [wf] in Wi. apply prefixed_none in Wi. rewrite Wi, E. reflexivity.
Qed.

Lemma room_dec : forall ds k, {room ds k} + {~ room ds k}.
Proof.
  induction ds as [|d ds IH]; intros [|k]; [left; exact I|right; intros []|left; exact I|]. destruct d; cbn; [apply IH|left; exact I|apply IH|apply IH].
Qed.
Theorem parse_sound : forall ds args ds', distinct_args ds -> parse ds args = inl ds' ->
  exists l, args = command_line l /\ Forall (wf ds) l /\ room ds (length (positionals l)).
Proof.
  intros ds args ds' D H. destruct (parse_sound_from (S (length args)) args ds _ ds' (Nat.lt_succ_diag_r _) H) as (l & -> & W).
  exists l. split; [reflexivity|]. split; [exact W|]. destruct (room_dec ds (length (positionals l))) as [R|R]; [exact R|]. exfalso.
  destruct (parse_no_room ds l [] D W) as (a & A & _); [destruct ds; exact I|exact R|]. cbn [positionals flat_map length] in A. rewrite expected_nil in A.
  unfold parse in H. rewrite next_positional_0 in H. congruence.
Qed.
