From Coq Require Import String Ascii NArith List Arith Bool Lia Permutation.
From Verif Require Import Base TextModel AcceptorModel ConfigModel ConfigProofs.
Import ListNotations.
Open Scope N_scope.
Open Scope list_scope.

(** Folding with failure *)
Fixpoint foldr {A B} (f : A -> B -> res B) (l : list A) (b : B) : res B := match l with [] => Ok b | a :: l => bind (f a b) (foldr f l) end.
Lemma foldr_app : forall A B (f : A -> B -> res B) l m b, foldr f (l ++ m) b = bind (foldr f l b) (foldr f m).
Proof. induction l as [|a l IH]; intros m b; [reflexivity|]. cbn [app foldr]. destruct (f a b); cbn [bind]; [apply IH|reflexivity|reflexivity]. Qed.

Lemma bind_ok : forall A B (x : res A) (f : A -> res B) y, bind x f = Ok y <-> exists a, x = Ok a /\ f a = Ok y.
Proof. intros A B [a| |] f y; cbn; split; try discriminate; try (intros (z & E & _); discriminate); [eauto|]. intros (z & E & H). injection E as <-. exact H. Qed.

(** the loop of MergeConfigs by component *)
Definition item_f (c : cfg) (r : list element) := merge_items (c_els c) r.
Lemma merge_configs_ok : forall cs r r', merge_configs cs r = Ok r' <->
  foldr item_f cs (c_els r) = Ok (c_els r') /\ foldr (fun c => merge_health (c_soft c)) cs (c_soft r) = Ok (c_soft r') /\ foldr (fun c => merge_health (c_hard c)) cs (c_hard r) = Ok (c_hard r') /\
  foldr (fun c => merge_name (c_name c)) cs (c_name r) = Ok (c_name r') /\ c_ext r' = c_ext r ++ concat (map c_ext cs) /\
  c_middle r' = c_middle r /\ c_acceptors r' = c_acceptors r /\ c_log r' = c_log r /\ c_lsinks r' = c_lsinks r /\ c_time r' = c_time r /\ c_dynamic r' = c_dynamic r /\ c_msinks r' = c_msinks r /\ c_collect r' = c_collect r /\ c_interval r' = c_interval r /\ c_includes r' = c_includes r.
Proof.
  induction cs as [|c cs IH]; intros r r'; cbn [merge_configs foldr map concat].
  - rewrite app_nil_r. split.
    + intros H. injection H as <-. repeat split.
    + intros (A & B & C & D & E & F). destruct r, r'. cbn in *. injection A as A. injection B as B. injection C as C. injection D as D. decompose [and] F. clear F. subst. reflexivity.
  - rewrite bind_ok. split.
    + intros (m & M & H). apply IH in H. unfold merge_one in M. apply bind_ok in M as (els & M1 & M). apply bind_ok in M as (so & M2 & M). apply bind_ok in M as (ha & M3 & M). apply bind_ok in M as (nm & M4 & M). injection M as <-. cbn [c_els c_soft c_hard c_name c_ext c_middle c_acceptors c_log c_lsinks c_time c_dynamic c_msinks c_collect c_interval c_includes] in H.
      unfold item_f at 1. rewrite M1, M2, M3, M4. cbn [bind]. rewrite app_assoc. exact H.
    + intros (A & B & C & D & E & F). apply bind_ok in A as (els & A1 & A). apply bind_ok in B as (so & B1 & B). apply bind_ok in C as (ha & C1 & C). apply bind_ok in D as (nm & D1 & D). unfold merge_one. unfold item_f in A1. rewrite A1, B1, C1, D1. cbn [bind].
      eexists. split; [reflexivity|]. apply IH. cbn [c_els c_soft c_hard c_name c_ext c_middle c_acceptors c_log c_lsinks c_time c_dynamic c_msinks c_collect c_interval c_includes]. rewrite <- app_assoc. repeat (split; [assumption|]). exact F.
Qed.
Lemma foldr_items : forall cs r, foldr item_f cs r = merge_items (concat (map c_els cs)) r.
Proof. induction cs as [|c cs IH]; intros r; [reflexivity|]. cbn [foldr map concat]. rewrite merge_items_app. unfold item_f at 1. destruct (merge_items (c_els c) r); cbn [bind]; [apply IH|reflexivity|reflexivity]. Qed.

(** the caches by component *)
Lemma populate_all_ok : forall cs k k', populate_all cs k = Ok k' <->
  foldr (fun c => cache_acceptors (c_acceptors c)) cs (k_acceptors k) = Ok (k_acceptors k') /\
  foldr (fun c => cache_values d_middle (c_middle c)) cs (k_middle k) = Ok (k_middle k') /\
  foldr (fun c => cache_values d_log (c_log c)) cs (k_log k) = Ok (k_log k') /\
  foldr (fun c => cache_lsinks (c_lsinks c)) cs (k_stdout k, k_remote k, k_files k) = Ok (k_stdout k', k_remote k', k_files k') /\
  foldr (fun c => cache_values d_time (c_time c)) cs (k_time k) = Ok (k_time k') /\
  foldr (fun c => cache_dynamic (c_dynamic c)) cs (k_dynamic k) = Ok (k_dynamic k') /\
  foldr (fun c => cache_collect (c_collect c)) cs (k_collect k) = Ok (k_collect k') /\
  foldr (fun c => cache_msinks (c_msinks c)) cs (k_json k, k_mremote k) = Ok (k_json k', k_mremote k').
Proof.
  induction cs as [|c cs IH]; intros k k'; cbn [populate_all foldr].
  - split.
    + intros H. injection H as <-. repeat split.
    + intros (A & B & C & D & E & F & G & H). destruct k, k'. cbn in *. injection A as A. injection B as B. injection C as C. injection D as D D1 D2. injection E as E. injection F as F. injection G as G. injection H as H H1. subst. reflexivity.
  - rewrite bind_ok. split.
    + intros (m & M & H). apply IH in H. unfold populate in M. repeat (apply bind_ok in M as (? & ? & M)). injection M as <-. cbn in H.
      repeat match goal with E : _ = Ok _ |- _ => rewrite E; clear E end. cbn [bind]. destruct x2 as [[o r] f], x6 as [j m]. exact H.
    + intros (A & B & C & D & E & F & G & H). apply bind_ok in A as (a & A1 & A), B as (b & B1 & B), C as (c' & C1 & C), D as ([[o r] f] & D1 & D), E as (e & E1 & E), F as (f' & F1 & F), G as (g & G1 & G), H as ([j m] & H1 & H).
      unfold populate. rewrite A1, B1, C1, D1, E1, F1, G1, H1. cbn [bind]. eexists. split; [reflexivity|]. apply IH. cbn. auto 10.
Qed.

(** one option *)
Definition settings {A} (f : cfg -> A) (cs : list cfg) : list A := map f cs.
Lemma cache_value_inv : forall d v c c', cache_value d v c = Ok c' <-> (v = d /\ c' = c) \/ (v <> d /\ c' = Some v /\ (c = None \/ c = Some v)).
Proof.
  intros d v c c'. unfold cache_value. destruct (N.eqb_spec d v); [subst; split; [intros H; injection H as <-; auto|intros [[_ ->]|[? _]]; congruence]|].
  destruct c as [w|]; [destruct (N.eqb_spec w v)|].
  - subst. split; [intros H; injection H as <-; right; auto|intros [[? _]|(_ & -> & _)]; congruence].
  - split; [discriminate|intros [[? _]|(_ & _ & [?|?])]; congruence].
  - split; [intros H; injection H as <-; right; auto|intros [[? _]|(_ & -> & _)]; congruence].
Qed.
Definition one_f (d : N) (v : N) (c : option N) := cache_value d v c.
Lemma foldr_value : forall d vs c c', c <> Some d -> (foldr (one_f d) vs c = Ok c' <->
  c' <> Some d /\ (forall v, In v vs -> v <> d -> c' = Some v) /\ (forall v, c = Some v -> c' = Some v) /\ (forall v, c' = Some v -> c = Some v \/ In v vs)).
Proof.
  intros d. induction vs as [|v vs IH]; intros c c' N; cbn [foldr].
  - split; [intros H; injection H as <-; repeat split; [exact N|intros v []|auto|auto]|]. intros (A & _ & B & C). f_equal. destruct c as [w|]; [symmetry; now apply B|]. destruct c' as [w|]; [destruct (C w eq_refl) as [E|[]]; discriminate|reflexivity].
  - rewrite bind_ok. split.
    + intros (m & M & H). apply cache_value_inv in M as [[-> ->]|(NE & -> & M)].
      * apply IH in H as (A & B & C & D); [|exact N]. repeat split; auto.
        -- intros w [<-|I] NE; [congruence|now apply B].
        -- intros w E. destruct (D w E); [now left|right; now right].
      * apply IH in H as (A & B & C & D); [|congruence]. repeat split; auto.
        -- intros w [<-|I] NE'; [now apply C|now apply B].
        -- intros w E. destruct M as [M|M]; rewrite M in E; [discriminate|]. injection E as <-. now apply C.
        -- intros w E. destruct (D w E) as [E'|I]; [injection E' as <-; right; now left|right; now right].
    + intros (A & B & C & D). destruct (N.eq_dec v d) as [->|NE].
      * exists c. split; [apply cache_value_inv; auto|]. apply IH; [exact N|]. repeat split; auto.
        -- intros w I. apply B. now right.
        -- intros w E. destruct (D w E) as [E'|[<-|I]]; [now left| |now right]. congruence.
      * exists (Some v). pose proof (B v (or_introl eq_refl) NE) as E. split.
        -- apply cache_value_inv. right. repeat split; auto. destruct c as [w|]; [right; rewrite <- E; symmetry; now apply C|now left].
        -- apply IH; [congruence|]. repeat split; auto.
           ++ intros w I. apply B. now right.
           ++ intros w E'. congruence.
           ++ intros w E'. left. congruence.
Qed.
(** the options of a section: component [i] *)
Lemma cache_values_nth : forall ds vs cs cs', length vs = length ds -> length cs = length ds -> (cache_values ds vs cs = Ok cs' <->
  length cs' = length ds /\ forall i d v c, nth_error ds i = Some d -> nth_error vs i = Some v -> nth_error cs i = Some c -> exists c', nth_error cs' i = Some c' /\ cache_value d v c = Ok c').
Proof.
  induction ds as [|d ds IH]; intros [|v vs] [|c cs] cs' L1 L2; try discriminate; cbn [cache_values].
  - split; [intros H; injection H as <-; split; [reflexivity|intros [|i]; discriminate]|]. intros [L _]. destruct cs'; [reflexivity|discriminate].
  - rewrite bind_ok. cbn in L1, L2. split.
    + intros (c' & C & H). apply bind_ok in H as (r & R & H). injection H as <-. apply IH in R as [L R]; [|lia|lia]. split; [cbn; lia|]. intros [|i] d0 v0 c0; cbn; intros E1 E2 E3; [injection E1 as <-; injection E2 as <-; injection E3 as <-; eauto|]. now apply R.
    + intros [L H]. destruct cs' as [|c' cs']; [discriminate|]. destruct (H 0%nat d v c eq_refl eq_refl eq_refl) as (x & E & C). injection E as <-. exists c'. split; [exact C|]. apply bind_ok. exists cs'. split; [|reflexivity]. apply IH; [lia|lia|]. cbn in L. split; [lia|]. intros i. apply (H (S i)).
Qed.
Lemma cache_values_length : forall ds vs cs cs', length vs = length ds -> length cs = length ds -> cache_values ds vs cs = Ok cs' -> length cs' = length ds.
Proof. intros ds vs cs cs' A B H. apply cache_values_nth in H; [tauto|exact A|exact B]. Qed.
Lemma nth_ex : forall A (l : list A) i n, length l = n -> (i < n)%nat -> exists x, nth_error l i = Some x.
Proof. intros A l i n L H. destruct (nth_error l i) eqn:E; [eauto|]. apply nth_error_None in E. lia. Qed.
Lemma nth_error_ext' : forall A (l m : list A), (forall i, nth_error l i = nth_error m i) -> l = m.
Proof. induction l as [|x l IH]; intros [|y m] H; [reflexivity|discriminate (H 0%nat)|discriminate (H 0%nat)|]. pose proof (H 0%nat) as H0. injection H0 as <-. f_equal. apply IH. intros i. apply (H (S i)). Qed.
Lemma foldr_values_nth : forall (get : cfg -> list N) ds cs ks ks', (forall c, In c cs -> length (get c) = length ds) -> length ks = length ds ->
  (foldr (fun c => cache_values ds (get c)) cs ks = Ok ks' <->
   length ks' = length ds /\ forall i d k, nth_error ds i = Some d -> nth_error ks i = Some k -> exists k', nth_error ks' i = Some k' /\ foldr (one_f d) (map (fun c => nth i (get c) 0) cs) k = Ok k').
Proof.
  intros get ds. induction cs as [|c cs IH]; intros ks ks' W L; cbn [foldr map].
  - split.
    + intros H. injection H as <-. split; [exact L|]. intros i d k _ E. exists k. auto.
    + intros [L' H]. f_equal. apply nth_error_ext'. intros i. destruct (Nat.lt_ge_cases i (length ds)) as [G|G].
      * destruct (nth_ex _ ds i _ eq_refl G) as [d Ed]. destruct (nth_ex _ ks i _ L G) as [k Ek]. destruct (H i d k Ed Ek) as (k' & Ek' & E). injection E as <-. congruence.
      * rewrite !(proj2 (nth_error_None _ _)); [reflexivity|lia|lia].
  - pose proof (W c (or_introl eq_refl)) as Wc. rewrite bind_ok. split.
    + intros (m & M & H). pose proof (cache_values_length _ _ _ _ Wc L M) as Lm. apply IH in H as [L' H]; [|intros x I; apply W; now right|exact Lm]. split; [exact L'|]. intros i d k Ed Ek. apply cache_values_nth in M as [_ M]; [|exact Wc|exact L].
      assert (G : (i < length ds)%nat) by (apply nth_error_Some; congruence). destruct (nth_ex _ (get c) i _ Wc G) as [v Ev]. destruct (M i d v k Ed Ev Ek) as (x & Ex & C). destruct (H i d x Ed Ex) as (k' & Ek' & F). exists k'. split; [exact Ek'|]. rewrite (nth_error_nth _ _ _ Ev). unfold one_f at 1. now rewrite C.
    + intros [L' H].
      assert (X : exists m, cache_values ds (get c) ks = Ok m /\ length m = length ds /\ forall i d k, nth_error ds i = Some d -> nth_error m i = Some k -> exists k', nth_error ks' i = Some k' /\ foldr (one_f d) (map (fun c => nth i (get c) 0) cs) k = Ok k').
      { clear IH W. revert ks ks' L L' H Wc. generalize (get c) as vs.
        assert (Q : forall vs ks, length ks = length ds -> length vs = length ds -> (forall i d k, nth_error ds i = Some d -> nth_error ks i = Some k -> exists x, cache_value d (nth i vs 0) k = Ok x) -> exists m, cache_values ds vs ks = Ok m).
        { clear. induction ds as [|d ds IH]; intros [|v vs] [|k ks] A B H; try discriminate; [exists []; reflexivity|]. cbn in A, B. destruct (H 0%nat d k eq_refl eq_refl) as [x X]. cbn in X. destruct (IH vs ks) as [m M]; [lia|lia|intros i; apply (H (S i))|]. exists (x :: m). cbn [cache_values]. now rewrite X, M. }
        intros vs ks ks' L L' H Wc. destruct (Q vs ks L Wc) as [m M].
        { intros i d k Ed Ek. destruct (H i d k Ed Ek) as (k' & _ & F). apply bind_ok in F as (x & X & _). eauto. }
        exists m. split; [exact M|]. pose proof (cache_values_length _ _ _ _ Wc L M) as Lm. split; [exact Lm|]. intros i d x Ed Ex.
        assert (G : (i < length ds)%nat) by (apply nth_error_Some; congruence). destruct (nth_ex _ ks i _ L G) as [k Ek]. destruct (nth_ex _ vs i _ Wc G) as [v Ev].
        apply cache_values_nth in M as [_ M]; [|exact Wc|exact L]. destruct (M i d v k Ed Ev Ek) as (x' & Ex' & C). replace x' with x in * by congruence. destruct (H i d k Ed Ek) as (k' & Ek' & F). exists k'. split; [exact Ek'|]. rewrite (nth_error_nth _ _ _ Ev) in F. unfold one_f at 1 in F. now rewrite C in F. }
      destruct X as (m & M & Lm & X). exists m. split; [exact M|]. apply IH; [intros x I; apply W; now right|exact Lm|]. auto.
Qed.
Lemma merge_values_nth : forall ds ks i, length ks = length ds -> nth i (merge_values ds ks) 0 = match nth i ks None with Some v => v | None => nth i ds 0 end.
Proof. induction ds as [|d ds IH]; intros [|k ks] [|i] L; try discriminate; try reflexivity. cbn in L. cbn [merge_values nth]. apply IH. lia. Qed.

(** names and acceptor URIs: at most one is set *)
Lemma nonempty_filter : forall A (x y : list A), filter nonempty [x] = filter nonempty [y] <-> x = y.
Proof. intros A [|a x] [|b y]; cbn; split; intros H; try discriminate; try reflexivity; congruence. Qed.
Definition set_once {A} (v cur : list A) : res (list A) := if nonempty v then (if nonempty cur then Exn else Ok v) else Ok cur.
Lemma foldr_once : forall A (vs : list (list A)) cur r, foldr set_once vs cur = Ok r <-> filter nonempty (cur :: vs) = filter nonempty [r].
Proof.
  intros A. induction vs as [|v vs IH]; intros cur r; cbn [foldr].
  - rewrite nonempty_filter. split; intros H; congruence.
  - unfold set_once at 1. destruct v as [|a v]; cbn [nonempty bind].
    + rewrite IH. cbn [filter nonempty]. reflexivity.
    + destruct cur as [|b cur]; cbn [nonempty bind].
      * rewrite IH. reflexivity.
      * split; [discriminate|]. cbn. destruct r; discriminate.
Qed.
Lemma foldr_map : forall A B C (f : B -> C -> res C) (g : A -> B) l c, foldr (fun a => f (g a)) l c = foldr f (map g l) c.
Proof. induction l as [|a l IH]; intros c; [reflexivity|]. cbn [foldr map]. destruct (f (g a) c); cbn [bind]; [apply IH|reflexivity|reflexivity]. Qed.
Lemma foldr_acceptors : forall cs k r, foldr (fun c => cache_acceptors (c_acceptors c)) cs k = Ok r <-> filter nonempty (k :: map c_acceptors cs) = filter nonempty [r].
Proof. intros. rewrite <- foldr_once, <- foldr_map. reflexivity. Qed.
Lemma foldr_names : forall cs k r, foldr (fun c => merge_name (c_name c)) cs k = Ok r <-> filter nonempty (k :: map c_name cs) = filter nonempty [r].
Proof. intros. rewrite <- foldr_once, <- foldr_map. reflexivity. Qed.

(** logging sinks *)
Definition is_l (t : ltype) (s : lsink) : bool := match t, l_type s with LStdout, LStdout | LRemote, LRemote | LFile, LFile => true | _, _ => false end.
Lemma cache_lsinks_app : forall l m k, cache_lsinks (l ++ m) k = bind (cache_lsinks l k) (cache_lsinks m).
Proof. induction l as [|e l IH]; intros m p; [reflexivity|]. cbn [app cache_lsinks]. destruct (cache_lsink p e); cbn [bind]; [apply IH|reflexivity|reflexivity]. Qed.
Lemma foldr_lsinks : forall cs k, foldr (fun c => cache_lsinks (c_lsinks c)) cs k = cache_lsinks (concat (map c_lsinks cs)) k.
Proof. induction cs as [|c cs IH]; intros r; [reflexivity|]. cbn [foldr map concat]. rewrite cache_lsinks_app. destruct (cache_lsinks (c_lsinks c) r); cbn [bind]; [apply IH|reflexivity|reflexivity]. Qed.
Lemma opt_inj : forall A (x y : option A), opt x = opt y -> x = y.
Proof. intros A [x|] [y|] H; cbn in H; congruence. Qed.
Lemma cache_lsinks_ok : forall ss o r fl o' r' fl', NoDup (map l_name fl) -> (cache_lsinks ss (o, r, fl) = Ok (o', r', fl') <->
  opt o ++ filter (is_l LStdout) ss = opt o' /\ opt r ++ filter (is_l LRemote) ss = opt r' /\ fl' = fl ++ filter (is_l LFile) ss /\ NoDup (map l_name fl')).
Proof.
  induction ss as [|s ss IH]; intros o r fl o' r' fl' N; cbn [cache_lsinks filter].
  - rewrite !app_nil_r. split; [intros H; injection H as <- <- <-; auto|]. intros (A & B & -> & _). apply opt_inj in A, B. congruence.
  - unfold cache_lsink, is_l. destruct (l_type s) eqn:T; cbn [bind].
    + destruct r as [x|]; cbn [bind opt app].
      * split; [discriminate|]. intros (_ & B & _). destruct r'; cbn in B; discriminate.
      * apply IH. exact N.
    + destruct o as [x|]; cbn [bind opt app].
      * split; [discriminate|]. intros (B & _ & _). destruct o'; cbn in B; discriminate.
      * apply IH. exact N.
    + destruct (mem (l_name s) (map l_name fl)) eqn:M; cbn [bind].
      * split; [discriminate|]. intros (_ & _ & -> & D). exfalso. apply mem_iff in M. rewrite map_app in D. cbn [map] in D. apply NoDup_remove_2 in D. apply D. apply in_or_app. now left.
      * assert (N' : NoDup (map l_name (fl ++ [s]))). { apply mem_false in M. rewrite map_app. cbn [map]. apply (Permutation_NoDup (Permutation_cons_append _ _)). now constructor. }
        rewrite (IH o r (fl ++ [s]) o' r' fl' N'). rewrite <- app_assoc. reflexivity.
Qed.
Lemma byname_perm : forall s l, Permutation (byname s l) (s :: l).
Proof. induction l as [|x l IH]; cbn [byname]; [apply Permutation_refl|]. destruct (text_lt (l_name s) (l_name x)); [apply Permutation_refl|]. rewrite IH. apply perm_swap. Qed.
Lemma bynames_perm : forall ss l, Permutation (fold_left (fun l s => byname s l) ss l) (ss ++ l).
Proof. induction ss as [|s ss IH]; intros l; [apply Permutation_refl|]. cbn [fold_left app]. rewrite IH, byname_perm. symmetry. apply Permutation_middle. Qed.
Lemma lsinks_partition : forall ss, Permutation ss (filter (is_l LFile) ss ++ filter (is_l LStdout) ss ++ filter (is_l LRemote) ss).
Proof.
  induction ss as [|s ss IH]; [constructor|]. cbn [filter].
  assert (E : forall t, is_l t s = match t, l_type s with LStdout, LStdout | LRemote, LRemote | LFile, LFile => true | _, _ => false end) by reflexivity. rewrite !E. clear E. destruct (l_type s).
  - rewrite IH at 1. rewrite app_assoc. etransitivity; [apply Permutation_middle|]. rewrite <- app_assoc. reflexivity.
  - rewrite IH at 1. apply Permutation_middle.
  - cbn [app]. now constructor.
Qed.

(** metrics sinks *)
Definition is_m (t : mtype) (s : msink) : bool := match t, m_type s with MJson, MJson | MRemote, MRemote | MUndefined, MUndefined => true | _, _ => false end.
Lemma cache_msinks_app : forall l m k, cache_msinks (l ++ m) k = bind (cache_msinks l k) (cache_msinks m).
Proof. induction l as [|e l IH]; intros m p; [reflexivity|]. cbn [app cache_msinks]. destruct (cache_msink p e); cbn [bind]; [apply IH|reflexivity|reflexivity]. Qed.
Lemma foldr_msinks : forall cs k, foldr (fun c => cache_msinks (c_msinks c)) cs k = cache_msinks (concat (map c_msinks cs)) k.
Proof. induction cs as [|c cs IH]; intros r; [reflexivity|]. cbn [foldr map concat]. rewrite cache_msinks_app. destruct (cache_msinks (c_msinks c) r); cbn [bind]; [apply IH|reflexivity|reflexivity]. Qed.
Lemma cache_msinks_ok : forall ss fl r fl' r', NoDup (map m_name fl) -> (cache_msinks ss (fl, r) = Ok (fl', r') <->
  filter (is_m MUndefined) ss = [] /\ opt r ++ filter (is_m MRemote) ss = opt r' /\ fl' = fl ++ filter (is_m MJson) ss /\ NoDup (map m_name fl')).
Proof.
  induction ss as [|s ss IH]; intros fl r fl' r' N; cbn [cache_msinks filter].
  - rewrite !app_nil_r. split; [intros H; injection H as <- <-; auto|]. intros (_ & B & -> & _). apply opt_inj in B. congruence.
  - unfold cache_msink, is_m. destruct (m_type s) eqn:T; cbn [bind fst snd].
    + split; [discriminate|]. intros (A & _). discriminate.
    + destruct (mem (m_name s) (map m_name fl)) eqn:M; cbn [bind].
      * split; [discriminate|]. intros (_ & _ & -> & D). exfalso. apply mem_iff in M. rewrite map_app in D. cbn [map] in D. apply NoDup_remove_2 in D. apply D. apply in_or_app. now left.
      * assert (N' : NoDup (map m_name (fl ++ [s]))). { apply mem_false in M. rewrite map_app. cbn [map]. apply (Permutation_NoDup (Permutation_cons_append _ _)). now constructor. }
        rewrite (IH (fl ++ [s]) r fl' r' N'). rewrite <- app_assoc. reflexivity.
    + destruct r as [x|]; cbn [bind opt app].
      * split; [discriminate|]. intros (_ & B & _). destruct r'; cbn in B; discriminate.
      * apply IH. exact N.
Qed.
Lemma mbyname_perm : forall s l, Permutation (mbyname s l) (s :: l).
Proof. induction l as [|x l IH]; cbn [mbyname]; [apply Permutation_refl|]. destruct (text_lt (m_name s) (m_name x)); [apply Permutation_refl|]. rewrite IH. apply perm_swap. Qed.
Lemma mbynames_perm : forall ss l, Permutation (fold_left (fun l s => mbyname s l) ss l) (ss ++ l).
Proof. induction ss as [|s ss IH]; intros l; [apply Permutation_refl|]. cbn [fold_left app]. rewrite IH, mbyname_perm. symmetry. apply Permutation_middle. Qed.
Lemma msinks_partition : forall ss, filter (is_m MUndefined) ss = [] -> Permutation ss (filter (is_m MJson) ss ++ filter (is_m MRemote) ss).
Proof.
  induction ss as [|s ss IH]; [constructor|]. cbn [filter].
  assert (E : forall t, is_m t s = match t, m_type s with MJson, MJson | MRemote, MRemote | MUndefined, MUndefined => true | _, _ => false end) by reflexivity. rewrite !E. clear E. destruct (m_type s); intros H.
  - discriminate.
  - cbn [app]. constructor. now apply IH.
  - rewrite IH at 1 by exact H. apply Permutation_middle.
Qed.

(** the dynamic step option and the collect option *)
Lemma foldr_dynamic : forall vs c c', foldr cache_dynamic vs c = Ok c' <->
  (forall b, In (Some b) (c :: vs) -> c' = Some b) /\ (forall b, c' = Some b -> In (Some b) (c :: vs)).
Proof.
  induction vs as [|v vs IH]; intros c c'; cbn [foldr].
  - split; [intros H; injection H as <-; split; intros b; [intros [E|[]]; exact E|intros E; now left]|]. intros [A B]. f_equal. destruct c as [b|]; [symmetry; apply A; now left|]. destruct c' as [b|]; [destruct (B b eq_refl) as [E|[]]; discriminate|reflexivity].
  - rewrite bind_ok. unfold cache_dynamic at 1. destruct v as [b|].
    + destruct c as [w|]; [destruct (Bool.eqb_spec w b) as [->|NE]|].
      * split; [intros (m & M & H); injection M as <-; apply IH in H as [A B]; split; [intros x [E|[E|I]]; apply A; [now left|now left|now right]|intros x E; destruct (B x E) as [J|J]; [now left|right; now right]]|].
        intros [A B]. eexists. split; [reflexivity|]. apply IH. split; [intros x [E|I]; apply A; [now left|right; now right]|intros x E; destruct (B x E) as [J|[J|J]]; [now left|now left|now right]].
      * split; [intros (m & M & _); discriminate|]. intros [A _]. pose proof (A w (or_introl eq_refl)). pose proof (A b (or_intror (or_introl eq_refl))). congruence.
      * split; [intros (m & M & H); injection M as <-; apply IH in H as [A B]; split; [intros x [E|[E|I]]; [discriminate|apply A; now left|apply A; now right]|intros x E; destruct (B x E) as [J|J]; [right; now left|right; now right]]|].
        intros [A B]. eexists. split; [reflexivity|]. apply IH. split; [intros x [E|I]; apply A; [right; now left|right; now right]|intros x E; destruct (B x E) as [J|[J|J]]; [discriminate|now left|now right]].
    + split; [intros (m & M & H); injection M as <-; apply IH in H as [A B]; split; [intros x [E|[E|I]]; [apply A; now left|discriminate|apply A; now right]|intros x E; destruct (B x E) as [J|J]; [now left|right; now right]]|].
      intros [A B]. eexists. split; [reflexivity|]. apply IH. split; [intros x [E|I]; apply A; [now left|right; now right]|intros x E; destruct (B x E) as [J|[J|J]]; [now left|discriminate|now right]].
Qed.
Lemma foldr_collect : forall vs c, foldr cache_collect vs c = Ok (if existsb (fun v => match v with Some true => true | _ => false end) vs then Some true else c).
Proof. induction vs as [|v vs IH]; intros c; [reflexivity|]. cbn [foldr existsb]. destruct v as [[]|]; cbn [cache_collect bind orb]; rewrite IH; destruct (existsb _ vs); reflexivity. Qed.

(** health check timeouts: the last one that is set, and no two consecutive ones are equal *)
Definition somes {A} (l : list (option A)) : list A := concat (map opt l).
Definition last_of {A} (l : list A) : option A := match rev l with [] => None | x :: _ => Some x end.
Fixpoint changing (l : list N) : Prop := match l with x :: ((y :: _) as r) => x <> y /\ changing r | _ => True end.
Lemma last_of_cons : forall A (x : A) l, last_of (x :: l) = match last_of l with Some y => Some y | None => Some x end.
Proof. intros. unfold last_of. cbn [rev]. destruct (rev l); reflexivity. Qed.
Lemma foldr_health : forall vs c c', foldr merge_health vs c = Ok c' <-> changing (opt c ++ somes vs) /\ c' = last_of (opt c ++ somes vs).
Proof.
  induction vs as [|v vs IH]; intros c c'; cbn [foldr].
  - unfold somes. cbn. rewrite app_nil_r. split; [intros H; injection H as <-; destruct c; cbn; auto|]. intros [_ ->]. destruct c; reflexivity.
  - rewrite bind_ok. unfold merge_health at 1. unfold somes. cbn [map concat]. fold (somes vs). destruct v as [x|]; cbn [opt app].
    + destruct c as [y|]; cbn [opt app].
      * destruct (N.eqb_spec y x) as [->|NE].
        -- split; [intros (m & M & _); discriminate|]. intros [[A _] _]. congruence.
        -- split.
           ++ intros (m & M & H). injection M as <-. apply IH in H as [A B]. cbn [opt app] in A, B. split; [split; assumption|]. rewrite last_of_cons. rewrite <- B. destruct c'; [reflexivity|]. rewrite last_of_cons in B. destruct (last_of _); discriminate.
           ++ intros [[_ A] B]. eexists. split; [reflexivity|]. apply IH. cbn [opt app]. split; [exact A|]. rewrite last_of_cons in B. rewrite B, (last_of_cons _ x). destruct (last_of (somes vs)); reflexivity.
      * split; [intros (m & M & H); injection M as <-; now apply IH in H|]. intros H. eexists. split; [reflexivity|]. now apply IH.
    + split; [intros (m & M & H); injection M as <-; now apply IH in H|]. intros H. eexists. split; [reflexivity|]. now apply IH.
Qed.
Lemma foldr_health_map : forall (g : cfg -> option N) cs c c', foldr (fun x => merge_health (g x)) cs c = Ok c' <-> changing (opt c ++ somes (map g cs)) /\ c' = last_of (opt c ++ somes (map g cs)).
Proof. intros. rewrite <- foldr_health, <- foldr_map. reflexivity. Qed.

(** a section of options *)
Definition settled (d v : N) (vs : list N) : Prop := (forall x, In x vs -> x = d \/ x = v) /\ (v = d \/ In v vs).
Lemma settled_one : forall d vs, (forall k', foldr (one_f d) vs None = Ok k' -> settled d (match k' with Some v => v | None => d end) vs) /\
  (forall v, settled d v vs -> exists k', foldr (one_f d) vs None = Ok k').
Proof.
  intros d vs. split.
  - intros k' H. apply foldr_value in H as (A & B & C & D); [|discriminate]. split.
    + intros x I. destruct (N.eq_dec x d) as [E|NE]; [now left|right]. now rewrite (B x I NE).
    + destruct k' as [v|]; [|now left]. right. destruct (D v eq_refl) as [E|I]; [discriminate|exact I].
  - intros v [A B]. exists (if v =? d then None else Some v). apply foldr_value; [discriminate|]. destruct (N.eqb_spec v d) as [E|NE].
    + repeat split; try discriminate. intros x I NE. destruct (A x I); congruence.
    + repeat split; try discriminate; try congruence.
      * intros x I NE'. destruct (A x I); congruence.
      * intros x E. injection E as <-. destruct B; [congruence|now right].
Qed.
Lemma repeat_nth : forall A (x : A) n i, (i < n)%nat -> nth_error (repeat x n) i = Some x.
Proof. induction n as [|n IH]; intros [|i] H; cbn; try lia; [reflexivity|]. apply IH. lia. Qed.
Lemma list_choice : forall A (P : nat -> A -> Prop) n, (forall i, (i < n)%nat -> exists x, P i x) -> exists l, length l = n /\ forall i x, nth_error l i = Some x -> P i x.
Proof.
  intros A P. induction n as [|n IH]; intros H; [exists []; split; [reflexivity|intros [|i]; discriminate]|].
  destruct IH as (l & L & K); [intros i Hi; apply H; lia|]. destruct (H n) as [x Hx]; [lia|]. exists (l ++ [x]). split; [rewrite app_length; cbn; lia|].
  intros i y E. destruct (Nat.lt_ge_cases i n) as [G|G]; [rewrite nth_error_app1 in E by lia; now apply K|]. rewrite nth_error_app2 in E by lia. destruct (i - length l)%nat as [|j] eqn:J; cbn in E; [injection E as <-; replace i with n by lia; exact Hx|now destruct j].
Qed.
Lemma section_ok : forall (get : cfg -> list N) ds cs, (forall c, In c cs -> length (get c) = length ds) ->
  (forall ks', foldr (fun c => cache_values ds (get c)) cs (repeat None (length ds)) = Ok ks' ->
     length ks' = length ds /\ forall i, (i < length ds)%nat -> settled (nth i ds 0) (nth i (merge_values ds ks') 0) (map (fun c => nth i (get c) 0) cs)) /\
  ((forall i, (i < length ds)%nat -> exists v, settled (nth i ds 0) v (map (fun c => nth i (get c) 0) cs)) -> exists ks', foldr (fun c => cache_values ds (get c)) cs (repeat None (length ds)) = Ok ks').
Proof.
  intros get ds cs W. split.
  - intros ks' H. apply foldr_values_nth in H as [L H]; [|exact W|apply repeat_length]. split; [exact L|]. intros i G. destruct (nth_ex _ ds i _ eq_refl G) as [d Ed]. destruct (H i d None Ed (repeat_nth _ _ _ _ G)) as (k' & Ek & F).
    pose proof (merge_values_nth ds ks' i L) as M. rewrite (nth_error_nth ks' i None Ek) in M. rewrite M, (nth_error_nth ds i 0 Ed). now apply (proj1 (settled_one d _)) in F.
  - intros H. destruct (list_choice _ (fun i k' => foldr (one_f (nth i ds 0)) (map (fun c => nth i (get c) 0) cs) None = Ok k') (length ds)) as (ks' & L & K).
    + intros i G. destruct (H i G) as [v S]. now apply (proj2 (settled_one _ _)) in S.
    + exists ks'. apply foldr_values_nth; [exact W|apply repeat_length|]. split; [exact L|]. intros i d k Ed Ek. assert (G : (i < length ds)%nat) by (apply nth_error_Some; congruence).
      rewrite (repeat_nth _ _ _ _ G) in Ek. injection Ek as <-. destruct (nth_ex _ ks' i _ L G) as [k' Ek']. exists k'. split; [exact Ek'|]. pose proof (K i k' Ek') as F. now rewrite (nth_error_nth ds i 0 Ed) in F.
Qed.
