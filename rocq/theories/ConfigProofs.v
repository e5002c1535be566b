From Coq Require Import String Ascii NArith List Arith Bool Lia Permutation.
From Verif Require Import Base TextModel AcceptorModel ConfigModel.
Import ListNotations.
Open Scope N_scope.
Open Scope list_scope.

Lemma text_eqb_iff : forall x y, text_eqb x y = true <-> x = y.
Proof. intros x y. unfold text_eqb. destruct (list_eq_dec N.eq_dec x y); split; intros; congruence. Qed.
Lemma text_eqb_refl : forall x, text_eqb x x = true.
Proof. intros. now apply text_eqb_iff. Qed.
Lemma texts_eqb_iff : forall x y, texts_eqb x y = true <-> x = y.
Proof. intros x y. unfold texts_eqb. destruct (list_eq_dec (list_eq_dec N.eq_dec) x y); split; intros; congruence. Qed.
Lemma otext_eqb_iff : forall x y, otext_eqb x y = true <-> x = y.
Proof. intros [x|] [y|]; cbn; rewrite ?text_eqb_iff; split; intros; congruence. Qed.
Lemma kind_eqb_iff : forall a b, kind_eqb a b = true <-> a = b.
Proof. intros [] []; cbn; split; intros; congruence. Qed.
Lemma mem_iff : forall x l, mem x l = true <-> In x l.
Proof.
  intros x l. unfold mem. rewrite existsb_exists. split; [intros (y & I & E); apply text_eqb_iff in E; now subst|]. intros I. exists x. split; [exact I|apply text_eqb_refl].
Qed.
Lemma mem_false : forall x l, mem x l = false <-> ~ In x l.
Proof. intros. rewrite <- mem_iff. destruct (mem x l); split; congruence. Qed.

(** ** Validation *)
Lemma nodup_in : forall l x, In x (nodup l) <-> In x l.
Proof.
  induction l as [|y l IH]; intros x; [reflexivity|]. cbn [nodup]. destruct (mem y l) eqn:M.
  - rewrite IH. apply mem_iff in M. split; [now right|]. intros [<-|I]; assumption.
  - cbn [In]. now rewrite IH.
Qed.
Lemma nodup_len : forall l, (length (nodup l) <= length l)%nat.
Proof. induction l as [|y l IH]; [reflexivity|]. cbn [nodup]. destruct (mem y l); cbn [length]; lia. Qed.
Lemma nodup_NoDup : forall l, length (nodup l) = length l <-> NoDup l.
Proof.
  induction l as [|y l IH]; [split; [constructor|reflexivity]|]. cbn [nodup]. pose proof (nodup_len l). destruct (mem y l) eqn:M.
  - cbn [length]. split; [lia|]. intros D. apply NoDup_cons_iff in D as [D _]. apply mem_iff in M. tauto.
  - cbn [length]. apply mem_false in M. rewrite NoDup_cons_iff, <- IH. split; [split; [exact M|lia]|intros [_ E]; lia].
Qed.
Lemma check_ok : forall A b (r : res A) x, check b r = Ok x <-> b = true /\ r = Ok x.
Proof. intros A [] r x; cbn; split; [auto|now intros [_ H]|discriminate|intros [H _]; discriminate]. Qed.
Lemma source_names_ok : forall l names r, source_names l names = Ok r <->
  r = names ++ map e_name l /\ (forall s, In s l -> e_name s <> [] /\ e_path s <> []) /\ NoDup (map e_name l) /\ (forall s, In s l -> ~ In (e_name s) names).
Proof.
  induction l as [|s l IH]; intros names r; cbn [source_names map].
  - rewrite app_nil_r. split; [intros H; injection H as <-; split; [reflexivity|]; split; [intros s []|]; split; [constructor|intros s []]|intros [-> _]; reflexivity].
  - destruct (text_eqb (e_name s) []) eqn:A; [apply text_eqb_iff in A; cbn; split; [discriminate|intros (_ & H & _); destruct (H s (or_introl eq_refl)); congruence]|].
    destruct (text_eqb (e_path s) []) eqn:B; [apply text_eqb_iff in B; cbn; split; [discriminate|intros (_ & H & _); destruct (H s (or_introl eq_refl)); congruence]|].
    destruct (mem (e_name s) names) eqn:C; [apply mem_iff in C; cbn; split; [discriminate|intros (_ & _ & _ & H); destruct (H s (or_introl eq_refl)); exact C]|]. cbn [orb].
    rewrite IH, <- app_assoc. cbn [app]. apply mem_false in C. assert (A' : e_name s <> []) by (intros E; apply text_eqb_iff in E; congruence). assert (B' : e_path s <> []) by (intros E; apply text_eqb_iff in E; congruence). split.
    + intros (E & F & G & H). split; [exact E|]. split; [intros x [<-|I]; auto|]. split.
      * constructor; [|exact G]. intros I. apply in_map_iff in I as (x & Ex & I). destruct (H x I). apply in_or_app. right. rewrite Ex. now left.
      * intros x [<-|I]; [exact C|]. intros J. apply (H x I). apply in_or_app. now left.
    + intros (E & F & G & H). apply NoDup_cons_iff in G as [G G']. split; [exact E|]. split; [intros x I; apply F; now right|]. split; [exact G'|]. intros x I J. apply in_app_or in J as [J|[J|[]]]; [apply (H x (or_intror I) J)|]. apply G. rewrite J. now apply in_map.
Qed.

(** ** Files *)
Inductive reach (fs : files) (root : cfg) : nat -> text -> Prop :=
| reach_root : forall f, In f (c_includes root) -> reach fs root 1 f
| reach_next : forall k g c f, reach fs root k g -> fs g = Some c -> In f (c_includes c) -> reach fs root (S k) f.

Lemma level_ok : forall fs todo buf next buf' next', level fs todo buf next = Ok (buf', next') ->
  exists new, buf' = buf ++ new /\ next' = next ++ concat (map (fun x => c_includes (snd x)) new) /\
    (NoDup (map fst buf) -> NoDup (map fst buf')) /\ (forall f, In f (map fst buf') <-> In f (map fst buf) \/ In f todo) /\
    (forall f c, In (f, c) new -> fs f = Some c /\ In f todo).
Proof.
  induction todo as [|f todo IH]; intros buf next buf' next' H; cbn [level] in H.
  - injection H as <- <-. exists []. rewrite !app_nil_r. split; [reflexivity|]; split; [reflexivity|]; split; [auto|]; split; [intros f; split; [now left|intros [I|[]]; exact I]|intros f c []].
  - destruct (mem f (map fst buf)) eqn:M.
    + apply mem_iff in M. destruct (IH _ _ _ _ H) as (new & E1 & E2 & N & I & F). exists new. split; [exact E1|]. split; [exact E2|]. split; [exact N|]. split.
      * intros g. rewrite I. cbn [In]. intuition (subst; auto).
      * intros g c J. destruct (F g c J). split; [assumption|now right].
    + apply mem_false in M. destruct (fs f) as [c|] eqn:Ff; [|discriminate]. destruct (IH _ _ _ _ H) as (new & E1 & E2 & N & I & F). exists ((f, c) :: new). split; [rewrite E1, <- app_assoc; reflexivity|]. split; [rewrite E2; cbn [map concat snd]; now rewrite <- app_assoc|]. split; [|split].
      * intros D. apply N. rewrite map_app. cbn [map fst]. apply (Permutation_NoDup (Permutation_cons_append (map fst buf) f)). now constructor.
      * intros g. rewrite I, map_app, in_app_iff. cbn [map fst In]. tauto.
      * intros g c' [J|J]; [injection J as <- <-; split; [exact Ff|now left]|]. destruct (F g c' J). split; [assumption|now right].
Qed.

(** [fail fs todo seen] : a file of the level that is not yet read does not exist *)
Lemma level_exn : forall fs todo buf next, level fs todo buf next = Exn -> exists f, In f todo /\ fs f = None.
Proof.
  induction todo as [|f todo IH]; intros buf next H; cbn [level] in H; [discriminate|]. destruct (mem f (map fst buf)).
  - destruct (IH _ _ H) as (g & I & E). exists g. split; [now right|exact E].
  - destruct (fs f) as [c|] eqn:E; [|exists f; split; [now left|exact E]]. destruct (IH _ _ H) as (g & I & E'). exists g. split; [now right|exact E'].
Qed.
Lemma level_noub : forall fs todo buf next, level fs todo buf next <> UB.
Proof. induction todo as [|f todo IH]; intros buf next; cbn [level]; [discriminate|]. destruct (mem f (map fst buf)); [apply IH|]. destruct (fs f); [apply IH|discriminate]. Qed.

Record linv (fs : files) (root : cfg) (i : nat) (todo : list text) (buf : buffer) : Prop := mkLinv {
  li_nodup : NoDup (map fst buf);
  li_files : forall f c, In (f, c) buf -> fs f = Some c;
  li_seen : forall f, In f (map fst buf) -> exists k, (k <= i)%nat /\ reach fs root k f;
  li_all : forall k f, (k <= i)%nat -> reach fs root k f -> In f (map fst buf);
  li_todo : forall f, In f todo -> reach fs root (S i) f;
  li_root : forall f, In f (c_includes root) -> In f (map fst buf) \/ In f todo;
  li_closed : forall g c f, In (g, c) buf -> In f (c_includes c) -> In f (map fst buf) \/ In f todo }.
Lemma linv0 : forall fs root, linv fs root 0 (c_includes root) [].
Proof.
  intros. constructor; cbn; try tauto; try (intros; contradiction).
  - constructor.
  - intros k f L R. destruct R; lia.
  - intros f I. now apply reach_root.
Qed.
Lemma reach_prev : forall fs root k f, reach fs root (S (S k)) f -> exists g c, reach fs root (S k) g /\ fs g = Some c /\ In f (c_includes c).
Proof. intros fs root k f R. inversion R; subst. eauto. Qed.
Lemma linv_step : forall fs root i todo buf buf' next', linv fs root i todo buf -> level fs todo buf [] = Ok (buf', next') -> linv fs root (S i) next' buf'.
Proof.
  intros fs root i todo buf buf' next' I H. apply level_ok in H as (new & E1 & E2 & N & S & F). cbn [app] in E2. destruct I as [I1 I2 I3 I4 I5 I6 I7].
  assert (FF : forall f c, In (f, c) buf' -> fs f = Some c). { subst buf'. intros f c J. apply in_app_or in J as [J|J]; [now apply I2|now destruct (F f c J)]. }
  assert (SA : forall k f, (k <= Datatypes.S i)%nat -> reach fs root k f -> In f (map fst buf')).
  { intros k f L R. apply S. destruct (Nat.eq_dec k (Datatypes.S i)) as [->|NE]; [|left; apply (I4 k); [lia|exact R]].
    destruct i as [|i]; [inversion R as [? J|? ? ? ? R']; subst; [now apply I6|inversion R']|]. apply reach_prev in R as (g & c & R & Fg & J). pose proof (I4 _ g (le_n _) R) as G. apply in_map_iff in G as ((g' & c') & E & G). cbn in E. subst g'. pose proof (I2 g c' G). replace c' with c in * by congruence. now apply (I7 g c f). }
  constructor.
  - now apply N.
  - exact FF.
  - intros f J. apply S in J as [J|J]; [destruct (I3 f J) as (k & L & R); exists k; split; [lia|exact R]|]. exists (Datatypes.S i). split; [lia|now apply I5].
  - exact SA.
  - intros f J. subst next'. apply in_concat in J as (x & J & K). apply in_map_iff in J as ((g & c) & <- & J). cbn [snd] in K. destruct (F g c J) as [Fg T]. apply reach_next with (g := g) (c := c); [now apply I5|exact Fg|exact K].
  - intros f J. left. apply S. now apply I6.
  - intros g c f J K. subst buf'. apply in_app_or in J as [J|J]; [left; apply S; now apply (I7 g c f)|]. right. subst next'. apply in_concat. exists (c_includes c). split; [|exact K]. apply in_map_iff. exists (g, c). auto.
Qed.
Lemma closed_reach : forall fs root i buf, linv fs root i [] buf -> forall k f, reach fs root k f -> In f (map fst buf).
Proof.
  intros fs root i buf [I1 I2 I3 I4 I5 I6 I7] k f R. induction R as [f J|k g c f R IH Fg J].
  - destruct (I6 f J) as [K|[]]. exact K.
  - apply in_map_iff in IH as ((g' & c') & E & G). cbn in E. subst g'. pose proof (I2 g c' G). replace c' with c in * by congruence. destruct (I7 g c f G J) as [K|[]]. exact K.
Qed.
Lemma levels_ok : forall fs root n i todo buf r, linv fs root i todo buf -> levels fs n todo buf = Ok r ->
  exists todo' j, linv fs root j todo' r /\ (j <= n + i)%nat /\ (j = (n + i)%nat \/ todo' = []).
Proof.
  induction n as [|n IH]; intros i todo buf r I H; cbn [levels] in H.
  - injection H as <-. exists todo, i. auto.
  - destruct (level fs todo buf []) as [[buf' next']| |] eqn:L; try discriminate. cbn [bind fst snd] in H. pose proof (linv_step _ _ _ _ _ _ _ I L) as I'. destruct next' as [|x next'].
    + injection H as <-. exists [], (S i). split; [exact I'|]. split; [lia|auto].
    + destruct (IH _ _ _ _ I' H) as (t & j & J & K & [E|E]); exists t, j; (split; [exact J|]); (split; [lia|]); [left; lia|now right].
Qed.
Lemma levels_exn : forall fs root n i todo buf, linv fs root i todo buf -> levels fs n todo buf = Exn -> exists f k, reach fs root k f /\ fs f = None /\ (k <= n + i)%nat.
Proof.
  induction n as [|n IH]; intros i todo buf I H; cbn [levels] in H; [discriminate|]. destruct (level fs todo buf []) as [[buf' next']| |] eqn:L; try discriminate; cbn [bind fst snd] in H.
  - pose proof (linv_step _ _ _ _ _ _ _ I L) as I'. destruct next' as [|x next']; [discriminate|]. destruct (IH _ _ _ I' H) as (f & k & R & E & K). exists f, k. split; [exact R|]. split; [exact E|lia].
  - apply level_exn in L as (f & J & E). exists f, (S i). split; [now apply (li_todo _ _ _ _ _ I)|]. split; [exact E|lia].
Qed.
Lemma levels_noub : forall fs n todo buf, levels fs n todo buf <> UB.
Proof.
  induction n as [|n IH]; intros todo buf; cbn [levels]; [discriminate|]. pose proof (level_noub fs todo buf []) as NU. destruct (level fs todo buf []) as [[b x]| |]; cbn [bind fst snd]; [|discriminate|congruence]. destruct x; [discriminate|apply IH].
Qed.

(** ** Merging items *)
Lemma find_snoc : forall A (f : A -> bool) l x, find f (l ++ [x]) = match find f l with Some y => Some y | None => if f x then Some x else None end.
Proof. induction l as [|y l IH]; intros x; [reflexivity|]. cbn. destruct (f y); [reflexivity|apply IH]. Qed.
Lemma find_app2 : forall A (f : A -> bool) l m, find f (l ++ m) = match find f l with Some y => Some y | None => find f m end.
Proof. induction l as [|y l IH]; intros m; [reflexivity|]. cbn. destruct (f y); [reflexivity|apply IH]. Qed.
Lemma same_name_iff : forall x y, same_name x y = true <-> e_kind x = e_kind y /\ e_name x = e_name y.
Proof. intros. unfold same_name. now rewrite andb_true_iff, kind_eqb_iff, text_eqb_iff. Qed.
Lemma same_name_refl : forall x, same_name x x = true.
Proof. intros. now apply same_name_iff. Qed.
Lemma merge_items_app : forall l m p, merge_items (l ++ m) p = bind (merge_items l p) (merge_items m).
Proof. induction l as [|e l IH]; intros m p; [reflexivity|]. cbn [app merge_items]. destruct (merge_item p e); cbn [bind]; [apply IH|reflexivity|reflexivity]. Qed.
(** the parent holds, for each name seen, the first item with that name *)
Definition pinv (seen parent : list element) : Prop :=
  (forall e, find (fun x => same_name x e) parent = find (fun x => same_name x e) seen) /\ (forall e, In e parent -> In e seen) /\
  NoDup (map (fun e => (e_kind e, e_name e)) parent).
Lemma pinv_step : forall seen parent e, pinv seen parent ->
  match find (fun x => same_name x e) seen with
  | None => merge_item parent e = Ok (parent ++ [e]) /\ pinv (seen ++ [e]) (parent ++ [e])
  | Some d => merge_item parent e = (if item_eqb d e then Ok parent else Exn) /\ pinv (seen ++ [e]) parent
  end.
Proof.
  intros seen parent e (P1 & P2 & P3). unfold merge_item. rewrite P1. destruct (find (fun x => same_name x e) seen) as [d|] eqn:F; split; try reflexivity.
  - split; [|split; [|exact P3]].
    + intros x. rewrite find_snoc, P1. destruct (find (fun y => same_name y x) seen) as [d'|] eqn:F'; [reflexivity|]. destruct (same_name e x) eqn:S; [|reflexivity]. exfalso. apply find_some in F as [I F]. pose proof (find_none _ _ F' d I) as N. cbn in N. apply same_name_iff in S, F. destruct S, F. assert (same_name d x = true) by (apply same_name_iff; split; congruence). congruence.
    + intros x I. apply in_or_app. left. now apply P2.
  - split; [|split].
    + intros x. now rewrite !find_snoc, P1.
    + intros x I. apply in_app_or in I as [I|I]; apply in_or_app; [left; now apply P2|now right].
    + rewrite map_app. cbn [map]. apply (Permutation_NoDup (Permutation_cons_append _ _)). constructor; [|exact P3]. intros I. apply in_map_iff in I as (x & E & I). injection E as E1 E2. rewrite <- P1 in F. pose proof (find_none _ _ F x I) as N. cbn in N. assert (same_name x e = true) by now apply same_name_iff. congruence.
Qed.
Lemma merge_items_ok : forall l seen parent r, pinv seen parent -> merge_items l parent = Ok r -> pinv (seen ++ l) r /\
  forall p e q, l = p ++ e :: q -> forall d, find (fun x => same_name x e) (seen ++ p) = Some d -> item_eqb d e = true.
Proof.
  induction l as [|e l IH]; intros seen parent r P H; cbn [merge_items] in H.
  - injection H as <-. rewrite app_nil_r. split; [exact P|]. intros p e q E. now destruct p.
  - pose proof (pinv_step seen parent e P) as K. destruct (find (fun x => same_name x e) seen) as [d|] eqn:F.
    + destruct K as [K1 K2]. rewrite K1 in H. destruct (item_eqb d e) eqn:EQ; [|discriminate]. cbn [bind] in H. destruct (IH _ _ _ K2 H) as [A B]. rewrite <- app_assoc in A. split; [exact A|].
      intros p x q E d' Fd. destruct p as [|y p]; cbn [app] in E; injection E as <- E; [rewrite app_nil_r in Fd; congruence|]. apply (B p x q E d'). now rewrite <- app_assoc.
    + destruct K as [K1 K2]. rewrite K1 in H. cbn [bind] in H. destruct (IH _ _ _ K2 H) as [A B]. rewrite <- app_assoc in A. split; [exact A|].
      intros p x q E d' Fd. destruct p as [|y p]; cbn [app] in E; injection E as <- E; [rewrite app_nil_r in Fd; congruence|]. apply (B p x q E d'). now rewrite <- app_assoc.
Qed.
Lemma merge_items_total : forall l seen parent, pinv seen parent ->
  (forall p e q, l = p ++ e :: q -> forall d, find (fun x => same_name x e) (seen ++ p) = Some d -> item_eqb d e = true) -> exists r, merge_items l parent = Ok r.
Proof.
  induction l as [|e l IH]; intros seen parent P H; cbn [merge_items]; [eauto|]. pose proof (pinv_step seen parent e P) as K. pose proof (H [] e l eq_refl) as H0. rewrite app_nil_r in H0.
  assert (T : forall p x q, l = p ++ x :: q -> forall d, find (fun y => same_name y x) ((seen ++ [e]) ++ p) = Some d -> item_eqb d x = true). { intros p x q E d Fd. apply (H (e :: p) x q); [cbn; now rewrite E|]. now rewrite <- app_assoc in Fd. }
  destruct (find (fun x => same_name x e) seen) as [d|] eqn:F; destruct K as [K1 K2]; rewrite K1; [rewrite (H0 d eq_refl)|]; cbn [bind]; apply (IH (seen ++ [e])); assumption.
Qed.
Lemma pinv0 : pinv [] [].
Proof. split; [reflexivity|]. split; [auto|constructor]. Qed.

(** the files read *)
Lemma process_ok : forall fs root buf, process_includes fs root = Ok buf ->
  NoDup (map fst buf) /\ forall f c, In (f, c) buf <-> fs f = Some c /\ exists k, (k <= 127)%nat /\ reach fs root k f.
Proof.
  intros fs root buf H. unfold process_includes in H. apply (levels_ok fs root) with (i := 0%nat) in H as (todo & j & I & B & C); [|apply linv0]. split; [exact (li_nodup _ _ _ _ _ I)|].
  intros f c. split.
  - intros J. split; [exact (li_files _ _ _ _ _ I f c J)|]. destruct (li_seen _ _ _ _ _ I f (in_map fst _ _ J)) as (k & K & R). exists k. split; [lia|exact R].
  - intros (F & k & K & R). assert (G : In f (map fst buf)) by (destruct C as [C|C]; [apply (li_all _ _ _ _ _ I k f); [lia|exact R]|subst todo; exact (closed_reach _ _ _ _ I k f R)]).
    apply in_map_iff in G as ((g & c') & E & G). cbn in E. subst g. pose proof (li_files _ _ _ _ _ I f c' G). now replace c with c' by congruence.
Qed.
Lemma process_exn : forall fs root, process_includes fs root = Exn <-> exists k f, (k <= 127)%nat /\ reach fs root k f /\ fs f = None.
Proof.
  intros fs root. split.
  - intros H. unfold process_includes in H. apply (levels_exn fs root) with (i := 0%nat) in H as (f & k & R & E & K); [|apply linv0]. exists k, f. split; [lia|auto].
  - intros (k & f & K & R & E). destruct (process_includes fs root) as [buf| |] eqn:P; [exfalso|reflexivity|exfalso; exact (levels_noub _ _ _ _ P)].
    unfold process_includes in P. apply (levels_ok fs root) with (i := 0%nat) in P as (todo & j & I & B & C); [|apply linv0].
    assert (G : In f (map fst buf)) by (destruct C as [C|C]; [apply (li_all _ _ _ _ _ I k f); [lia|exact R]|subst todo; exact (closed_reach _ _ _ _ I k f R)]).
    apply in_map_iff in G as ((g & c') & E' & G). cbn in E'. subst g. pose proof (li_files _ _ _ _ _ I f c' G). congruence.
Qed.

(** operator== of two items of the same kind *)
Definition same_settings (x y : element) : Prop :=
  match e_kind x with
  | KCan | KLin | KEth => e_name x = e_name y /\ e_net x = e_net y /\ e_sinks x = e_sinks y /\ e_source x = e_source y /\ e_replay x = e_replay y
  | KFlexray => e_name x = e_name y /\ e_net x = e_net y /\ e_params x = e_params y /\ e_sinks x = e_sinks y /\ e_source x = e_source y /\ e_replay x = e_replay y
  | KPub | KSub | KServer | KClient => e_sinks x = e_sinks y /\ e_source x = e_source y /\ e_replay x = e_replay y
  | KSink | KSource => e_name x = e_name y /\ e_path x = e_path y /\ e_type x = e_type y
  end.
Lemma item_eqb_iff : forall x y, item_eqb x y = true <-> same_settings x y.
Proof.
  intros x y. unfold item_eqb, same_settings, replay_eqb. destruct (e_kind x); rewrite ?andb_true_iff, ?text_eqb_iff, ?otext_eqb_iff, ?texts_eqb_iff, ?N.eqb_eq; tauto.
Qed.
Lemma same_settings_sym : forall x y, e_kind x = e_kind y -> same_settings x y -> same_settings y x.
Proof. intros x y K. unfold same_settings. rewrite K. destruct (e_kind y); intuition congruence. Qed.
Lemma same_settings_trans : forall x y z, e_kind x = e_kind y -> same_settings x y -> same_settings y z -> same_settings x z.
Proof. intros x y z K. unfold same_settings. rewrite K. destruct (e_kind y); intuition congruence. Qed.
Lemma same_settings_refl : forall x, same_settings x x.
Proof. intros x. unfold same_settings. destruct (e_kind x); auto 10. Qed.
Lemma find_first : forall l e, In e l -> exists d, find (fun x => same_name x e) l = Some d /\ In d l /\ same_name d e = true.
Proof.
  intros l e I. destruct (find (fun x => same_name x e) l) as [d|] eqn:F.
  - exists d. apply find_some in F. tauto.
  - apply (find_none _ _ F) in I. now rewrite same_name_refl in I.
Qed.
Lemma find_ext_name : forall l e e', same_name e e' = true -> find (fun x => same_name x e) l = find (fun x => same_name x e') l.
Proof.
  intros l e e' S. apply same_name_iff in S as [K N]. induction l as [|x l IH]; [reflexivity|]. cbn [find].
  replace (same_name x e') with (same_name x e) by (unfold same_name; now rewrite K, N). now rewrite IH.
Qed.
(** all items of one kind and name are alike iff each is like the first *)
Lemma agree_iff : forall l, (forall p e q, l = p ++ e :: q -> forall d, find (fun x => same_name x e) p = Some d -> item_eqb d e = true) <->
  (forall x y, In x l -> In y l -> e_kind x = e_kind y -> e_name x = e_name y -> same_settings x y).
Proof.
  intros l. split.
  - intros H.
    assert (A : forall e d, In e l -> find (fun x => same_name x e) l = Some d -> same_settings d e).
    { intros e d I F. apply in_split in I as (p & q & E). pose proof (H p e q E d) as K. rewrite E, find_app2 in F. destruct (find (fun x => same_name x e) p) as [d'|] eqn:G.
      - injection F as ->. apply item_eqb_iff. now apply K.
      - cbn [find] in F. rewrite same_name_refl in F. injection F as ->. apply same_settings_refl. }
    intros x y Ix Iy K N. destruct (find_first l x Ix) as (d & F & Id & S). apply same_name_iff in S as [S1 S2].
    assert (F' : find (fun z => same_name z y) l = Some d). { rewrite <- F. symmetry. apply find_ext_name. now apply same_name_iff. }
    apply (same_settings_trans _ d); [congruence| |exact (A y d Iy F')]. apply same_settings_sym; [exact S1|]. exact (A x d Ix F).
  - intros H p e q -> d F. apply find_some in F as [I S]. apply same_name_iff in S as [K N]. apply item_eqb_iff, H; [apply in_or_app; now left|apply in_or_app; right; now left|exact K|exact N].
Qed.
