From Coq Require Import String Ascii NArith ZArith List Bool Lia.
From Verif Require Import Base TextModel YamlModel YamlProofs YamlCheckModel.
Import ListNotations.
Open Scope string_scope.
Open Scope list_scope.

(** * Induction over trees *)
Fixpoint node_rect' (P : node -> Prop) (H0 : P NNull) (H1 : forall q s, P (NVal q s)) (H2 : forall l, Forall P l -> P (NSeq l))
  (H3 : forall l, Forall (fun c => P (snd c)) l -> P (NMap l)) (n : node) : P n :=
  match n with
  | NNull => H0
  | NVal q s => H1 q s
  | NSeq l => H2 l ((fix go l := match l return Forall P l with [] => Forall_nil _ | a :: l => Forall_cons a (node_rect' P H0 H1 H2 H3 a) (go l) end) l)
  | NMap l => H3 l ((fix go l := match l return Forall (fun c => P (snd c)) l with [] => Forall_nil _ | a :: l => Forall_cons a (node_rect' P H0 H1 H2 H3 (snd a)) (go l) end) l)
  end.

(** * Where the nodes of a document are *)
(** the keys from the root to the node, and its own key if it has one *)
Inductive place (root : node) : list string -> option string -> node -> Prop :=
| place_root : place root [] None root
| place_map : forall ks key l k m, place root ks key (NMap l) -> In (k, m) l -> place root (ks ++ match key with Some x => [x] | None => [] end) (Some k) m
| place_seq : forall ks key l m, place root ks key (NSeq l) -> In m l -> place root (ks ++ match key with Some x => [x] | None => [] end) None m.
(** /a/b/c; empty keys are left out *)
Definition pathname (ks : list string) : string := append "/" (String.concat "/" (filter (fun k => negb (String.eqb k "")) ks)).

Lemma append_assoc : forall a b c, append (append a b) c = append a (append b c).
Proof. induction a; intros; cbn; [reflexivity|]. now rewrite IHa. Qed.
Lemma append_nil : forall a, append a "" = a. Proof. induction a; cbn; congruence. Qed.
Lemma concat_snoc : forall l x, l <> [] -> String.concat "/" (l ++ [x]) = append (String.concat "/" l) (append "/" x).
Proof.
  induction l as [|a l IH]; intros x H; [now elim H|]. destruct l as [|b l]; [reflexivity|].
  change (String.concat "/" ((a :: b :: l) ++ [x])) with (append a (append "/" (String.concat "/" ((b :: l) ++ [x])))).
  change (String.concat "/" (a :: b :: l)) with (append a (append "/" (String.concat "/" (b :: l)))).
  rewrite IH by discriminate. now rewrite !append_assoc.
Qed.
Lemma concat_nonempty : forall l, l <> [] -> Forall (fun k => k <> "") l -> String.concat "/" l <> "".
Proof.
  intros [|a l] H F; [now elim H|]. inversion F as [|? ? A F']; subst. destruct l; cbn; [exact A|]. destruct a; [now elim A|discriminate].
Qed.
Lemma make_path_snoc : forall ks k, make_path (pathname ks) k = pathname (ks ++ [k]).
Proof.
  intros ks k. unfold make_path, pathname. rewrite filter_app. cbn [filter]. destruct (String.eqb k "") eqn:E; cbn [negb]; [now rewrite app_nil_r|].
  remember (filter (fun k => negb (String.eqb k "")) ks) as l.
  assert (F : Forall (fun k => k <> "") l). { subst l. apply Forall_forall. intros x I. apply filter_In in I as [_ I]. apply negb_true_iff, String.eqb_neq in I. exact I. }
  clear Heql ks. destruct l as [|a l]; [reflexivity|].
  destruct (String.eqb (append "/" (String.concat "/" (a :: l))) "/") eqn:G.
  - apply String.eqb_eq in G. elim (concat_nonempty (a :: l)); [discriminate|exact F|]. cbn [append] in G. now injection G.
  - rewrite concat_snoc by discriminate. reflexivity.
Qed.

(** * The visitor: what it reports, and that it comes back to where it was *)
Definition below (p : string) (key : option string) : string := match key with Some k => make_path p k | None => p end.
Definition here (p : string) (key : option string) (n : node) : list warning :=
  match key with
  | Some k => if is_schema_path (make_path p k) then [] else [((if is_reserved (make_path p k) then WNotValid else WIgnored), k, p)]
  | None => match n with NMap _ | NSeq _ => [] | _ => if is_schema_path p then [] else [(WValue, "", p)] end
  end.
Fixpoint dups (seen ks : list string) : list string :=
  match ks with [] => [] | k :: ks => if existsb (String.eqb k) seen then k :: dups seen ks else dups (k :: seen) ks end.
Definition dup_warnings (p : string) (n : node) : list warning := match n with NMap l => map (fun k => (WDuplicate, k, p)) (dups [] (map fst l)) | _ => [] end.
Fixpoint report (p : string) (key : option string) (n : node) : list warning :=
  here p key n ++ dup_warnings p n ++
  match n with
  | NMap l => flat_map (fun c => report (below p key) (Some (fst c)) (snd c)) l
  | NSeq l => flat_map (fun c => report (below p key) None c) l
  | _ => []
  end.
Definition is_error (w : warning) : bool := match fst (fst w) with WIgnored => false | _ => true end.
Definition no_error (ws : list warning) : bool := forallb (fun w => negb (is_error w)) ws.
Definition add (ws : list warning) (s : vst) : vst := mkV (v_cur s) (v_paths s) (v_ok s && no_error ws) (v_warn s ++ ws) (v_ub s).
Lemma add_nil : forall s, add [] s = s.
Proof. intros [c p o w u]. unfold add. cbn. now rewrite andb_true_r, app_nil_r. Qed.
Lemma add_add : forall a b s, add b (add a s) = add (a ++ b) s.
Proof. intros a b s. unfold add. cbn. unfold no_error. now rewrite forallb_app, andb_assoc, app_assoc. Qed.
Lemma handle_add : forall key n s, handle key n s = add (here (v_cur s) key n) s.
Proof.
  intros key n s. unfold handle, here, handle_keyval, handle_val. destruct key as [k|].
  - destruct (is_schema_path _); [now rewrite add_nil|]. destruct (is_reserved _); unfold error, warn, add; cbn; [now rewrite andb_false_r|now rewrite andb_true_r].
  - destruct n; try now rewrite add_nil.
    + destruct (is_schema_path _); [now rewrite add_nil|]. unfold error, add; cbn. now rewrite andb_false_r.
    + destruct (is_schema_path _); [now rewrite add_nil|]. unfold error, add; cbn. now rewrite andb_false_r.
Qed.
Lemma duplicates_add : forall ks seen s, duplicates seen ks s = add (map (fun k => (WDuplicate, k, v_cur s)) (dups seen ks)) s.
Proof.
  induction ks as [|k ks IH]; intros seen s; cbn [duplicates dups]; [cbn; now rewrite add_nil|]. destruct (existsb (String.eqb k) seen); [|apply IH].
  rewrite IH. cbn [map]. change ((WDuplicate, k, v_cur s) :: map (fun k0 => (WDuplicate, k0, v_cur s)) (dups seen ks)) with ([(WDuplicate, k, v_cur s)] ++ map (fun k0 => (WDuplicate, k0, v_cur s)) (dups seen ks)).
  rewrite <- add_add. unfold error. cbn [v_cur]. f_equal. unfold add. cbn. now rewrite andb_false_r.
Qed.
Definition enter (key : option string) (s : vst) : vst :=
  match key with None => s | Some k => mkV (make_path (v_cur s) k) (make_path (v_cur s) k :: v_paths s) (v_ok s) (v_warn s) (v_ub s) end.
Lemma push_add : forall key n s, push key n s = enter key (add (dup_warnings (v_cur s) n) s).
Proof. intros key n s. unfold push, dup_warnings, enter. destruct n; rewrite ?add_nil, ?duplicates_add; now destruct key. Qed.
Lemma visit_children : forall key (ws : list warning) s, (exists r, v_paths s = v_cur s :: r) -> pop key (add ws (enter key s)) = add ws s.
Proof. intros key ws s [r H]. destruct key as [k|]; [|reflexivity]. unfold pop, add, enter. cbn. rewrite H. reflexivity. Qed.
Lemma fold_add : forall A (f : A -> vst -> vst) (g : A -> list warning) l s,
  (forall a s', In a l -> v_cur s' = v_cur s -> v_paths s' = v_paths s -> f a s' = add (g a) s') -> fold_left (fun s a => f a s) l s = add (flat_map g l) s.
Proof.
  intros A f g. induction l as [|a l IH]; intros s H; cbn [fold_left flat_map]; [now rewrite add_nil|].
  rewrite (H a s); [|now left|reflexivity|reflexivity]. rewrite IH; [apply add_add|]. intros b s' I C P. apply H; [now right|exact C|exact P].
Qed.
Lemma enter_shape : forall key s, (exists r, v_paths s = v_cur s :: r) -> exists r, v_paths (enter key s) = v_cur (enter key s) :: r.
Proof. intros [k|] s H; [|exact H]. cbn. eexists. reflexivity. Qed.
Lemma enter_cur : forall key s, v_cur (enter key s) = below (v_cur s) key.
Proof. now intros [k|] s. Qed.
Lemma add_shape : forall ws s, (exists r, v_paths s = v_cur s :: r) -> exists r, v_paths (add ws s) = v_cur (add ws s) :: r.
Proof. auto. Qed.
Lemma visit_add : forall n key s, (exists r, v_paths s = v_cur s :: r) -> visit key n s = add (report (v_cur s) key n) s.
Proof.
  induction n as [|q t|l IH|l IH] using node_rect'; intros key s H.
  - cbn [visit report dup_warnings]. now rewrite handle_add, !app_nil_r.
  - cbn [visit report dup_warnings]. now rewrite handle_add, !app_nil_r.
  - destruct l as [|a l]; [cbn [visit report dup_warnings flat_map]; now rewrite handle_add, !app_nil_r|].
    cbn [visit report]. rewrite handle_add, push_add. change (v_cur (add (here (v_cur s) key (NSeq (a :: l))) s)) with (v_cur s).
    remember (a :: l) as l'. rewrite add_add.
    rewrite (fold_add _ (fun c => visit None c) (fun c => report (below (v_cur s) key) None c)).
    + rewrite visit_children by (now apply add_shape). rewrite add_add. now rewrite <- app_assoc.
    + intros c s' I C P. rewrite Forall_forall in IH. rewrite IH; [|exact I|].
      * rewrite C, enter_cur. reflexivity.
      * rewrite C, P. apply enter_shape, add_shape, H.
  - destruct l as [|a l]; [cbn [visit report dup_warnings flat_map map dups]; now rewrite handle_add, !app_nil_r|].
    cbn [visit report]. rewrite handle_add, push_add. change (v_cur (add (here (v_cur s) key (NMap (a :: l))) s)) with (v_cur s).
    remember (a :: l) as l'. rewrite add_add.
    rewrite (fold_add _ (fun c => visit (Some (fst c)) (snd c)) (fun c => report (below (v_cur s) key) (Some (fst c)) (snd c))).
    + rewrite visit_children by (now apply add_shape). rewrite add_add. now rewrite <- app_assoc.
    + intros c s' I C P. rewrite Forall_forall in IH. rewrite IH; [|exact I|].
      * rewrite C, enter_cur. reflexivity.
      * rewrite C, P. apply enter_shape, add_shape, H.
Qed.
Lemma visit_root : forall root, visit None root v_init = add (report "/" None root) v_init.
Proof. intros root. apply visit_add. now exists []. Qed.

(** * Reports in terms of places *)
Lemma report_in : forall root n ks key w, place root ks key n -> In w (report (pathname ks) key n) ->
  exists ks' key' n', place root ks' key' n' /\ In w (here (pathname ks') key' n' ++ dup_warnings (pathname ks') n').
Proof.
  intros root. induction n as [|q t|l IH|l IH] using node_rect'; intros ks key w P I; cbn [report] in I; rewrite app_assoc in I; apply in_app_or in I as [I|I]; try (now exists ks, key; eauto); try now elim I.
  - apply in_flat_map in I as (c & C & I). rewrite Forall_forall in IH. specialize (IH c C).
    replace (below (pathname ks) key) with (pathname (ks ++ match key with Some x => [x] | None => [] end)) in I by (destruct key; cbn [below]; [now rewrite make_path_snoc|now rewrite app_nil_r]).
    apply (IH _ _ _ (place_seq _ _ _ _ _ P C) I).
  - apply in_flat_map in I as ([k m] & C & I). rewrite Forall_forall in IH. specialize (IH (k, m) C).
    replace (below (pathname ks) key) with (pathname (ks ++ match key with Some x => [x] | None => [] end)) in I by (destruct key; cbn [below]; [now rewrite make_path_snoc|now rewrite app_nil_r]).
    apply (IH _ _ _ (place_map _ _ _ _ _ _ P C) I).
Qed.
Lemma in_report : forall root ks key n, place root ks key n -> forall w, In w (report (pathname ks) key n) -> In w (report "/" None root).
Proof.
  intros root ks key n P. induction P as [|ks key l k m P IH C|ks key l m P IH C]; intros w I; [exact I| |].
  - apply IH. cbn [report]. apply in_or_app. right. apply in_or_app. right. apply in_flat_map. exists (k, m). split; [exact C|]. cbn [fst snd].
    destruct key; cbn [below]; [now rewrite make_path_snoc|now rewrite app_nil_r in I].
  - apply IH. cbn [report]. apply in_or_app. right. apply in_or_app. right. apply in_flat_map. exists m. split; [exact C|].
    destruct key; cbn [below]; [now rewrite make_path_snoc|now rewrite app_nil_r in I].
Qed.
Lemma report_head : forall p key n w, In w (here p key n ++ dup_warnings p n) -> In w (report p key n).
Proof. intros p key n w I. destruct n; cbn [report]; rewrite app_assoc; apply in_or_app; now left. Qed.
Lemma report_iff : forall root w, In w (report "/" None root) <->
  exists ks key n, place root ks key n /\ In w (here (pathname ks) key n ++ dup_warnings (pathname ks) n).
Proof.
  intros root w. split.
  - intros I. apply (report_in root root [] None); [constructor|exact I].
  - intros (ks & key & n & P & I). apply (in_report _ _ _ _ P). now apply report_head.
Qed.
Lemma dups_In : forall ks seen k, In k (dups seen ks) <-> exists a b, ks = a ++ k :: b /\ (In k seen \/ In k a).
Proof.
  induction ks as [|x ks IH]; intros seen k; cbn [dups].
  - split; [intros []|]. intros (a & b & E & _). destruct a; discriminate.
  - assert (G : existsb (String.eqb x) seen = true <-> In x seen).
    { rewrite existsb_exists. split; [intros (y & I & E); apply String.eqb_eq in E; now subst|]. intros I. exists x. split; [exact I|apply String.eqb_refl]. }
    destruct (existsb (String.eqb x) seen).
    + assert (Hx : In x seen) by (now apply G). cbn [In]. rewrite IH. split.
      * intros [->|(a & b & -> & H)]; [exists [], ks; auto|]. exists (x :: a), b. split; [reflexivity|]. cbn. tauto.
      * intros (a & b & E & H). destruct a as [|y a]; cbn in E; injection E as -> E; [now left|]. subst ks. right. exists a, b. split; [reflexivity|].
        destruct H as [H|[->|H]]; auto.
    + rewrite IH. cbn [In]. split.
      * intros (a & b & -> & H). exists (x :: a), b. split; [reflexivity|]. cbn. tauto.
      * intros (a & b & E & H). destruct a as [|y a]; cbn in E; injection E as -> E.
        -- destruct H as [H|[]]. exfalso. assert (false = true) by (now apply G). discriminate.
        -- subst ks. exists a, b. split; [reflexivity|]. cbn in H. tauto.
Qed.
Lemma no_dups : forall ks, dups [] ks = [] <-> NoDup ks.
Proof.
  assert (G : forall ks seen, dups seen ks = [] -> NoDup ks /\ forall k, In k ks -> ~ In k seen).
  { induction ks as [|x ks IH]; intros seen H; [split; [constructor|intros k []]|]. cbn [dups] in H. destruct (existsb (String.eqb x) seen) eqn:E; [discriminate|].
    apply IH in H as [N D]. split.
    - constructor; [|exact N]. intros I. apply (D x I). now left.
    - intros k [->|I] J; [|apply (D k I); now right]. assert (existsb (String.eqb k) seen = true) by (apply existsb_exists; exists k; split; [exact J|apply String.eqb_refl]). congruence. }
  intros ks. split; [intros H; now apply (G ks [])|]. intros N.
  destruct (dups [] ks) as [|k d] eqn:E; [reflexivity|]. exfalso.
  assert (I : In k (dups [] ks)) by (rewrite E; now left). apply dups_In in I as (a & b & -> & [[]|I]).
  apply NoDup_remove_2 in N. apply N, in_or_app. now left.
Qed.
Lemma schema_path_iff : forall p, is_schema_path p = true <-> In p schema.
Proof. intros p. unfold is_schema_path. rewrite existsb_exists. split; [intros (x & I & E); apply String.eqb_eq in E; now subst|]. intros I. exists p. split; [exact I|apply String.eqb_refl]. Qed.
Lemma reserved_iff : forall p, is_reserved p = true <-> exists s, In s schema /\ In (element_name p) (split s).
Proof.
  intros p. unfold is_reserved, reserved_names. rewrite existsb_exists. split.
  - intros (x & I & E). apply String.eqb_eq in E. subst x. now apply in_flat_map in I.
  - intros H. exists (element_name p). split; [now apply in_flat_map|apply String.eqb_refl].
Qed.
Lemma no_error_iff : forall ws, no_error ws = true <-> forall w, In w ws -> is_error w = false.
Proof. intros ws. unfold no_error. rewrite forallb_forall. split; intros H w I; specialize (H w I); destruct (is_error w); auto; discriminate. Qed.
(** components are what is between the slashes *)
Lemma split_nonempty : forall s, split s <> [].
Proof. intros [|c s]; cbn; [discriminate|]. destruct (Ascii.eqb c "/"); [discriminate|]. destruct (split s); discriminate. Qed.
Lemma split_concat : forall s, String.concat "/" (split s) = s.
Proof.
  induction s as [|c s IH]; [reflexivity|]. cbn [split]. destruct (Ascii.eqb c "/") eqn:E.
  - apply Ascii.eqb_eq in E. subst c. destruct (split s) as [|w ws] eqn:G; [now elim (split_nonempty s)|].
    change (String.concat "/" ("" :: w :: ws)) with (append "/" (String.concat "/" (w :: ws))). rewrite IH. reflexivity.
  - destruct (split s) as [|w ws] eqn:G; [now elim (split_nonempty s)|]. destruct ws as [|w' ws].
    + cbn [String.concat] in *. now subst.
    + change (String.concat "/" (String c w :: w' :: ws)) with (String c (append w (append "/" (String.concat "/" (w' :: ws))))).
      change (String.concat "/" (w :: w' :: ws)) with (append w (append "/" (String.concat "/" (w' :: ws)))) in IH. now rewrite IH.
Qed.
Lemma split_no_slash : forall s w, In w (split s) -> ~ In "/"%char (list_ascii_of_string w).
Proof.
  induction s as [|c s IH]; intros w I; cbn [split] in I; [destruct I as [<-|[]]; intros []|].
  destruct (Ascii.eqb c "/") eqn:E.
  - destruct I as [<-|I]; [intros []|now apply IH].
  - destruct (split s) as [|v ws] eqn:G; [now elim (split_nonempty s)|]. destruct I as [<-|I]; [|apply IH; now right].
    cbn. intros [->|J]; [now rewrite Ascii.eqb_refl in E|]. apply (IH v); [now left|exact J].
Qed.
