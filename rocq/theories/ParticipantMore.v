From Coq Require Import String Ascii NArith ZArith List Bool Lia Permutation Sorted.
From Verif Require Import Base TextModel YamlModel YamlProofs ParticipantModel ParticipantProofs ParticipantInv.
Import ListNotations.
Open Scope Z_scope.
Open Scope list_scope.

(** ** The order of texts *)
Lemma text_ltb_irrefl : forall a, text_ltb a a = false.
Proof. induction a as [|x a IH]; [reflexivity|]. cbn. rewrite N.ltb_irrefl. exact IH. Qed.
Lemma text_ltb_antisym : forall a b, text_ltb a b = false -> text_ltb b a = false -> a = b.
Proof.
  induction a as [|x a IH]; intros [|y b] H1 H2; try discriminate; [reflexivity|]. cbn in H1, H2.
  destruct (N.ltb_spec x y), (N.ltb_spec y x); try discriminate; try lia. assert (x = y) by lia. subst. f_equal. now apply IH.
Qed.
Lemma text_ltb_trans : forall a b c, text_ltb a b = true -> text_ltb b c = true -> text_ltb a c = true.
Proof.
  induction a as [|x a IH]; intros [|y b] [|z c] H1 H2; try discriminate; [reflexivity|]. cbn in *.
  destruct (N.ltb_spec x y), (N.ltb_spec y z), (N.ltb_spec x z); try reflexivity; try lia;
    destruct (N.ltb_spec y x); try discriminate; destruct (N.ltb_spec z y); try discriminate; try lia.
  destruct (N.ltb_spec z x); [lia|]. eapply IH; eauto.
Qed.
Lemma text_ltb_total : forall a b, text_ltb a b = true \/ a = b \/ text_ltb b a = true.
Proof.
  intros a b. destruct (text_ltb a b) eqn:E1; [auto|]. destruct (text_ltb b a) eqn:E2; [auto|]. right. left. now apply text_ltb_antisym.
Qed.
Definition key_lt (a b : text) : Prop := text_ltb a b = true.
Definition key_le (a b : text) : Prop := text_ltb b a = false.
Lemma key_le_trans : forall a b c, key_le a b -> key_le b c -> key_le a c.
Proof.
  intros a b c H1 H2. unfold key_le in *. destruct (text_ltb c a) eqn:E; [|reflexivity]. destruct (text_ltb_total a b) as [X|[<-|X]].
  - now rewrite (text_ltb_trans _ _ _ E X) in H2.
  - congruence.
  - congruence.
Qed.
Lemma key_le_lt : forall a b, key_le a b -> a <> b -> key_lt a b.
Proof. intros a b H N. unfold key_le, key_lt in *. destruct (text_ltb_total a b) as [X|[X|X]]; congruence. Qed.

(** What std::sort promises: the same elements, and none before one with a smaller key *)
Definition sorts (srt : list label -> list label) : Prop :=
  forall l, Permutation l (srt l) /\ StronglySorted (fun a b => key_le (lb_key a) (lb_key b)) (srt l).

Definition mkeys (l : list mlabel) : list text := map ml_key l.
Lemma add_label_keys : forall ls x, mkeys (add_label ls x) = if existsb (text_eqb (ml_key x)) (mkeys ls) then mkeys ls else mkeys ls ++ [ml_key x].
Proof.
  induction ls as [|y ls IH]; intros x; [reflexivity|]. cbn [add_label mkeys map existsb].
  replace (text_eqb (ml_key x) (ml_key y)) with (text_eqb (ml_key y) (ml_key x)).
  - destruct (text_eqb (ml_key y) (ml_key x)) eqn:E; cbn; [apply text_eqb_eq in E; now rewrite E|]. change (map ml_key (add_label ls x)) with (mkeys (add_label ls x)).
    rewrite IH. change (map ml_key ls) with (mkeys ls). now destruct (existsb (text_eqb (ml_key x)) (mkeys ls)).
  - destruct (text_eqb (ml_key x) (ml_key y)) eqn:E; [apply text_eqb_eq in E; rewrite E; now apply text_eqb_eq|].
    destruct (text_eqb (ml_key y) (ml_key x)) eqn:E'; [|reflexivity]. apply text_eqb_eq in E'. rewrite E' in E. rewrite (proj2 (text_eqb_eq _ _) eq_refl) in E. discriminate.
Qed.
Lemma add_label_in : forall ls x y, In y (add_label ls x) -> y = x \/ In y ls.
Proof.
  induction ls as [|z ls IH]; intros x y H; cbn in H; [destruct H as [<-|[]]; auto|]. destruct (text_eqb (ml_key z) (ml_key x)).
  - destruct H as [<-|H]; [auto|right; now right].
  - destruct H as [<-|H]; [right; now left|]. apply IH in H. destruct H; [auto|right; now right].
Qed.
Lemma add_label_new : forall ls x, ~ In (ml_key x) (mkeys ls) -> add_label ls x = ls ++ [x].
Proof.
  induction ls as [|z ls IH]; intros x H; [reflexivity|]. cbn [add_label]. destruct (text_eqb (ml_key z) (ml_key x)) eqn:E.
  - apply text_eqb_eq in E. exfalso. apply H. left. exact E.
  - cbn. f_equal. apply IH. intros X. apply H. now right.
Qed.
Lemma existsb_text : forall k l, existsb (text_eqb k) l = true <-> In k l.
Proof.
  intros k l. rewrite existsb_exists. split; [intros [x [H E]]; apply text_eqb_eq in E; now subst|intros H; exists k; split; [exact H|now apply text_eqb_eq]].
Qed.
Lemma fold_add_new : forall l acc, NoDup (mkeys acc ++ mkeys l) -> fold_left add_label l acc = acc ++ l.
Proof.
  induction l as [|x l IH]; intros acc H; [cbn; now rewrite app_nil_r|]. cbn [fold_left]. rewrite add_label_new.
  - rewrite IH; [now rewrite <- app_assoc|]. unfold mkeys in *. rewrite map_app, <- app_assoc. exact H.
  - intros X. cbn in H. apply NoDup_remove_2 in H. apply H. apply in_or_app. now left.
Qed.
Lemma fold_add_keys : forall l acc, incl (mkeys acc) (mkeys (fold_left add_label l acc)) /\ incl (mkeys l) (mkeys (fold_left add_label l acc)) /\
  incl (fold_left add_label l acc) (acc ++ l).
Proof.
  induction l as [|x l IH]; intros acc; cbn [fold_left]; [repeat split; [apply incl_refl|intros y []|rewrite app_nil_r; apply incl_refl]|].
  destruct (IH (add_label acc x)) as (A & B & C). assert (K := add_label_keys acc x).
  assert (Kx : In (ml_key x) (mkeys (add_label acc x))).
  { rewrite K. destruct (existsb (text_eqb (ml_key x)) (mkeys acc)) eqn:E; [now apply existsb_text|]. apply in_or_app. right. now left. }
  repeat split.
  - intros k H. apply A. rewrite K. destruct (existsb _ _); [exact H|]. apply in_or_app. now left.
  - intros k [<-|H]; [now apply A|now apply B].
  - intros y H. apply C in H. apply in_app_or in H. destruct H as [H|H]; [|apply in_or_app; right; now right].
    apply add_label_in in H. destruct H as [->|H]; apply in_or_app; [right; now left|now left].
Qed.
(** adding labels in the order of their keys gives strictly increasing keys *)
Lemma sorted_snoc : forall l x, StronglySorted key_lt l -> Forall (fun y => key_lt y x) l -> StronglySorted key_lt (l ++ [x]).
Proof.
  induction l as [|y l IH]; intros x S F; cbn; [constructor; constructor|]. inversion S as [|? ? S' F']; subst. inversion F; subst. constructor; [now apply IH|].
  apply Forall_app. split; [exact F'|]. now constructor.
Qed.
Lemma fold_add_sorted : forall l acc, StronglySorted key_lt (mkeys acc) -> StronglySorted key_le (mkeys l) ->
  (forall a b, In a (mkeys acc) -> In b (mkeys l) -> key_le a b) -> StronglySorted key_lt (mkeys (fold_left add_label l acc)).
Proof.
  induction l as [|x l IH]; intros acc S1 S2 H; [exact S1|]. cbn [fold_left]. cbn in S2. inversion S2 as [|? ? S3 F3]; subst.
  assert (K := add_label_keys acc x). destruct (existsb (text_eqb (ml_key x)) (mkeys acc)) eqn:E.
  - apply IH; [now rewrite K|exact S3|]. rewrite K. intros a b A B. apply H; [exact A|now right].
  - apply IH; [rewrite K|exact S3|rewrite K].
    + apply sorted_snoc; [exact S1|]. apply Forall_forall. intros y Y. apply key_le_lt; [apply H; [exact Y|now left]|].
      intros ->. apply existsb_text in Y. congruence.
    + intros a b A B. apply in_app_or in A. destruct A as [A|[<-|[]]]; [apply H; [exact A|now right]|]. rewrite Forall_forall in F3. now apply F3.
Qed.
Lemma mkeys_public : forall l, mkeys (map to_public l) = map lb_key l.
Proof. intros l. unfold mkeys. rewrite map_map. reflexivity. Qed.
Lemma sorted_map : forall l, StronglySorted (fun a b => key_le (lb_key a) (lb_key b)) l -> StronglySorted key_le (map lb_key l).
Proof.
  intros l H. induction H as [|x l H IH F]; cbn; constructor; [exact IH|]. apply Forall_map. exact F.
Qed.
Lemma final_sorted : forall srt l, sorts srt -> StronglySorted key_lt (mkeys (final_labels srt l)).
Proof.
  intros srt l H. unfold final_labels. apply fold_add_sorted; [constructor|rewrite mkeys_public; apply sorted_map, H|intros a b []].
Qed.
Lemma final_keys : forall srt l k, sorts srt -> (In k (mkeys (final_labels srt l)) <-> In k (map lb_key l)).
Proof.
  intros srt l k H. destruct (H l) as [P _]. unfold final_labels. destruct (fold_add_keys (map to_public (srt l)) []) as (_ & A & B). split; intros X.
  - apply (Permutation_in k (Permutation_sym (Permutation_map lb_key P))). rewrite <- mkeys_public. unfold mkeys in X at 1. apply in_map_iff in X. destruct X as [y [<- Y]].
    apply B in Y. cbn in Y. now apply in_map.
  - apply A. rewrite mkeys_public. now apply (Permutation_in k (Permutation_map lb_key P)).
Qed.
Lemma final_in : forall srt l x, sorts srt -> In x (final_labels srt l) -> In x (map to_public l).
Proof.
  intros srt l x H X. destruct (H l) as [P _]. destruct (fold_add_keys (map to_public (srt l)) []) as (_ & _ & B). apply B in X. cbn in X.
  now apply (Permutation_in x (Permutation_sym (Permutation_map to_public P))).
Qed.
Lemma final_perm : forall srt l, sorts srt -> NoDup (map lb_key l) -> Permutation (map to_public l) (final_labels srt l).
Proof.
  intros srt l H D. destruct (H l) as [P _]. unfold final_labels. rewrite fold_add_new; [cbn; now apply Permutation_map|].
  cbn. rewrite mkeys_public. now apply (Permutation_NoDup (Permutation_map lb_key P)).
Qed.
Lemma sorted_unique : forall a b : list mlabel, StronglySorted key_lt (mkeys a) -> StronglySorted key_lt (mkeys b) -> Permutation a b -> a = b.
Proof.
  induction a as [|x a IH]; intros b Sa Sb P.
  - now apply Permutation_nil in P.
  - destruct b as [|y b]; [now apply Permutation_sym, Permutation_nil in P|]. cbn in Sa, Sb. inversion Sa as [|? ? Sa' Fa]; inversion Sb as [|? ? Sb' Fb]; subst.
    rewrite Forall_forall in Fa, Fb.
    assert (x = y).
    { assert (X : In x (y :: b)) by (apply (Permutation_in x P); now left). assert (Y : In y (x :: a)) by (apply (Permutation_in y (Permutation_sym P)); now left).
      destruct X as [X|X]; [now subst|]. destruct Y as [Y|Y]; [now subst|]. specialize (Fa _ (in_map ml_key _ _ Y)). specialize (Fb _ (in_map ml_key _ _ X)).
      unfold key_lt in *. pose proof (text_ltb_trans _ _ _ Fa Fb) as Z. rewrite text_ltb_irrefl in Z. discriminate. }
    subst y. f_equal. apply IH; auto. now apply Permutation_cons_inv in P.
Qed.
Lemma final_same : forall s1 s2 l, sorts s1 -> sorts s2 -> NoDup (map lb_key l) -> final_labels s1 l = final_labels s2 l.
Proof.
  intros s1 s2 l H1 H2 D. apply sorted_unique; [now apply final_sorted|now apply final_sorted|].
  eapply Permutation_trans; [apply Permutation_sym, final_perm|apply final_perm]; auto.
Qed.

(** ** Messages about different values *)
Definition is_mm (a : act) : bool := match a with Mismatch _ => true | _ => false end.
Definition mm (s : st) : list act := filter is_mm (s_log s).
Definition differs {A} (eqb : A -> A -> bool) (configured : option A) (passed : A) : nat :=
  match configured with Some v => if eqb v passed then 0 else 1 | None => 0 end%nat.
Definition of_entry {A B} (f : A -> option B) (x : option A) : option B := match x with Some a => f a | None => None end.
(** the number of values of a call that differ from the configured ones *)
Definition conflicts (c : pcfg) (o : op) : nat :=
  let topic l n sp := differs text_eqb (of_entry sv_topic (entry sv_name l n)) (sp_topic sp) in
  let labels l n sp := differs (fun a b => list_eqb label_eqb a b) (of_entry sv_labels (entry sv_name l n)) (match mapM from_public (sp_labels sp) with Ok v => v | _ => [] end) in
  match o with
  | OBus b n net => differs text_eqb (of_entry ct_net (entry ct_name (bus_config c b) n)) net
  | OPub n sp h _ => topic (p_pubs c) n sp + differs Z.eqb (of_entry sv_history (entry sv_name (p_pubs c) n)) (Z.of_N h) + labels (p_pubs c) n sp
  | OSub n sp => topic (p_subs c) n sp + labels (p_subs c) n sp
  | OServer n sp => topic (p_servers c) n sp + labels (p_servers c) n sp
  | OClient n sp _ => topic (p_clients c) n sp + labels (p_clients c) n sp
  | _ => 0
  end%nat.
Definition op_name (o : op) : text :=
  match o with OBus _ n _ | OPub n _ _ _ | OSub n _ | OClient n _ _ | OServer n _ => n | _ => [] end.

Lemma mm_logs : forall l s, mm (logs l s) = mm s ++ filter is_mm l.
Proof. intros. unfold mm, logs. cbn. apply filter_app. Qed.
Lemma mm_update : forall A eqb n (v : option A) p s, mm (fst (update eqb n v p s)) = mm s ++ repeat (Mismatch n) (differs eqb v p) /\ exists x, snd (update eqb n v p s) = Some x.
Proof.
  intros A eqb n v p s. unfold update, differs, bnd, when, upd, ret. destruct v as [v|]; [|cbn; rewrite app_nil_r; eauto]. destruct (eqb v p); cbn.
  - rewrite app_nil_r. eauto.
  - split; [exact (mm_logs [Mismatch n] s)|eauto].
Qed.
Lemma mm_create : forall c k n net supp s, Ready s -> mm (fst (create c k n net supp s)) = mm s.
Proof.
  intros c k n net supp s R. rewrite create_ready by exact R. destruct (is_nil n || exists_ k n s); [reflexivity|]. cbv zeta. cbn [fst]. unfold mm, added. cbn. rewrite filter_app. cbn. now rewrite app_nil_r.
Qed.
Lemma mm_sinks : forall d l s, mm (fst (add_sinks d l s)) = mm s.
Proof.
  intros d l s. rewrite add_sinks_shape. cbn [fst]. rewrite mm_logs. replace (filter is_mm (map (sink_act d (s_sinks s)) l)) with (@nil act); [apply app_nil_r|].
  induction l as [|x l IH]; [reflexivity|]. cbn. unfold sink_act at 1. now destruct (sink_index 0 x (s_sinks s)).
Qed.

(** a computation that ends normally adds [l] to these messages *)
Definition Adds {A} (l : list act) (m : M A) : Prop := forall s, Ready s -> Ready (fst (m s)) /\ forall a, snd (m s) = Some a -> mm (fst (m s)) = mm s ++ l.
Lemma adds_bnd : forall A B (m : M A) (f : A -> M B) l l', Adds l m -> (forall a, Adds l' (f a)) -> Adds (l ++ l') (bnd m f).
Proof.
  intros A B m f l l' H1 H2 s R. destruct (H1 s R) as [R1 E1]. unfold bnd. destruct (m s) as [s1 [a|]]; cbn [fst snd] in *.
  - destruct (H2 a s1 R1) as [R2 E2]. split; [exact R2|]. intros b Eb. rewrite (E2 b Eb), (E1 a eq_refl). now rewrite app_assoc.
  - split; [exact R1|discriminate].
Qed.
Lemma adds_ret : forall A (a : A), Adds [] (ret a).
Proof. intros A a s R. split; [exact R|]. intros b _. cbn. now rewrite app_nil_r. Qed.
Lemma adds_throw : forall A l, Adds l (@throw A).
Proof. intros A l s R. split; [exact R|discriminate]. Qed.
Lemma adds_update : forall A eqb n (v : option A) p, Adds (repeat (Mismatch n) (differs eqb v p)) (update eqb n v p).
Proof.
  intros A eqb n v p s R. split; [|intros; apply mm_update]. destruct (update_shape A eqb n v p s) as [m [-> _]]. exact R.
Qed.
Lemma adds_create : forall c k n net supp, Adds [] (create c k n net supp).
Proof.
  intros c k n net supp s R. split; [|intros; rewrite app_nil_r; now apply mm_create]. rewrite create_ready by exact R. destruct (is_nil n || exists_ k n s); [exact R|].
  cbv zeta. cbn [fst]. eapply ready_more; [exact R|]. cbn. intros x X. apply in_or_app. now left.
Qed.
Lemma adds_sinks : forall d l, Adds [] (add_sinks d l).
Proof. intros d l s R. split; [rewrite add_sinks_shape; exact R|intros; rewrite app_nil_r; apply mm_sinks]. Qed.
Lemma adds_lift : forall A B (r : res A) (f : A -> M B) l, (forall a, r = Ok a -> Adds l (f a)) -> Adds l (bnd (lift r) f).
Proof.
  intros A B r f l H s R. destruct r as [a| |]; [exact (H a eq_refl s R)|split; [exact R|discriminate]..].
Qed.
Lemma adds_history : forall d n, Adds [] (upd (log (HistoryLength d n))).
Proof. intros d n s R. split; [exact R|]. intros _ _. cbn [upd fst]. exact (mm_logs [HistoryLength d n] s). Qed.
Lemma adds_eq : forall A l l' (m : M A), Adds l m -> l = l' -> Adds l' m.
Proof. intros. now subst. Qed.
Lemma entry_field : forall A (f : svc -> option A) l n, f (mkSvc n None None None [] replay0) = None -> f (svc_named l n) = of_entry f (entry sv_name l n).
Proof. intros A f l n H. unfold svc_named. rewrite by_name_entry. unfold of_entry. now destruct (entry sv_name l n). Qed.
Lemma adds_merge : forall srt l n sp, Adds (repeat (Mismatch n) (differs text_eqb (of_entry sv_topic (entry sv_name l n)) (sp_topic sp) +
    differs (fun a b => list_eqb label_eqb a b) (of_entry sv_labels (entry sv_name l n)) (match mapM from_public (sp_labels sp) with Ok v => v | _ => [] end)))
  (merge srt n (svc_named l n) sp).
Proof.
  intros srt l n sp. unfold merge. rewrite (entry_field _ sv_topic l n eq_refl), (entry_field _ sv_labels l n eq_refl), repeat_app.
  apply adds_bnd; [apply adds_update|]. intros t. apply adds_lift. intros v Ev. rewrite Ev.
  eapply adds_eq; [apply adds_bnd; [apply adds_update|intros; apply adds_ret]|]. apply app_nil_r.
Qed.
Lemma create_then : forall A c k n net supp (f : desc -> M A), (forall d, Adds [] (f d)) -> Adds [] (bnd (create c k n net supp) f).
Proof. intros. eapply adds_eq; [apply adds_bnd; [apply adds_create|eassumption]|reflexivity]. Qed.
Lemma adds_nothing : forall c srt o l, (forall k n, target_of o <> TNamed k n) -> l = [] -> Adds l (step c srt o).
Proof.
  intros c srt o l T -> s R. pose proof (step_shape c srt o s R) as H. inversion H as [m F C E|k n m T' C1 C2 F E|T1 T2 C1 C2 E|d a b Eo Es Ec Ea E].
  - split; [exact R|discriminate].
  - now destruct (T k n).
  - split; [|intros; cbn [fst]; rewrite app_nil_r; now destruct (target_of o)]. cbn [fst]. now destruct (target_of o).
  - split; [exact R|]. intros _ _. cbn [fst]. unfold mm. cbn. now rewrite filter_app.
Qed.
Lemma adds_step : forall c srt o, Adds (repeat (Mismatch (op_name o)) (conflicts c o)) (step c srt o).
Proof.
  intros c srt o. destruct o as [b n net|n sp h u|n sp|p l u|n sp u|n sp|p cl u|v| | | | |k]; try (apply adds_nothing; [intros k' n'; discriminate|reflexivity]); unfold step, conflicts, op_name.
  - rewrite by_name_entry. replace (ct_net _) with (of_entry ct_net (entry ct_name (bus_config c b) n)) by (now destruct (entry ct_name (bus_config c b) n)).
    eapply adds_eq; [apply adds_bnd; [apply adds_update|]|apply app_nil_r]. intros t. apply create_then. intros d.
    eapply adds_eq; [apply adds_bnd; [apply adds_sinks|intros; apply adds_ret]|reflexivity].
  - destruct (1 <? h)%N; [apply adds_throw|]. cbv zeta. rewrite (entry_field _ sv_topic _ n eq_refl), (entry_field _ sv_labels _ n eq_refl), (entry_field _ sv_history _ n eq_refl).
    rewrite !repeat_app, <- app_assoc. apply adds_bnd; [apply adds_update|]. intros t. apply adds_bnd; [apply adds_update|]. intros z. apply adds_lift. intros v Ev. rewrite Ev.
    eapply adds_eq; [apply adds_bnd; [apply adds_update|]|apply app_nil_r]. intros ls. destruct (1 <? z); [apply adds_throw|]. apply create_then. intros d.
    eapply adds_eq; [apply adds_bnd; [apply adds_history|intros; apply adds_bnd; [apply adds_sinks|intros; apply adds_ret]]|reflexivity].
  - eapply adds_eq; [apply adds_bnd; [apply adds_merge|]|apply app_nil_r]. intros t. apply create_then. intros d.
    eapply adds_eq; [apply adds_bnd; [apply adds_sinks|intros; apply adds_ret]|reflexivity].
  - apply create_then. intros. apply adds_ret.
  - eapply adds_eq; [apply adds_bnd; [apply adds_merge|]|apply app_nil_r]. intros t. apply create_then. intros d. apply adds_ret.
  - eapply adds_eq; [apply adds_bnd; [apply adds_merge|]|apply app_nil_r]. intros t. apply create_then. intros d. apply adds_ret.
  - apply create_then. intros. apply adds_ret.
Qed.

(** ** Which calls succeed *)
Definition target_eq_dec (a b : target) : {a = b} + {a <> b}.
Proof. repeat decide equality. Defined.
(** the targets of the calls that ended normally *)
Fixpoint granted (c : pcfg) (srt : list label -> list label) (ops : list op) (s : st) : list target :=
  match ops with
  | [] => []
  | o :: ops => match snd (step c srt o s) with Some _ => [target_of o] | None => [] end ++ granted c srt ops (fst (step c srt o s))
  end.
Lemma exists_added : forall k n k' d l s, exists_ k n (added k' d (logs l s)) = exists_ k n s || (kind_eqb k' k && text_eqb (d_name d) n).
Proof. intros. unfold exists_, added, logs. cbn [s_ctrls]. rewrite existsb_app. cbn. now rewrite orb_false_r. Qed.
Lemma taken_step : forall c srt o s t, Ready s -> t <> TNone ->
  taken t (fst (step c srt o s)) = true <-> (taken t s = true \/ (target_of o = t /\ exists r, snd (step c srt o s) = Some r)).
Proof.
  intros c srt o s t R Nt. pose proof (step_shape c srt o s R) as H. inversion H as [m F C E|k n m T' C1 C2 F E|T1 T2 C1 C2 E|d a b Eo Es Ec Ea E].
  - cbn [fst snd]. assert (X : taken t (logs m s) = taken t s) by now destruct t. rewrite X. split; [auto|]. intros [?|[_ [r ?]]]; [assumption|discriminate].
  - cbn [fst snd]. rewrite T'. destruct t as [k' n'| | | | | |]; cbn [taken]; try (split; [auto|intros [?|[? _]]; [assumption|discriminate]]).
    rewrite exists_logs, exists_added. change (d_name E) with n.
    destruct (is_nil n' || exists_ k' n' s) eqn:Q; [apply orb_true_iff in Q; destruct Q as [Q|Q]; rewrite Q; cbn [orb]; rewrite ?orb_true_r; tauto|]. apply orb_false_iff in Q. destruct Q as [Q1 Q2]. rewrite Q1, Q2. cbn [orb]. split; intros X.
    + right. apply andb_true_iff in X. destruct X as [X1 X2]. apply kind_eqb_eq in X1. apply text_eqb_eq in X2. subst. eauto.
    + destruct X as [X|[X _]]; [discriminate|]. injection X as <- <-. apply andb_true_iff. split; [now apply kind_eqb_eq|now apply text_eqb_eq].
  - cbn [fst snd]. assert (X : forall k n, target_of o <> TNamed k n) by exact T1. destruct (target_of o) eqn:Eo; try (now destruct (X k name)); try congruence;
      destruct t; cbn [taken set_flag s_life s_mon s_sysc s_netsim s_sync]; split; auto; try congruence; try (intros [?|[? _]]; [assumption|discriminate]); intros; right; eauto.
  - subst o. cbn [fst snd target_of]. destruct t; cbn [taken s_life s_mon s_sysc s_netsim s_sync]; split; auto; try congruence; try (intros [?|[? _]]; [assumption|discriminate]); intros; right; eauto.
Qed.
Lemma taken_run : forall c srt ops s t, Inv c s -> Ready s -> t <> TNone -> taken t (run c srt ops s) = true <-> (taken t s = true \/ In t (granted c srt ops s)).
Proof.
  intros c srt ops. induction ops as [|o ops IH]; intros s t V R Nt; [cbn; tauto|]. cbn [run fold_left granted]. change (fold_left _ ops ?x) with (run c srt ops x).
  destruct (inv_step c srt o s V R) as [V' R']. rewrite IH by assumption. rewrite taken_step by assumption. rewrite in_app_iff. destruct (snd (step c srt o s)) as [r|]; cbn; split.
  - intros [[A|[A _]]|A]; auto.
  - intros [A|[[A|[]]|A]]; auto. left. right. eauto.
  - intros [[A|[_ [r A]]]|A]; auto. discriminate.
  - intros [A|[[]|A]]; auto.
Qed.
Lemma succeeds_iff : forall c srt o s, Ready s -> (exists r, snd (step c srt o s) = Some r) <-> (acceptable c o /\ taken (target_of o) s = false).
Proof.
  intros c srt o s R. pose proof (step_shape c srt o s R) as H. inversion H as [m F C E|k n m T' C1 C2 F E|T1 T2 C1 C2 E|d a b Eo Es Ec Ea E]; cbn [snd].
  - split; [intros [r ?]; discriminate|]. intros [A B]. destruct C as [C|C]; [contradiction|congruence].
  - split; [auto|eauto].
  - split; [auto|eauto].
  - subst o. split; [intros _; cbn; auto|eauto].
Qed.
