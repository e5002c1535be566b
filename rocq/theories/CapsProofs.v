(** Proofs about CapsModel.v. *)
From Coq Require Import String Ascii NArith List Arith Bool Lia.
From Verif Require Import Base TextModel TextSpec CapsModel.
Import ListNotations.
Open Scope N_scope.
Open Scope list_scope.

Lemma text_eqb_iff x y : text_eqb x y = true <-> x = y.
Proof. unfold text_eqb. destruct (list_eq_dec N.eq_dec x y); split; intros H; auto; discriminate. Qed.
Lemma text_eqb_same x : text_eqb x x = true.
Proof. now apply text_eqb_iff. Qed.
Lemma text_eqb_ne x y : x <> y -> text_eqb x y = false.
Proof. intros H. destruct (text_eqb x y) eqn:E; auto. apply text_eqb_iff in E. contradiction. Qed.
Lemma has_in x c : has x c = true <-> In x (k_names c).
Proof.
  unfold has. rewrite existsb_exists. split; [intros (y & H & E); apply text_eqb_iff in E; congruence|].
  intros H. exists x. split; auto. apply text_eqb_same.
Qed.

(** ** The set and its flags *)
Definition cached (c : caps) : Prop :=
  (k_proxy c = true <-> In n_proxy (k_names c)) /\ (k_request c = true <-> In n_request (k_names c)).
Lemma update_cached c : cached (update_cache c).
Proof. split; cbn; apply has_in. Qed.
Lemma add_cached x c : cached (add x c).
Proof. apply update_cached. Qed.
Lemma add_in x y c : In y (k_names (add x c)) <-> y = x \/ In y (k_names c).
Proof.
  cbn. destruct (has x c) eqn:E; [apply has_in in E; split; [auto|intros [->|H]; auto]|].
  rewrite in_app_iff. cbn. intuition congruence.
Qed.
Lemma nodup_snoc {A} (l : list A) x : NoDup l -> ~ In x l -> NoDup (l ++ [x]).
Proof.
  induction l as [|y l IH]; intros N H; cbn; [constructor; auto|]. inversion N; subst. constructor.
  - rewrite in_app_iff. cbn in *. intuition congruence.
  - apply IH; auto. cbn in H. tauto.
Qed.
Lemma add_nodup x c : NoDup (k_names c) -> NoDup (k_names (add x c)).
Proof.
  intros H. cbn. destruct (has x c) eqn:E; auto. apply nodup_snoc; auto. intros I. apply has_in in I. congruence.
Qed.
Lemma add_items_spec l : forall c c', add_items l c = Some c' ->
  (forall x, In x (k_names c') <-> In x (k_names c) \/ exists m, In m l /\ find_key (lit "name") m = Some x)
  /\ (NoDup (k_names c) -> NoDup (k_names c')) /\ (cached c -> cached c').
Proof.
  induction l as [|m l IH]; intros c c' H; cbn [add_items] in H.
  - injection H as <-. split; [|auto]. intros x. split; [auto|intros [H|(m & [] & _)]; exact H].
  - destruct (find_key (lit "name") m) as [x|] eqn:F; [|discriminate]. destruct (IH _ _ H) as (A & B & C). split; [|split].
    + intros y. rewrite A, add_in. split.
      * intros [[->|I]|(m' & I & E)]; [right; exists m; split; [now left|exact F]|now left|right; exists m'; split; [now right|exact E]].
      * intros [I|(m' & [->|I] & E)]; [auto|left; left; congruence|right; eauto].
    + intros N. apply B, add_nodup, N.
    + intros _. apply C, add_cached.
Qed.
Lemma add_items_some l : forall c, Forall (fun m => find_key (lit "name") m <> None) l -> exists c', add_items l c = Some c'.
Proof.
  induction l as [|m l IH]; intros c H; cbn [add_items]; [eauto|]. apply Forall_cons_iff in H as [H1 H2].
  destruct (find_key (lit "name") m); [auto|contradiction].
Qed.
Lemma add_items_all l : forall c c', add_items l c = Some c' -> Forall (fun m => find_key (lit "name") m <> None) l.
Proof.
  induction l as [|m l IH]; intros c c' H; cbn [add_items] in H; constructor; destruct (find_key (lit "name") m); try discriminate; eauto.
Qed.

(** ** Reading maps *)
Lemma find_assign k k' v m : find_key k (assign k' v m) = if text_eqb k k' then Some v else find_key k m.
Proof.
  induction m as [|[a b] m IH]; cbn [assign find_key]; [reflexivity|].
  destruct (text_eqb k' a) eqn:E; cbn [find_key].
  - apply text_eqb_iff in E as <-. now destruct (text_eqb k k').
  - rewrite IH. destruct (text_eqb k a) eqn:F, (text_eqb k k') eqn:G; auto.
    apply text_eqb_iff in F as <-. apply text_eqb_iff in G as <-. now rewrite text_eqb_same in E.
Qed.
(** the value of the last entry with this key *)
Definition last_entry (k : text) (kvs : list (text * node)) (v : node) : Prop :=
  exists a b, kvs = a ++ (k, v) :: b /\ ~ In k (map fst b).
Lemma read_map_spec asserts k kvs : forall m m', read_map asserts kvs m = Some m' ->
  Forall (fun e => read_val asserts (snd e) <> None) kvs
  /\ ((exists v t, last_entry k kvs v /\ read_val asserts v = Some t /\ find_key k m' = Some t)
      \/ (~ In k (map fst kvs) /\ find_key k m' = find_key k m)).
Proof.
  induction kvs as [|[k1 v1] kvs IH]; intros m m' H; cbn [read_map] in H.
  - injection H as <-. split; [constructor|]. right. split; auto.
  - destruct (read_val asserts v1) as [t1|] eqn:R; [|discriminate]. destruct (IH _ _ H) as [F D]. split.
    + constructor; auto. cbn. congruence.
    + destruct D as [(v & t & (a & b & -> & N) & E1 & E2)|[N E]].
      * left. exists v, t. split; auto. exists ((k1, v1) :: a), b. auto.
      * rewrite find_assign in E. destruct (text_eqb k k1) eqn:Q.
        -- apply text_eqb_iff in Q as <-. left. exists v1, t1. split; auto. exists [], kvs. auto.
        -- right. split; auto. cbn. intros [<-|I]; [now rewrite text_eqb_same in Q|auto].
Qed.
Lemma read_map_some asserts kvs : forall m, Forall (fun e => read_val asserts (snd e) <> None) kvs -> exists m', read_map asserts kvs m = Some m'.
Proof.
  induction kvs as [|[k v] kvs IH]; intros m H; cbn [read_map]; [eauto|]. apply Forall_cons_iff in H as [H1 H2]. cbn in H1.
  destruct (read_val asserts v); [auto|contradiction].
Qed.
Lemma last_in k kvs v : last_entry k kvs v -> In k (map fst kvs).
Proof. intros (a & b & -> & _). rewrite map_app, in_app_iff. cbn. auto. Qed.
Lemma last_unique k kvs v w : last_entry k kvs v -> last_entry k kvs w -> v = w.
Proof.
  intros (a & b & -> & N). revert N. induction a as [|[k1 v1] a IH]; intros N (a' & b' & E & N').
  - destruct a' as [|[k1 v1] a']; cbn in E; [congruence|]. injection E as <- <- ->. destruct N. rewrite map_app, in_app_iff. cbn. auto.
  - destruct a' as [|[k2 v2] a']; cbn in E.
    + injection E as -> -> <-. destruct N'. rewrite map_app, in_app_iff. cbn. auto.
    + injection E as _ _ E. apply IH; auto. exists a', b'. auto.
Qed.
Lemma has_last k kvs : In k (map fst kvs) -> exists v, last_entry k kvs v.
Proof.
  induction kvs as [|[k1 v1] kvs IH]; cbn; [intros []|]. intros H. destruct (in_dec (list_eq_dec N.eq_dec) k (map fst kvs)) as [I|I].
  - destruct (IH I) as (v & a & b & -> & N). exists v, ((k1, v1) :: a), b. auto.
  - destruct H as [->|H]; [|contradiction]. exists v1, [], kvs. auto.
Qed.

Lemma read_seq_spec asserts l : forall r, read_seq asserts l = Some r ->
  Forall2 (fun n m => exists kvs, n = Map kvs /\ read_map asserts kvs [] = Some m) l r.
Proof.
  induction l as [|n l IH]; intros r H; cbn [read_seq] in H; [injection H as <-; constructor|].
  destruct n as [t| |q|kvs]; try discriminate. destruct (read_map asserts kvs []) as [m|] eqn:M; [|discriminate].
  destruct (read_seq asserts l) as [r'|] eqn:R; [|discriminate]. injection H as <-. constructor; eauto.
Qed.
Lemma read_seq_some asserts l r : Forall2 (fun n m => exists kvs, n = Map kvs /\ read_map asserts kvs [] = Some m) l r -> read_seq asserts l = Some r.
Proof. induction 1 as [|n m l r (kvs & -> & M) _ IH]; cbn [read_seq]; [reflexivity|]. now rewrite M, IH. Qed.
Lemma seq_maps asserts l r : read_seq asserts l = Some r -> forallb is_map l = true.
Proof.
  intros H. apply read_seq_spec in H. apply forallb_forall. intros n I. induction H as [|n' m l r (kvs & -> & _) _ IH]; [destruct I|].
  destruct I as [<-|I]; auto.
Qed.
Lemma parse_inv asserts n c : parse asserts (Some n) = Some c -> exists l r c', n = Seq l /\
  Forall2 (fun n m => exists kvs, n = Map kvs /\ read_map asserts kvs [] = Some m) l r /\ add_items r empty = Some c' /\ c = update_cache c'.
Proof.
  cbn [parse]. unfold parse_tree. destruct n as [t| |l|kvs]; try discriminate.
  destruct (forallb is_map l); [|discriminate]. destruct (read_seq asserts l) as [r|] eqn:R; [|discriminate].
  destruct (add_items r empty) as [c'|] eqn:A; [|discriminate]. intros H. injection H as <-. exists l, r, c'. auto using read_seq_spec.
Qed.

(** ** Reading the text back: JSON without white space, [strict] as in TextSpec.v *)
Definition eat (c : N) (s : text) : option text := match s with x :: r => if x =? c then Some r else None | [] => None end.
(** a string *)
Definition r_string (s : text) : option (text * text) :=
  match eat 34 s with Some s => read_string true s | None => None end.
(** the members of an object after the brace: name and value, both strings *)
Fixpoint r_members (f : nat) (s : text) : option (list (text * node) * text) :=
  match f with
  | O => None
  | S f =>
    match r_string s with
    | None => None
    | Some (k, s) =>
      match eat 58 s with
      | None => None
      | Some s =>
        match r_string s with
        | None => None
        | Some (v, s) =>
          match eat 125 s with
          | Some s => Some ([(k, Val v)], s)
          | None => match eat 44 s with
                    | None => None
                    | Some s => match r_members f s with Some (l, s) => Some ((k, Val v) :: l, s) | None => None end
                    end
          end
        end
      end
    end
  end.
(** the elements of an array after the bracket: objects *)
Fixpoint r_objects (f : nat) (s : text) : option (list node) :=
  match f with
  | O => None
  | S f =>
    match eat 123 s with
    | None => None
    | Some s =>
      match r_members (S f) s with
      | None => None
      | Some (m, s) =>
        match eat 93 s with
        | Some [] => Some [Map m]
        | Some _ => None
        | None => match eat 44 s with
                  | None => None
                  | Some s => match r_objects f s with Some l => Some (Map m :: l) | None => None end
                  end
        end
      end
    end
  end.
Definition r_json (s : text) : option node :=
  match eat 91 s with Some s => option_map Seq (r_objects (List.length s) s) | None => None end.

Definition printable_text (x : text) : Prop := Forall (fun c => 32 <= c) x.
Definition esc (c : N) : text := if (c =? 34) || (c =? 92) then [92; c] else [c].
Lemma read_esc x rest : printable_text x -> read_string true (flat_map esc x ++ 34 :: rest) = Some (x, rest).
Proof.
  induction 1 as [|c x H _ IH]; cbn [flat_map app]; [reflexivity|]. unfold esc at 1.
  destruct (N.eqb_spec c 34) as [->|N1]; cbn [orb app].
  - cbn [read_string]. change (92 =? 34) with false. change (92 =? 92) with true. change (json_escape 34) with (Some 34). cbv iota. now rewrite IH.
  - destruct (N.eqb_spec c 92) as [->|N2]; cbn [app].
    + cbn [read_string]. change (92 =? 34) with false. change (92 =? 92) with true. change (json_escape 92) with (Some 92). cbv iota. now rewrite IH.
    + cbn [read_string]. apply N.eqb_neq in N1, N2. rewrite N1, N2. replace (c <? 32) with false by (symmetry; apply N.ltb_ge; exact H). cbn [andb]. now rewrite IH.
Qed.
Lemma r_quote x rest : printable_text x -> r_string (quote x ++ rest) = Some (x, rest).
Proof.
  intros H. unfold r_string, quote. cbn [app eat]. rewrite N.eqb_refl, <- app_assoc. cbn [app].
  exact (read_esc x rest H).
Qed.
Lemma name_printable : printable_text (lit "name").
Proof. apply Forall_forall. intros c I. apply N.leb_le. revert c I. apply forallb_forall. reflexivity. Qed.
Lemma r_item f x rest : printable_text x ->
  match eat 123 (item_text x ++ rest) with Some s => r_members (S f) s | None => None end = Some ([(lit "name", Val x)], rest).
Proof.
  intros H. unfold item_text. rewrite <- !app_assoc.
  change (lit "{""name"":" ++ quote x ++ lit "}" ++ rest) with (123 :: (quote (lit "name") ++ 58 :: quote x ++ 125 :: rest)).
  cbn [eat]. rewrite N.eqb_refl. cbn [r_members]. rewrite r_quote by exact name_printable.
  cbn [eat]. rewrite N.eqb_refl. rewrite r_quote by exact H. cbn [eat]. rewrite N.eqb_refl. reflexivity.
Qed.
Definition item_node (x : text) : node := Map [(lit "name", Val x)].
Lemma r_objects_text l : forall f x, printable_text x -> Forall printable_text l -> (List.length l < f)%nat ->
  r_objects f (item_text x ++ items_text false l ++ [93]) = Some (map item_node (x :: l)).
Proof.
  induction l as [|y l IH]; intros f x H F L; (destruct f as [|f]; [lia|]); cbn [r_objects].
  - pose proof (r_item f x ([] ++ [93]) H) as R. cbn [items_text].
    destruct (eat 123 (item_text x ++ [] ++ [93])) as [s|]; [|discriminate]. rewrite R. reflexivity.
  - apply Forall_cons_iff in F as [F1 F2].
    pose proof (r_item f x (items_text false (y :: l) ++ [93]) H) as R.
    destruct (eat 123 (item_text x ++ items_text false (y :: l) ++ [93])) as [s|]; [|discriminate]. rewrite R.
    cbn [items_text]. change (lit ",") with [44]. rewrite <- !app_assoc. cbn [app eat].
    change (44 =? 93) with false. change (44 =? 44) with true. cbv iota. rewrite (IH f y F1 F2) by (cbn in L; lia). reflexivity.
Qed.
Lemma items_length l : (List.length l <= List.length (items_text false l))%nat.
Proof. induction l as [|x l IH]; cbn [items_text List.length]; [lia|]. rewrite !app_length. change (List.length (lit ",")) with 1%nat. lia. Qed.
Lemma r_json_text l : l <> [] -> Forall printable_text l -> r_json (to_text l) = Some (Seq (map item_node l)).
Proof.
  intros N F. destruct l as [|x l]; [contradiction|]. apply Forall_cons_iff in F as [F1 F2].
  unfold to_text, r_json. change (lit "[") with [91]. change (lit "]") with [93]. cbn [app eat]. rewrite N.eqb_refl.
  cbn [items_text app]. rewrite <- app_assoc. rewrite r_objects_text; auto.
  rewrite !app_length. pose proof (items_length l). cbn [List.length]. lia.
Qed.
(** a control character leaves the text unreadable *)
Lemma read_esc_control x : forall rest, ~ printable_text x -> read_string true (flat_map esc x ++ 34 :: rest) = None.
Proof.
  induction x as [|c x IH]; intros rest H; [destruct H; constructor|]. cbn [flat_map]. unfold esc at 1.
  destruct (N.lt_ge_cases c 32) as [C|C].
  - replace (c =? 34) with false by (symmetry; apply N.eqb_neq; lia). replace (c =? 92) with false by (symmetry; apply N.eqb_neq; lia).
    cbn [orb app read_string]. replace (c =? 34) with false by (symmetry; apply N.eqb_neq; lia). replace (c =? 92) with false by (symmetry; apply N.eqb_neq; lia).
    now apply N.ltb_lt in C as ->.
  - assert (X : ~ printable_text x) by (intros X; apply H; constructor; auto).
    destruct (N.eqb_spec c 34) as [->|N1]; [cbn; now rewrite IH|]. destruct (N.eqb_spec c 92) as [->|N2]; [cbn; now rewrite IH|].
    cbn [orb app read_string]. apply N.eqb_neq in N1, N2. rewrite N1, N2. replace (c <? 32) with false by (symmetry; apply N.ltb_ge; exact C). cbn [andb]. now rewrite IH.
Qed.

Lemma parse_items asserts l c : parse asserts (Some (Seq (map item_node l))) = Some c -> forall x, In x (k_names c) <-> In x l.
Proof.
  intros H x. apply parse_inv in H as (l' & r & c' & E & F & A & ->). injection E as <-. cbn.
  destruct (add_items_spec _ _ _ A) as (B & _ & _). rewrite B. cbn. clear - F.
  split.
  - intros [[]|(m & I & K)]. revert r F I. induction l as [|y l IH]; intros r F I; inversion F as [|? m' ? r' (kvs & E & R) F' Q]; subst; [destruct I|].
    injection E as <-. cbn in R. injection R as <-. destruct I as [<-|I]; [left; cbn in K; congruence|right; eauto].
  - intros I. right. revert r F. induction l as [|y l IH]; intros r F; [destruct I|]. inversion F as [|? m' ? r' (kvs & E & R) F' Q]; subst.
    injection E as <-. cbn in R. injection R as <-. destruct I as [<-|I]; [eexists; split; [now left|reflexivity]|].
    destruct (IH I r' F') as (m & J & K). exists m. split; auto. now right.
Qed.
Lemma parse_items_some asserts l : exists c, parse asserts (Some (Seq (map item_node l))) = Some c.
Proof.
  assert (F : read_seq asserts (map item_node l) = Some (map (fun x => [(lit "name", x)]) l)).
  { apply read_seq_some. induction l; cbn; constructor; auto. eexists. split; [reflexivity|]. reflexivity. }
  cbn [parse]. unfold parse_tree. rewrite (seq_maps _ _ _ F), F.
  destruct (add_items_some (map (fun x => [(lit "name", x)]) l) empty) as (c' & ->); [|eauto].
  apply Forall_forall. intros m I. apply in_map_iff in I as (x & <- & _). discriminate.
Qed.
