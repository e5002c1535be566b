(** C89: capabilities.  Model: CapsModel.v. *)
From Coq Require Import String Ascii NArith List Arith Bool Lia Permutation.
From Verif Require Import Base TextModel TextSpec CapsModel CapsProofs.
Import ListNotations.
Open Scope N_scope.
Open Scope list_scope.

(** ** C89 *)

(** What was added is contained, without repetition, and the two flags that are consulted for each
    message say what the set says. *)
Theorem C89_added : forall l,
  let c := fold_left (fun c x => add x c) l empty in
  (forall x, has x c = true <-> In x l) /\ NoDup (k_names c)
  /\ (k_proxy c = true <-> In n_proxy l) /\ (k_request c = true <-> In n_request l).
Proof.
  intros l c.
  assert (K : forall l c0, (forall x, In x (k_names (fold_left (fun c x => add x c) l c0)) <-> In x l \/ In x (k_names c0))
    /\ (NoDup (k_names c0) -> NoDup (k_names (fold_left (fun c x => add x c) l c0))) /\ (cached c0 -> cached (fold_left (fun c x => add x c) l c0))).
  { clear. induction l as [|y l IH]; intros c0; cbn [fold_left]; [split; [intros x; cbn; tauto|auto]|].
    destruct (IH (add y c0)) as (A & B & C). split; [|split].
    - intros x. rewrite A, add_in. cbn. intuition congruence.
    - intros N. apply B, add_nodup, N.
    - intros _. apply C, add_cached. }
  destruct (K l empty) as (A & B & C). fold c in A, B, C.
  assert (I : forall x, In x (k_names c) <-> In x l) by (intros x; rewrite A; cbn; tauto).
  destruct C as [C1 C2]; [split; split; cbn; try tauto; discriminate|].
  split; [intros x; rewrite has_in; apply I|]. split; [apply B; constructor|]. now rewrite C1, C2, !I.
Qed.
Print Assumptions C89_added.
Example C89_added_example :
  let c := fold_left (fun c x => add x c) [lit "a"; n_proxy; lit "a"] empty in
  k_names c = [lit "a"; n_proxy] /\ k_proxy c = true /\ k_request c = false.
Proof. vm_compute. auto. Qed.

(** The tree is accepted if it is a sequence of maps, all values of which are scalars and which have a
    name; the capabilities are the names; other members and unknown names do not matter.  If a name is given
    twice, the last one counts. *)
Theorem C89_parsed : forall items,
  Forall (fun n => exists kvs, n = Map kvs /\ In (lit "name") (map fst kvs) /\ Forall (fun e => exists t, snd e = Val t) kvs) items ->
  exists c, (forall asserts, parse asserts (Some (Seq items)) = Some c)
  /\ forall x, has x c = true <->
       exists kvs a b, In (Map kvs) items /\ kvs = a ++ (lit "name", Val x) :: b /\ ~ In (lit "name") (map fst b).
Proof.
  intros items H.
  assert (K : forall asserts, exists r, Forall2 (fun n m => exists kvs, n = Map kvs /\ read_map asserts kvs [] = Some m) items r
     /\ Forall (fun m => find_key (lit "name") m <> None) r).
  { intros asserts. induction H as [|n l (kvs & -> & I & V) _ (r & F & G)]; [exists []; auto|].
    destruct (read_map_some asserts kvs []) as (m & M).
    { eapply Forall_impl; [|exact V]. intros e (t & ->). discriminate. }
    exists (m :: r). split; constructor; eauto.
    destruct (read_map_spec asserts (lit "name") kvs [] m M) as [_ [(v & t & _ & _ & ->)|[N _]]]; [discriminate|contradiction]. }
  assert (P : forall asserts, exists c, parse asserts (Some (Seq items)) = Some c).
  { intros asserts. destruct (K asserts) as (r & F & G). apply read_seq_some in F. cbn [parse]. unfold parse_tree.
    rewrite (seq_maps _ _ _ F), F. destruct (add_items_some r empty G) as (c & ->). eauto. }
  assert (E : forall l, Forall (fun e : text * node => exists t, snd e = Val t) l -> forall m, read_map true l m = read_map false l m).
  { clear. induction l as [|[k v] l IH]; intros F m; cbn [read_map]; auto. apply Forall_cons_iff in F as [(t & V) F]. cbn in V. subst v. cbn. auto. }
  assert (S : parse true (Some (Seq items)) = parse false (Some (Seq items))).
  { cbn [parse]. unfold parse_tree. destruct (forallb is_map items); auto.
    assert (X : read_seq true items = read_seq false items); [|now rewrite X].
    clear - H E. induction H as [|n l (kvs & -> & _ & V) _ IH]; cbn [read_seq]; auto. now rewrite (E kvs V), IH. }
  destruct (P true) as (c & C). exists c. split; [intros []; congruence|].
  intros x. rewrite has_in. apply parse_inv in C as (l & r & c' & Q & F & A & ->). injection Q as <-. cbn [update_cache k_names].
  destruct (add_items_spec _ _ _ A) as (B & _ & _). rewrite B. cbn [empty k_names]. split.
  - intros [[]|(m & I & N)]. clear - F H I N. revert H. induction F as [|n m' l r (kvs & -> & M) F IH]; intros H; [destruct I|].
    apply Forall_cons_iff in H as [(kvs' & Q & _ & V) H]. injection Q as <-. destruct I as [->|I].
    + destruct (read_map_spec true (lit "name") kvs [] m M) as [_ [(v & t & (a & b & -> & Z) & R & E)|[_ E]]].
      * exists (a ++ (lit "name", v) :: b), a, b. split; [now left|]. split; auto.
        destruct v; cbn in R; try discriminate. congruence.
      * rewrite E in N. discriminate N.
    + destruct (IH I H) as (kv & a & b & J & R). exists kv, a, b. split; auto. now right.
  - intros (kvs & a & b & I & Q & Z). right. clear - F I Q Z. induction F as [|n m l r (kvs' & -> & M) F IH]; [destruct I|].
    destruct I as [E|I].
    + injection E as ->. exists m. split; [now left|].
      destruct (read_map_spec true (lit "name") kvs [] m M) as [_ [(v & t & L & R & E)|[N _]]].
      * assert (v = Val x) by (eapply last_unique; [exact L|exists a, b; auto]). subst v. cbn in R. congruence.
      * destruct N. subst kvs. rewrite map_app, in_app_iff. cbn. auto.
    + destruct (IH I) as (m' & J & R). exists m'. split; auto. now right.
Qed.
Print Assumptions C89_parsed.
Example C89_parsed_example :
  match parse true (Some (Seq [Map [(lit "name", Val (lit "x")); (lit "a", Val (lit "b")); (lit "name", Val n_proxy)]; Map [(lit "name", Val (lit "y"))]])) with
  | Some c => k_names c = [n_proxy; lit "y"] /\ k_proxy c = true /\ k_request c = false
  | None => False
  end.
Proof. vm_compute. auto. Qed.

(** Everything else is refused, in builds with assertions. *)
Theorem C89_refused : forall n c, parse true (Some n) = Some c ->
  exists items, n = Seq items
  /\ Forall (fun n => exists kvs, n = Map kvs /\ In (lit "name") (map fst kvs) /\ Forall (fun e => exists t, snd e = Val t) kvs) items.
Proof.
  intros n c H. apply parse_inv in H as (l & r & c' & -> & F & A & _). exists l. split; auto.
  apply add_items_all in A. induction F as [|n m l r (kvs & -> & M) F IH]; [constructor|]. apply Forall_cons_iff in A as [A1 A2].
  constructor; auto. exists kvs. destruct (read_map_spec true (lit "name") kvs [] m M) as [V D]. split; auto. split.
  - destruct D as [(v & t & L & _ & _)|[_ E]]; [now apply last_in in L|]. destruct A1. exact E.
  - eapply Forall_impl; [|exact V]. intros [k v] X. cbn in X |- *. destruct v; try (now destruct X); eauto.
Qed.
Print Assumptions C89_refused.
Example C89_refused_example :
  parse true (Some (Seq [Map [(lit "name", Val (lit "x"))]; Map []])) = None
  /\ parse true (Some (Seq [Val (lit "x")])) = None /\ parse true (Some (Val (lit "x"))) = None.
Proof. vm_compute. auto. Qed.

(** The flags of parsed capabilities say what the set says. *)
Theorem C89_parsed_flags : forall asserts n c, parse asserts n = Some c ->
  NoDup (k_names c) /\ (k_proxy c = true <-> has (lit "proxy-message") c = true)
  /\ (k_request c = true <-> has (lit "request-participant-connection-v2") c = true).
Proof.
  intros asserts [n|] c H.
  - apply parse_inv in H as (l & r & c' & _ & _ & A & ->). destruct (add_items_spec _ _ _ A) as (_ & B & _).
    split; [apply B; constructor|]. rewrite !has_in. apply update_cached.
  - injection H as <-. split; [constructor|]. split; split; discriminate.
Qed.
Print Assumptions C89_parsed_flags.
Example C89_parsed_flags_example :
  match parse false (Some (Seq [Map [(lit "name", Val (lit "request-participant-connection"))]])) with
  | Some c => k_request c = false /\ count c = 1%nat | None => False end.
Proof. vm_compute. auto. Qed.

(** The text is a JSON array of objects with the names, in the order of the set. *)
Theorem C89_text_is_json : forall l, l <> [] -> Forall (fun x => Forall (fun c => 32 <= c) x) l ->
  r_json (to_text l) = Some (Seq (map (fun x => Map [(lit "name", Val x)]) l)).
Proof. exact r_json_text. Qed.
Print Assumptions C89_text_is_json.
Example C89_text_is_json_example :
  to_text [lit "a""b"; lit "c"] = lit "[{""name"":""a\""b""},{""name"":""c""}]"
  /\ r_json (to_text [lit "a""b"; lit "c"]) = Some (Seq [Map [(lit "name", Val (lit "a""b"))]; Map [(lit "name", Val (lit "c"))]]).
Proof. vm_compute. auto. Qed.

(** Hence, whatever the order in which the set is iterated, a reader of JSON that is given the text gets
    the same capabilities, with the same flags. *)
Theorem C89_text_read_back : forall asserts c l,
  (k_proxy c = true <-> has n_proxy c = true) -> (k_request c = true <-> has n_request c = true) ->
  Permutation l (k_names c) -> Forall (fun x => Forall (fun c => 32 <= c) x) l ->
  exists c', parse asserts (match to_text l with [] => None | t => r_json t end) = Some c'
  /\ (forall x, has x c' = has x c) /\ k_proxy c' = k_proxy c /\ k_request c' = k_request c.
Proof.
  intros asserts c l P R PM F. destruct l as [|x l].
  - apply Permutation_nil in PM. exists empty. split; [reflexivity|].
    assert (N : forall x, has x c = false) by (intros x; unfold has; now rewrite PM).
    rewrite N in P, R. split; [intros x; now rewrite N|]. split; cbn; [destruct (k_proxy c)|destruct (k_request c)]; intuition discriminate.
  - replace (match to_text (x :: l) with [] => None | t => r_json t end) with (r_json (to_text (x :: l))) by reflexivity.
    rewrite C89_text_is_json by (auto; discriminate). destruct (parse_items_some asserts (x :: l)) as (c' & C). exists c'. split; [exact C|].
    assert (H : forall y, has y c' = has y c).
    { intros y. apply eq_true_iff_eq. rewrite !has_in, (parse_items _ _ _ C). split; apply Permutation_in; [exact PM|now apply Permutation_sym]. }
    split; [exact H|]. destruct (C89_parsed_flags _ _ _ C) as (_ & P' & R').
    split; apply eq_true_iff_eq; [rewrite P', P|rewrite R', R]; now rewrite <- H.
Qed.
Print Assumptions C89_text_read_back.
Example C89_text_read_back_example :
  let c := of_config true true in
  Permutation (rev (k_names c)) (k_names c) /\ Forall (fun x => Forall (fun c => 32 <= c) x) (k_names c)
  /\ to_text (k_names c) <> [].
Proof.
  cbn zeta. split; [symmetry; apply Permutation_rev|]. split; [|vm_compute; discriminate].
  apply Forall_forall. intros x X. apply Forall_forall. intros c C. apply N.leb_le. revert c C. apply forallb_forall.
  revert x X. apply (forallb_forall (fun x => forallb (fun c => 32 <=? c) x)). vm_compute. reflexivity.
Qed.

(** So a peer sees exactly the capabilities that are switched on in the configuration, which are those that
    the exchange of C88 starts from. *)
Theorem C89_configuration : forall asserts proxy request l,
  Permutation l (k_names (of_config proxy request)) ->
  exists c', parse asserts (r_json (to_text l)) = Some c'
  /\ k_proxy c' = proxy /\ k_request c' = request /\ has n_autonomous c' = true.
Proof.
  intros asserts p r l PM.
  assert (N : l <> []). { intros ->. apply Permutation_nil in PM. revert PM. destruct p, r; vm_compute; discriminate. }
  destruct (C89_text_read_back asserts (of_config p r) l) as (c' & C & H & P & R); auto.
  - destruct p, r; vm_compute; tauto.
  - destruct p, r; vm_compute; tauto.
  - apply (Permutation_Forall (Permutation_sym PM)).
    apply Forall_forall. intros x X. apply Forall_forall. intros c I. apply N.leb_le. revert c I. apply forallb_forall.
    revert x X. apply (forallb_forall (fun x => forallb (fun c => 32 <=? c) x)). destruct p, r; vm_compute; reflexivity.
  - exists c'. destruct l as [|x l]; [contradiction|]. split; [exact C|]. rewrite H, P, R. destruct p, r; vm_compute; auto.
Qed.
Print Assumptions C89_configuration.
Example C89_configuration_example :
  to_text (k_names (of_config true false)) = lit "[{""name"":""autonomous-synchronous""},{""name"":""proxy-message""}]".
Proof. vm_compute. reflexivity. Qed.

(** "Every name can be sent": refuted; control characters are not escaped, so that the text is not JSON. *)
Theorem C89_every_name_refuted : forall x, ~ Forall (fun c => 32 <= c) x -> r_json (to_text [x]) = None.
Proof.
  intros x H. unfold to_text, r_json. change (lit "[") with [91]. change (lit "]") with [93]. cbn [app eat]. rewrite N.eqb_refl.
  cbn [items_text app]. rewrite app_nil_r. unfold item_text. rewrite <- app_assoc.
  change (lit "{""name"":" ++ (quote x ++ lit "}") ++ [93]) with (123 :: quote (lit "name") ++ 58 :: (quote x ++ [125]) ++ [93]).
  cbn [List.length r_objects eat]. rewrite N.eqb_refl. cbn [r_members]. rewrite r_quote by exact name_printable.
  cbn [eat]. rewrite N.eqb_refl. rewrite <- app_assoc. unfold quote, r_string. cbn [app eat]. rewrite N.eqb_refl, <- app_assoc. cbn [app].
  change (flat_map (fun c => if (c =? 34) || (c =? 92) then [92; c] else [c]) x) with (flat_map esc x). now rewrite read_esc_control.
Qed.
Print Assumptions C89_every_name_refuted.
Example C89_every_name_refuted_example : ~ Forall (fun c => 32 <= c) [97; 10].
Proof. intros H. apply Forall_cons_iff in H as [_ H]. apply Forall_cons_iff in H as [H _]. lia. Qed.
(** "A name must be a scalar": refuted; without the assertions of rapidyaml a name that is a sequence or a map
    is read as the empty one. *)
Theorem C89_scalar_refuted : forall l, exists c,
  parse false (Some (Seq [Map [(lit "name", Seq l)]])) = Some c /\ has [] c = true /\ parse true (Some (Seq [Map [(lit "name", Seq l)]])) = None.
Proof. intros l. eexists. split; [reflexivity|]. split; reflexivity. Qed.
Print Assumptions C89_scalar_refuted.
(** "Other members are ignored": refuted; one without a value makes all capabilities unreadable. *)
Theorem C89_other_members_refuted : forall asserts x k, parse asserts (Some (Seq [Map [(lit "name", Val x); (k, Nil)]])) = None.
Proof. intros asserts x k. reflexivity. Qed.
Print Assumptions C89_other_members_refuted.
