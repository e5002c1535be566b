(** Proofs about return codes, identifiers of structs, the checks of parameters, the
    handlers owned by the C++ layer. *)
From Coq Require Import String Ascii List ZArith NArith Bool Lia.
From Verif Require Import CapiModel CapiSpec CapiProofs.
Import ListNotations.
Open Scope string_scope. Open Scope Z_scope. Open Scope list_scope.

(* ------------------------------------------------------------------ *)
(** * Checks of parameters *)

Definition place := (string * option string)%type.
Definition opt_eqb (a b : option string) : bool :=
  match a, b with None, None => true | Some x, Some y => String.eqb x y | _, _ => false end.
Definition place_eqb (a b : place) : bool := String.eqb (fst a) (fst b) && opt_eqb (snd a) (snd b).
Definition knows (k : list place) (x : place) : bool := existsb (place_eqb x) k.

Lemma place_eqb_eq : forall a b, place_eqb a b = true <-> a = b.
Proof.
  intros [p f] [q g]. unfold place_eqb. cbn [fst snd]. rewrite andb_true_iff, String.eqb_eq. split.
  - intros [-> H]. destruct f, g; cbn in H; try discriminate; [apply String.eqb_eq in H; subst|]; reflexivity.
  - intros E. injection E as -> ->. split; [reflexivity|]. destruct g; cbn; [apply String.eqb_refl|reflexivity].
Qed.
Lemma knows_In : forall k x, knows k x = true <-> In x k.
Proof.
  intros k x. unfold knows. rewrite existsb_exists. split.
  - intros (y & I & E). apply place_eqb_eq in E. subst. exact I.
  - intros I. exists x. split; [exact I|]. apply place_eqb_eq. reflexivity.
Qed.

(* can the check be evaluated, when the places in [k] are not null? *)
Definition evaluable (ps : list (string * kind)) (k : list place) (p : string) (f : option string) : bool :=
  match get ps p, f with
  | Some _, None => true
  | Some (KStruct s), Some g => knows k (p, None) && match member s g with Some true => true | _ => false end
  | _, _ => false
  end.

Definition check_ok (ps : list (string * kind)) (k : list place) (c : check) : option (list place) :=
  match c with
  | CkPointer p f | CkOut p f | CkHandler p f =>
      if evaluable ps k p f then Some ((p, f) :: k) else None
  | CkBool p None => match get ps p with Some KValue => Some k | _ => None end
  | CkBool p (Some g) =>
      match get ps p with
      | Some (KStruct s) =>
          if knows k (p, None) && match member s g with Some false => true | _ => false end then Some k else None
      | _ => None
      end
  | CkHeader p None | CkPlain p None =>
      match get ps p with
      | Some (KStruct _) | Some KHeader => if knows k (p, None) then Some k else None
      | _ => None
      end
  | CkHeader p (Some g) | CkPlain p (Some g) =>
      match get ps p with
      | Some (KStruct s) =>
          if knows k (p, Some g) && knows k (p, None) && match member s g with Some true => true | _ => false end
             && String.eqb s "SilKit_FlexrayControllerConfig"
          then Some k else None
      | _ => None
      end
  end.

Fixpoint checks_ok (ps : list (string * kind)) (k : list place) (cs : list check) : option (list place) :=
  match cs with
  | [] => Some k
  | c :: r => match check_ok ps k c with Some k' => checks_ok ps k' r | None => None end
  end.

Definition covered (f : capi_function) : bool :=
  match checks_ok (fn_params f) [] (fn_checks f) with
  | Some k => forallb (knows k) (needs f)
  | None => false
  end.

(* not null *)
Definition there (a : args) (x : place) : Prop :=
  exists v, eval_arg a (fst x) (snd x) = Some v /\ v <> ANull.

Lemma there_not_null : forall a x, there a x -> is_null a x = false.
Proof. intros a x (v & E & N). unfold is_null. rewrite E. destruct v; congruence. Qed.

Lemma args_get : forall f a p k, args_ok f a -> get (fn_params f) p = Some k -> exists v, get a p = Some v /\ arg_ok k v.
Proof. intros f a p k H G. apply (H p k). apply get_In. exact G. Qed.

Lemma eval_none : forall a p v, eval_arg a p None = Some v -> get a p = Some v.
Proof. unfold eval_arg. intros a p v H. destruct (get a p) as [[]|]; [..|discriminate]; exact H. Qed.

Lemma struct_there : forall f a p s, args_ok f a -> get (fn_params f) p = Some (KStruct s) -> there a (p, None) ->
  exists h fs, get a p = Some (AStruct h fs) /\
    forall g b, member s g = Some b -> exists x, get fs g = Some x /\ member_ok s g x.
Proof.
  intros f a p s H G (v & E & N). destruct (args_get _ _ _ _ H G) as (w & W & K). cbn [fst snd] in E. apply eval_none in E. rewrite W in E. injection E as ->.
  destruct K as [->|(h & fs & -> & K)]; [congruence|]. exists h, fs. auto.
Qed.

Lemma evaluable_ok : forall f a k p g, args_ok f a -> (forall x, In x k -> there a x) ->
  evaluable (fn_params f) k p g = true -> exists v, eval_arg a p g = Some v.
Proof.
  intros f a k p g H HK E. unfold evaluable in E.
  destruct (get (fn_params f) p) as [kd|] eqn:G; [|discriminate].
  destruct g as [g|].
  - destruct kd as [s| | | | | | | |]; try discriminate. apply andb_true_iff in E. destruct E as [E1 E2].
    apply knows_In in E1. destruct (struct_there _ _ _ _ H G (HK _ E1)) as (h & fs & A & M).
    destruct (member s g) as [[]|] eqn:MM; try discriminate. destruct (M _ _ MM) as (x & X & _).
    exists x. unfold eval_arg. rewrite A. exact X.
  - destruct (args_get _ _ _ _ H G) as (v & V & _). exists v. unfold eval_arg. rewrite V. destruct v; reflexivity.
Qed.

Lemma check_ok_run : forall f a k c k', args_ok f a -> (forall x, In x k -> there a x) ->
  check_ok (fn_params f) k c = Some k' ->
  (run_check a c = None /\ forall x, In x k' -> there a x) \/ (exists m, run_check a c = Some (Some m)).
Proof.
  intros f a k c k' H HK C.
  assert (P : forall p g (m : string),
    (if evaluable (fn_params f) k p g then Some ((p, g) :: k) else None) = Some k' ->
    let r := match eval_arg a p g with Some ANull => Some (Some m) | Some _ => None | None => Some None end in
    (r = None /\ forall x, In x k' -> there a x) \/ (exists m, r = Some (Some m))).
  { intros p g m Q. destruct (evaluable _ _ _ _) eqn:E; [|discriminate]. injection Q as <-.
    destruct (evaluable_ok _ _ _ _ _ H HK E) as (v & V). cbv zeta. rewrite V.
    destruct v; [right; eauto| | |]; left; (split; [reflexivity|]); intros x [<-|I]; try (apply HK; exact I);
      (eexists; split; [exact V|congruence]). }
  destruct c as [p g|p g|p g|p g|p g|p g]; cbn [check_ok] in C; cbn [run_check].
  - apply (P p g _ C).
  - apply (P p g _ C).
  - apply (P p g _ C).
  - destruct g as [g|].
    + destruct (get (fn_params f) p) as [[s| | | | | | | |]|] eqn:G; try discriminate.
      destruct (knows k (p, None) && _) eqn:E; [|discriminate]. injection C as <-.
      apply andb_true_iff in E. destruct E as [E1 E2]. apply knows_In in E1.
      destruct (struct_there _ _ _ _ H G (HK _ E1)) as (h & fs & A & M).
      destruct (member s g) as [[]|] eqn:MM; try discriminate. destruct (M _ _ MM) as (x & X & O).
      unfold member_ok in O. rewrite MM in O. destruct O as [z ->].
      unfold eval_arg. rewrite A, X. destruct ((z =? 1) || (z =? 0)); [left; split; [reflexivity|exact HK]|right; eauto].
    + destruct (get (fn_params f) p) as [[s| | | | | | | |]|] eqn:G; try discriminate. injection C as <-.
      destruct (args_get _ _ _ _ H G) as (v & V & z & ->). unfold eval_arg. rewrite V.
      destruct ((z =? 1) || (z =? 0)); [left; split; [reflexivity|exact HK]|right; eauto].
  - destruct g as [g|].
    + destruct (get (fn_params f) p) as [[s| | | | | | | |]|] eqn:G; try discriminate.
      destruct (knows k (p, Some g) && knows k (p, None) && _ && _) eqn:E; [|discriminate]. injection C as <-.
      apply andb_true_iff in E. destruct E as [E E4]. apply andb_true_iff in E. destruct E as [E E3].
      apply andb_true_iff in E. destruct E as [E1 E2]. apply knows_In in E1. apply knows_In in E2.
      destruct (struct_there _ _ _ _ H G (HK _ E2)) as (h & fs & A & M).
      destruct (member s g) as [[]|] eqn:MM; try discriminate. destruct (M _ _ MM) as (x & X & O).
      unfold member_ok in O. rewrite MM, E4 in O.
      destruct (HK _ E1) as (v & V & N). unfold eval_arg in V |- *. cbn [fst snd] in V. rewrite A in V |- *. rewrite X in V |- *.
      injection V as ->. destruct O as [->|(h' & ->)]; [congruence|].
      destruct (id_valid h'); [left; split; [reflexivity|exact HK]|right; eauto].
    + destruct (get (fn_params f) p) as [kd|] eqn:G; [|discriminate].
      assert (Q : knows k (p, None) = true /\ k' = k /\ (exists s, kd = KStruct s) \/ knows k (p, None) = true /\ k' = k /\ kd = KHeader).
      { destruct kd; try discriminate; destruct (knows k (p, None)); try discriminate; injection C as <-; eauto. }
      assert (exists h fs, get a p = Some (AStruct h fs)) as (h & fs & A).
      { destruct Q as [(E1 & _ & s & ->)|(E1 & _ & ->)]; apply knows_In in E1.
        - destruct (struct_there _ _ _ _ H G (HK _ E1)) as (h & fs & A & M). eauto.
        - destruct (HK _ E1) as (v & V & N). apply eval_none in V.
          destruct (args_get _ _ _ _ H G) as (w & W & [->|(h & ->)]); cbn [fst] in V; rewrite V in W; injection W as ->; [congruence|eauto]. }
      assert (k' = k) as -> by (destruct Q as [(_ & -> & _)|(_ & -> & _)]; reflexivity).
      unfold eval_arg. rewrite A. destruct (id_valid h); [left; split; [reflexivity|exact HK]|right; eauto].
  - destruct g as [g|].
    + destruct (get (fn_params f) p) as [[s| | | | | | | |]|] eqn:G; try discriminate.
      destruct (knows k (p, Some g) && knows k (p, None) && _ && _) eqn:E; [|discriminate]. injection C as <-.
      apply andb_true_iff in E. destruct E as [E E4]. apply andb_true_iff in E. destruct E as [E E3].
      apply andb_true_iff in E. destruct E as [E1 E2]. apply knows_In in E1. apply knows_In in E2.
      destruct (struct_there _ _ _ _ H G (HK _ E2)) as (h & fs & A & M).
      destruct (member s g) as [[]|] eqn:MM; try discriminate. destruct (M _ _ MM) as (x & X & O).
      unfold member_ok in O. rewrite MM, E4 in O.
      destruct (HK _ E1) as (v & V & N). unfold eval_arg in V |- *. cbn [fst snd] in V. rewrite A in V |- *. rewrite X in V |- *.
      injection V as ->. destruct O as [->|(h' & ->)]; [congruence|].
      destruct (id_valid h'); [left; split; [reflexivity|exact HK]|right; eauto].
    + destruct (get (fn_params f) p) as [kd|] eqn:G; [|discriminate].
      assert (Q : knows k (p, None) = true /\ k' = k /\ (exists s, kd = KStruct s) \/ knows k (p, None) = true /\ k' = k /\ kd = KHeader).
      { destruct kd; try discriminate; destruct (knows k (p, None)); try discriminate; injection C as <-; eauto. }
      assert (exists h fs, get a p = Some (AStruct h fs)) as (h & fs & A).
      { destruct Q as [(E1 & _ & s & ->)|(E1 & _ & ->)]; apply knows_In in E1.
        - destruct (struct_there _ _ _ _ H G (HK _ E1)) as (h & fs & A & M). eauto.
        - destruct (HK _ E1) as (v & V & N). apply eval_none in V.
          destruct (args_get _ _ _ _ H G) as (w & W & [->|(h & ->)]); cbn [fst] in V; rewrite V in W; injection W as ->; [congruence|eauto]. }
      assert (k' = k) as -> by (destruct Q as [(_ & -> & _)|(_ & -> & _)]; reflexivity).
      unfold eval_arg. rewrite A. destruct (id_valid h); [left; split; [reflexivity|exact HK]|right; eauto].
Qed.

Lemma checks_ok_run : forall f a cs k k', args_ok f a -> (forall x, In x k -> there a x) ->
  checks_ok (fn_params f) k cs = Some k' ->
  (run_checks a cs = None /\ forall x, In x k' -> there a x) \/ (exists m, run_checks a cs = Some (Some m)).
Proof.
  induction cs as [|c r IH]; cbn [checks_ok run_checks]; intros k k' H HK C.
  - injection C as <-. left. auto.
  - destruct (check_ok (fn_params f) k c) as [k1|] eqn:E; [|discriminate].
    destruct (check_ok_run _ _ _ _ _ H HK E) as [[R HK1]|[m R]]; rewrite R.
    + apply (IH _ _ H HK1 C).
    + right. eauto.
Qed.

Lemma run_checks_all : forall a cs, run_checks a cs = None <-> forall c, In c cs -> run_check a c = None.
Proof.
  induction cs as [|c r IH]; cbn [run_checks]; split; intros H.
  - intros c [].
  - reflexivity.
  - destruct (run_check a c) eqn:E; [discriminate|]. intros d [<-|I]; [exact E|]. apply IH; assumption.
  - rewrite (H c (or_introl eq_refl)). apply IH. intros d I. apply H. right. exact I.
Qed.

(* a covered function: either every check passes and what it follows is there, or BADPARAMETER *)
Lemma covered_call : forall f a i last, covered f = true -> args_ok f a ->
  (run_checks a (fn_checks f) = None /\ existsb (is_null a) (needs f) = false) \/
  (exists m, run_checks a (fn_checks f) = Some (Some m) /\ api_call f a i last = Ret BADPARAMETER m false).
Proof.
  intros f a i last C H. unfold covered in C.
  destruct (checks_ok (fn_params f) [] (fn_checks f)) as [k|] eqn:E; [|discriminate].
  destruct (checks_ok_run f a _ [] k H ltac:(intros x []) E) as [[R K]|[m R]].
  - left. split; [exact R|].
    destruct (existsb (is_null a) (needs f)) eqn:X; [|reflexivity].
    apply existsb_exists in X. destruct X as (x & I & N).
    rewrite (there_not_null a x) in N; [discriminate|]. apply K. apply knows_In.
    apply (Forall_forallb _ _ _ x C I).
  - right. exists m. split; [exact R|]. unfold api_call. rewrite R. reflexivity.
Qed.

Definition known_places (f : capi_function) : list place :=
  match checks_ok (fn_params f) [] (fn_checks f) with Some k => k | None => [] end.

(* a place that the checks cover, in any function *)
Lemma place_call : forall f a i last x, knows (known_places f) x = true -> args_ok f a -> is_null a x = true ->
  exists m, api_call f a i last = Ret BADPARAMETER m false.
Proof.
  intros f a i last x K H N. unfold known_places in K. apply knows_In in K.
  destruct (checks_ok (fn_params f) [] (fn_checks f)) as [k|] eqn:E; [|destruct K].
  destruct (checks_ok_run f a _ [] k H ltac:(intros y []) E) as [[R T]|[m R]].
  - rewrite (there_not_null a x (T x K)) in N. discriminate.
  - exists m. unfold api_call. rewrite R. reflexivity.
Qed.

(* ------------------------------------------------------------------ *)
(** * Handlers with their own maps *)

(* the removals of a sequence of operations erase from the list's own map *)
Definition removes_own (c : hclass) (os : list hop) : Prop :=
  forall k id, In (HRemove k id) os -> nth_error c k = Some (Some k).
(* ... or erase nothing *)
Definition removes_own_or_none (c : hclass) (os : list hop) : Prop :=
  forall k id, In (HRemove k id) os -> nth_error c k = Some (Some k) \/ nth_error c k = Some None.

Lemma nlookup_none : forall l k, (forall x, In x l -> fst x <> k) -> nlookup k l = None.
Proof.
  induction l as [|[i v] r IH]; cbn; intros k H; [reflexivity|].
  destruct (Nat.eqb i k) eqn:E.
  - apply Nat.eqb_eq in E. exfalso. apply (H (i, v)); [left; reflexivity|exact E].
  - apply IH. intros x I. apply H. right. exact I.
Qed.

Lemma nth_upd : forall A (l : list A) i j f, nth_error (upd l i f) j =
  if Nat.eqb i j then option_map f (nth_error l j) else nth_error l j.
Proof.
  induction l as [|x r IH]; intros i j f; cbn.
  - destruct (Nat.eqb i j); destruct j; reflexivity.
  - destruct i, j; cbn; try reflexivity. apply IH.
Qed.

(* what holds of a list: ids are below the next one, and every registered handler is owned *)
Definition linv (l : hlist) : Prop :=
  (forall x, In x (hl_inner l) -> In x (hl_owned l)) /\
  (forall x, In x (hl_owned l) -> (fst x < hl_next l)%nat).
Definition lexact (l : hlist) : Prop := hl_owned l = hl_inner l /\ (forall x, In x (hl_owned l) -> (fst x < hl_next l)%nat).

Definition all_lists (P : hlist -> Prop) (s : hstate) : Prop :=
  forall k l, nth_error (hs_lists s) k = Some l -> P l.

Lemma In_nerase : forall id l x, In x (nerase id l) <-> In x l /\ fst x <> id.
Proof.
  intros id l x. unfold nerase. rewrite filter_In. split; intros [A B]; split; try exact A.
  - intros E. rewrite E, Nat.eqb_refl in B. discriminate.
  - destruct (Nat.eqb (fst x) id) eqn:E; [apply Nat.eqb_eq in E; congruence|reflexivity].
Qed.

Lemma add_linv : forall l d, linv l ->
  linv {| hl_inner := hl_inner l ++ [(hl_next l, d)]; hl_next := S (hl_next l);
          hl_owned := nemplace (hl_next l) d (hl_owned l) |}.
Proof.
  intros l d [A B]. unfold nemplace. rewrite nlookup_none.
  2:{ intros x I E. specialize (B x I). lia. }
  split; cbn; intros x I; apply in_app_iff in I; destruct I as [I|[<-|[]]].
  - apply in_app_iff. left. apply A, I.
  - apply in_app_iff. right. left. reflexivity.
  - specialize (B x I). lia.
  - cbn. lia.
Qed.

Lemma add_lexact : forall l d, lexact l ->
  lexact {| hl_inner := hl_inner l ++ [(hl_next l, d)]; hl_next := S (hl_next l);
            hl_owned := nemplace (hl_next l) d (hl_owned l) |}.
Proof.
  intros l d [A B]. unfold nemplace. rewrite nlookup_none.
  2:{ intros x I E. specialize (B x I). lia. }
  split; cbn; [rewrite A; reflexivity|].
  intros x I; apply in_app_iff in I; destruct I as [I|[<-|[]]].
  - specialize (B x I). lia.
  - cbn. lia.
Qed.

Lemma step_linv : forall c s o, (forall k id, o = HRemove k id -> nth_error c k = Some (Some k) \/ nth_error c k = Some None) ->
  all_lists linv s -> all_lists linv (hstep c s o).
Proof.
  intros c s o R H k l E. destruct o as [j ok|j id|j]; cbn [hstep] in E.
  - destruct ok; cbn [hs_lists] in E; [|apply (H k l E)].
    rewrite nth_upd in E. destruct (Nat.eqb j k); [|apply (H k l E)].
    destruct (nth_error (hs_lists s) k) as [l0|] eqn:G; [|discriminate]. injection E as <-.
    apply add_linv. apply (H _ _ G).
  - cbn [hs_lists] in E. destruct (R j id eq_refl) as [X|X]; rewrite X in E.
    + rewrite !nth_upd in E. destruct (Nat.eqb j k); [|apply (H k l E)].
      destruct (nth_error (hs_lists s) k) as [l0|] eqn:G; [|discriminate]. injection E as <-.
      destruct (H _ _ G) as [A B]. split; cbn; intros x I; apply In_nerase in I; destruct I as [I N].
      * apply In_nerase. split; [apply A, I|exact N].
      * apply B, I.
    + rewrite !nth_upd in E. destruct (Nat.eqb j k); [|apply (H k l E)].
      destruct (nth_error (hs_lists s) k) as [l0|] eqn:G; [|discriminate]. injection E as <-.
      destruct (H _ _ G) as [A B]. split; cbn; intros x I; [apply In_nerase in I; destruct I as [I _]; apply A, I|apply B, I].
  - apply (H k l E).
Qed.

Lemma step_lexact : forall c s o, (forall k id, o = HRemove k id -> nth_error c k = Some (Some k)) ->
  all_lists lexact s -> all_lists lexact (hstep c s o).
Proof.
  intros c s o R H k l E. destruct o as [j ok|j id|j]; cbn [hstep] in E.
  - destruct ok; cbn [hs_lists] in E; [|apply (H k l E)].
    rewrite nth_upd in E. destruct (Nat.eqb j k); [|apply (H k l E)].
    destruct (nth_error (hs_lists s) k) as [l0|] eqn:G; [|discriminate]. injection E as <-.
    apply add_lexact. apply (H _ _ G).
  - cbn [hs_lists] in E. rewrite (R j id eq_refl) in E.
    rewrite !nth_upd in E. destruct (Nat.eqb j k); [|apply (H k l E)].
    destruct (nth_error (hs_lists s) k) as [l0|] eqn:G; [|discriminate]. injection E as <-.
    destruct (H _ _ G) as [A B]. split; cbn; [rewrite A; reflexivity|].
    intros x I; apply In_nerase in I; destruct I as [I N]. apply B, I.
  - apply (H k l E).
Qed.

Lemma init_all : forall (P : hlist -> Prop) c, P h0 -> all_lists P (hinit c).
Proof.
  intros P c H k l E. unfold hinit in E. cbn in E. rewrite nth_error_map in E.
  destruct (nth_error c k); [|discriminate]. injection E as <-. exact H.
Qed.

Lemma run_linv : forall c os s, removes_own_or_none c os -> all_lists linv s -> all_lists linv (hrun c s os).
Proof.
  intros c os. induction os as [|o r IH]; intros s R H; cbn; [exact H|].
  apply IH.
  - intros k id I. apply (R k id). right. exact I.
  - apply step_linv; [|exact H]. intros k id ->. apply (R k id). left. reflexivity.
Qed.

Lemma run_lexact : forall c os s, removes_own c os -> all_lists lexact s -> all_lists lexact (hrun c s os).
Proof.
  intros c os. induction os as [|o r IH]; intros s R H; cbn; [exact H|].
  apply IH.
  - intros k id I. apply (R k id). right. exact I.
  - apply step_lexact; [|exact H]. intros k id ->. apply (R k id). left. reflexivity.
Qed.

Lemma alive_iff : forall s d, alive s d = true <-> exists k l, nth_error (hs_lists s) k = Some l /\ In d (map snd (hl_owned l)).
Proof.
  intros s d. unfold alive. rewrite existsb_exists. split.
  - intros (l & I & E). apply existsb_exists in E. destruct E as (x & X & E). apply Nat.eqb_eq in E. subst d.
    apply In_nth_error in I. destruct I as [k K]. exists k, l. split; [exact K|]. apply in_map. exact X.
  - intros (k & l & K & I). exists l. split; [eapply nth_error_In; exact K|].
    apply in_map_iff in I. destruct I as (x & <- & X). apply existsb_exists. exists x. split; [exact X|]. apply Nat.eqb_refl.
Qed.

Lemma contexts_alive : forall c os k d, removes_own_or_none c os ->
  In d (contexts (hrun c (hinit c) os) k) -> alive (hrun c (hinit c) os) d = true.
Proof.
  intros c os k d R I. assert (H : all_lists linv (hrun c (hinit c) os)).
  { apply run_linv; [exact R|]. apply init_all. split; intros x []. }
  unfold contexts in I. destruct (nth_error (hs_lists (hrun c (hinit c) os)) k) as [l|] eqn:G; [|destruct I].
  apply alive_iff. exists k, l. split; [exact G|]. apply in_map_iff in I. destruct I as (x & <- & X).
  apply in_map. apply (proj1 (H _ _ G)). exact X.
Qed.

Lemma alive_contexts : forall c os d, removes_own c os ->
  alive (hrun c (hinit c) os) d = true -> exists k, In d (contexts (hrun c (hinit c) os) k).
Proof.
  intros c os d R A. assert (H : all_lists lexact (hrun c (hinit c) os)).
  { apply run_lexact; [exact R|]. apply init_all. split; [reflexivity|intros x []]. }
  apply alive_iff in A. destruct A as (k & l & G & I). exists k. unfold contexts. rewrite G.
  rewrite <- (proj1 (H _ _ G)). exact I.
Qed.

(* handlers that can be set *)
Inductive sop := SConstruct | SSet (ok : bool).
Definition sstep (this_as_context : bool) (s : sstate) (o : sop) : sstate :=
  match o with SConstruct => sconstruct s | SSet ok => sset this_as_context s ok end.
Definition srun (b : bool) (os : list sop) : sstate := fold_left (sstep b) os sinit.

Lemma srun_inv : forall os, let s := srun false os in
  match ss_context s with None => True | Some (CData d) => ss_owned s = Some d | Some CThis => False end.
Proof.
  intros os. unfold srun. assert (G : forall s, match ss_context s with None => True | Some (CData d) => ss_owned s = Some d | Some CThis => False end ->
    let s' := fold_left (sstep false) os s in match ss_context s' with None => True | Some (CData d) => ss_owned s' = Some d | Some CThis => False end).
  { induction os as [|o r IH]; intros s H; cbn; [exact H|]. apply IH. destruct o as [|[]]; cbn; try reflexivity. exact H. }
  apply G. exact I.
Qed.

(* what the context of the handler is after a constructor and any successful or failed settings *)
Lemma srun_app : forall b os o, srun b (os ++ [o]) = sstep b (srun b os) o.
Proof. intros b os o. unfold srun. rewrite fold_left_app. reflexivity. Qed.

(* ------------------------------------------------------------------ *)
(** * Identifiers *)

Lemma land255 : forall x n, 0 <= n -> Z.testbit (Z.land x 255) n = (n <? 8) && Z.testbit x n.
Proof.
  intros x n H. change 255 with (Z.ones 8). rewrite Z.land_spec. rewrite Z.testbit_ones_nonneg by lia.
  rewrite andb_comm. reflexivity.
Qed.

Lemma small255 : forall x, 0 <= x < 256 -> Z.land x 255 = x.
Proof. intros x H. change 255 with (Z.ones 8). rewrite Z.land_ones by lia. apply Z.mod_small. exact H. Qed.

Lemma lit_bits : forall x n, 0 <= x < 256 -> 8 <= n -> Z.testbit x n = false.
Proof. intros x n H N. rewrite <- (small255 x H). rewrite land255 by lia. replace (n <? 8) with false by lia. reflexivity. Qed.

Lemma id_part : forall s k, In k [24; 32; 40; 48; 56] ->
  Z.land (Z.shiftr (struct_id s) k) 255 =
    if k =? 24 then Z.land (si_version s) 255 else if k =? 32 then Z.land (si_type s) 255
    else if k =? 40 then Z.land (si_service s) 255 else if k =? 48 then 75 else 83.
Proof.
  intros s k K. apply Z.bits_inj'. intros n N. rewrite land255 by exact N.
  rewrite Z.shiftr_spec by exact N. unfold struct_id.
  assert (K24 : 24 <= k) by (cbn in K; lia).
  rewrite !Z.lor_spec, !Z.shiftl_spec by lia.
  assert (LO : forall x, 0 <= x < 256 -> forall m, m < 0 \/ 8 <= m -> Z.testbit x m = false).
  { intros x X m [M|M]; [apply Z.testbit_neg_r; exact M|apply lit_bits; assumption]. }
  assert (LB : forall x m, m < 0 \/ 8 <= m -> Z.testbit (Z.land x 255) m = false).
  { intros x m [M|M]; [apply Z.testbit_neg_r; exact M|]. rewrite land255 by lia. replace (m <? 8) with false by lia. reflexivity. }
  destruct (n <? 8) eqn:N8; cbn [andb].
  - cbn in K. destruct K as [<-|[<-|[<-|[<-|[<-|[]]]]]]; cbn [Z.eqb Pos.eqb];
      repeat match goal with
      | |- context [Z.testbit (Z.land ?x 255) (n + ?a - ?b)] =>
          first [rewrite (LB x (n + a - b)) by lia | replace (n + a - b) with n by lia]
      | |- context [Z.testbit 83 (n + ?a - ?b)] =>
          first [rewrite (LO 83 ltac:(lia) (n + a - b)) by lia | replace (n + a - b) with n by lia]
      | |- context [Z.testbit 75 (n + ?a - ?b)] =>
          first [rewrite (LO 75 ltac:(lia) (n + a - b)) by lia | replace (n + a - b) with n by lia]
      end; rewrite ?orb_false_r; cbn [orb]; reflexivity.
  - symmetry. cbn in K. destruct K as [<-|[<-|[<-|[<-|[<-|[]]]]]]; cbn [Z.eqb Pos.eqb];
      first [apply LB; lia | apply LO; lia].
Qed.

Definition is_byte (z : Z) : Prop := 0 <= z < 256.

Lemma id_fields : forall s, is_byte (si_service s) -> is_byte (si_type s) -> is_byte (si_version s) ->
  id_service (struct_id s) = si_service s /\ id_type (struct_id s) = si_type s /\ id_version (struct_id s) = si_version s.
Proof.
  intros s A B C. unfold id_service, id_type, id_version.
  rewrite !id_part by (cbn; tauto). cbn [Z.eqb Pos.eqb]. rewrite !small255 by assumption. auto.
Qed.

Lemma id_valid_struct : forall s, 0 < si_service s < 9 -> 0 < si_type s < 256 -> 0 < si_version s < 256 ->
  id_valid (struct_id s) = true.
Proof.
  intros s A B C. unfold id_valid. destruct (id_fields s) as (E1 & E2 & E3); [unfold is_byte; lia..|].
  rewrite E1, E2, E3, !id_part by (cbn; tauto). cbn [Z.eqb Pos.eqb andb]. lia.
Qed.
