(** Loading extensions (C83) *)
From Coq Require Import String Ascii NArith ZArith List Bool Lia.
From Verif Require Import Base TextModel YamlModel ExtModel ExtProofs.
Import ListNotations.
Open Scope N_scope.
Open Scope list_scope.

(** a world for the examples: the files are given by a list *)
Definition world (files : list (text * library)) (env : list (text * text)) : host :=
  mkHost (5, 0, 1) [1; 2] (lit "Linux") (fun p => Ok (existsb (fun f => text_eqb (fst f) p) files)) (fun p => p)
    (fun p => option_map snd (find (fun f => text_eqb (fst f) p) files)) (fun v => option_map snd (find (fun e => text_eqb (fst e) v) env)) (Some (lit "/bin")) (lit "lib") (lit ".so").
Definition fits : descr := mkDescr 5 0 1 (lit "Linux") [1; 2].
Definition other : descr := mkDescr 5 0 2 (lit "Linux") [1; 2].
Definition dll (d : descr) (n : N) : library := mkLib (Some d) (Some (Instance n [7])) true.

(** ** One search *)
(** The places that are searched are the names of the library in the directories of the hints, in that order ([order]). *)
Definition places (h : host) (name : text) (hints : list text) (qs : list text) : Prop :=
  exists proc, h_process h = Some proc /\ order h name (hints ++ [lit "ENV:SILKIT_EXTENSION_PATH"; lit "."; proc]) qs.
Lemma load_eq : forall h name hints qs, places h name hints qs -> ~ thrown h qs ->
  load h name hints = match first_good h (map (h_absolute h) (filter (there h) qs)) with
                      | (ev, None) => (ev, LoadError)
                      | (ev, Some (p, l)) => match l_create l, l_release l with Some i, true => (ev ++ [Created p], Loaded p i) | _, _ => (ev, LoadError) end
                      end.
Proof. intros h name hints qs (proc & P & O) T. unfold load. rewrite P, (proj1 (find_library_ok _ _ _ _ O) T). reflexivity. Qed.
Lemma load_ok : forall h name hints ev r, load h name hints = (ev, r) -> r <> OtherError -> exists qs, places h name hints qs /\ ~ thrown h qs.
Proof.
  intros h name hints ev r H N. unfold load in H. destruct (h_process h) as [proc|] eqn:P; [|injection H as <- <-; now elim N].
  destruct (order_fun h name (hints ++ [lit "ENV:SILKIT_EXTENSION_PATH"; lit "."; proc])) as (qs & O). exists qs. split; [now exists proc|]. intros T.
  pose proof (proj2 (find_library_ok _ _ _ _ O) T) as F. destruct (find_library _ _ _) as [l| |]; [now elim (F l)|injection H as <- <-; now elim N|injection H as <- <-; now elim N].
Qed.

(** What is loaded is the first file in that order that exists and is compatible: every earlier place has no file or one that is not. *)
Theorem C83_loaded : forall h name hints ev p i, load h name hints = (ev, Loaded p i) ->
  exists qs a q b l, places h name hints qs /\ qs = a ++ q :: b /\ p = h_absolute h q /\ h_exists h q = Ok true /\ good h p /\
    Forall (fun x => h_exists h x = Ok false \/ h_exists h x = Ok true /\ ~ good h (h_absolute h x)) a /\
    h_open h p = Some l /\ l_create l = Some i /\ l_release l = true.
Proof.
  intros h name hints ev p i H. destruct (load_ok _ _ _ _ _ H ltac:(discriminate)) as (qs & Q & T). rewrite (load_eq _ _ _ _ Q T) in H.
  destruct (first_good h _) as [ev1 [[p1 l]|]] eqn:F; [|discriminate]. destruct (l_create l) as [i1|] eqn:C; [|discriminate]. destruct (l_release l) eqn:R; [|discriminate]. injection H as _ <- <-.
  apply first_good_some in F. destruct F as (a & b & E & A & G & O). apply map_filter_split in E. destruct E as (a' & q & b' & -> & -> & X & ->).
  exists (a' ++ q :: b'), a', q, b', l. repeat split; auto. rewrite Forall_forall in *. intros x I.
  destruct (h_exists h x) as [[]| |] eqn:Y; auto.
  - right. split; [reflexivity|]. apply A. apply in_map. apply filter_In. split; [exact I|]. unfold there. now rewrite Y.
  - exfalso. apply T. exists x. split; [apply in_or_app; now left|]. intros c. congruence.
  - exfalso. apply T. exists x. split; [apply in_or_app; now left|]. intros c. congruence.
Qed.
Print Assumptions C83_loaded.
(** And exactly then is something loaded: the existence of every place can be determined, and the first compatible library has both functions. *)
Theorem C83_loaded_possible : forall h name hints qs p i, places h name hints qs -> ~ thrown h qs ->
  forall a q b l, qs = a ++ q :: b -> p = h_absolute h q -> h_exists h q = Ok true -> good h p ->
    Forall (fun x => h_exists h x = Ok false \/ ~ good h (h_absolute h x)) a -> h_open h p = Some l -> l_create l = Some i -> l_release l = true ->
    exists ev, load h name hints = (ev, Loaded p i).
Proof.
  intros h name hints qs p i Q T a q b l -> -> X G A O C R. rewrite (load_eq _ _ _ _ Q T).
  assert (E : exists ev, first_good h (map (h_absolute h) (filter (there h) (a ++ q :: b))) = (ev, Some (h_absolute h q, l))).
  { clear Q T. induction a as [|x a IH].
    - cbn. unfold there at 1. rewrite X. cbn. apply check_ok in G. destruct G as (ev & l' & G). rewrite G. apply check_lib_open in G. rewrite G in O. injection O as ->. eauto.
    - inversion_clear A as [|? ? A0 A1]. destruct (IH A1) as (ev & IHe). cbn. destruct (there h x) eqn:Y; [|eauto]. cbn [map first_good].
      destruct (check_lib h (h_absolute h x)) as [ev1 [l1|]] eqn:K.
      + exfalso. destruct A0 as [A0|A0]; [unfold there in Y; rewrite A0 in Y; discriminate|]. apply A0. apply check_ok. eauto.
      + rewrite IHe. eauto. }
  destruct E as (ev & ->). rewrite C, R. eauto.
Qed.
Print Assumptions C83_loaded_possible.
Example C83_loaded_ex :
  let w := world [(lit "/x/libD.so", dll other 1); (lit "/e/Dd.so", dll fits 2); (lit "/e/libD.so", dll fits 3)] [(lit "SILKIT_EXTENSION_PATH", lit "/e")] in
  load w (lit "D") [lit "/x"] = ([Opened (lit "/x/libD.so"); Opened (lit "/e/Dd.so"); Created (lit "/e/Dd.so")], Loaded (lit "/e/Dd.so") (Instance 2 [7])).
Proof. vm_compute. reflexivity. Qed.

(** ** Failures *)
Theorem C83_other_error : forall h name hints ev, load h name hints = (ev, OtherError) <->
  ev = [] /\ (h_process h = None \/ exists qs, places h name hints qs /\ thrown h qs).
Proof.
  intros h name hints ev. split.
  - intros H. unfold load in H. destruct (h_process h) as [proc|] eqn:P; [|injection H as <-; auto].
    destruct (order_fun h name (hints ++ [lit "ENV:SILKIT_EXTENSION_PATH"; lit "."; proc])) as (qs & O). destruct (find_library_ok _ _ _ _ O) as [F1 F2].
    destruct (existsb (fun q => match h_exists h q with Ok _ => false | _ => true end) qs) eqn:T.
    + apply throws_spec in T. pose proof (F2 T) as F. destruct (find_library _ _ _) as [l| |]; [now elim (F l)|injection H as <-|injection H as <-];
        (split; [reflexivity|right; exists qs; split; [now exists proc|exact T]]).
    + exfalso. assert (N : ~ thrown h qs) by (rewrite <- throws_spec; congruence). rewrite (F1 N) in H. destruct (first_good _ _) as [? [[? l]|]]; [|discriminate].
      destruct (l_create l), (l_release l); discriminate.
  - intros [-> [P|(qs & (proc & P & O) & T)]]; unfold load; rewrite P; [reflexivity|]. pose proof (proj2 (find_library_ok _ _ _ _ O) T) as F.
    destruct (find_library _ _ _) as [l| |]; [now elim (F l)|reflexivity|reflexivity].
Qed.
Print Assumptions C83_other_error.
Theorem C83_load_error : forall h name hints ev, load h name hints = (ev, LoadError) ->
  exists qs, places h name hints qs /\ ~ thrown h qs /\
    ((forall q, In q qs -> h_exists h q = Ok true -> ~ good h (h_absolute h q)) \/
     (exists a q b l, qs = a ++ q :: b /\ h_exists h q = Ok true /\ h_open h (h_absolute h q) = Some l /\ good h (h_absolute h q) /\
        Forall (fun x => h_exists h x = Ok true -> ~ good h (h_absolute h x)) a /\ (l_create l = None \/ l_release l = false))).
Proof.
  intros h name hints ev H. destruct (load_ok _ _ _ _ _ H ltac:(discriminate)) as (qs & Q & T). exists qs. repeat split; auto. rewrite (load_eq _ _ _ _ Q T) in H.
  assert (K : forall x a, In x a -> h_exists h x = Ok true -> In (h_absolute h x) (map (h_absolute h) (filter (there h) a))).
  { intros x a I E. apply in_map. apply filter_In. split; [exact I|]. unfold there. now rewrite E. }
  destruct (first_good h _) as [ev1 [[p l]|]] eqn:F.
  - right. apply first_good_some in F. destruct F as (a & b & E & A & G & O). apply map_filter_split in E. destruct E as (a' & q & b' & -> & -> & X & ->).
    exists a', q, b', l. repeat split; auto.
    + apply Forall_forall. intros x I E. rewrite Forall_forall in A. apply A. now apply K.
    + destruct (l_create l); [|now left]. destruct (l_release l); [discriminate|now right].
  - left. apply first_good_none in F. intros q I E. rewrite Forall_forall in F. apply F. now apply K.
Qed.
Print Assumptions C83_load_error.
Example C83_load_error_ex : snd (load (world [(lit "/x/libD.so", dll other 1)] []) (lit "D") [lit "/x"]) = LoadError.
Proof. vm_compute. reflexivity. Qed.

(** ** What is run *)
(** CreateExtension is called only in a library that was opened in this search and is compatible, and it is the one that is returned. *)
Theorem C83_created : forall h name hints ev r p, load h name hints = (ev, r) -> In (Created p) ev ->
  good h p /\ (exists i, r = Loaded p i) /\ exists a b, ev = a ++ [Opened p] ++ b ++ [Created p] /\ (forall q, ~ In (Created q) (a ++ b)).
Proof.
  assert (CK : forall h p ev o, check_lib h p = (ev, o) -> forall q, ~ In (Created q) ev).
  { intros h p ev o H q I. unfold check_lib in H. destruct (h_open h p) as [l|]; [|injection H as <- <-; destruct I]. destruct (l_descr l) as [d|]; [|injection H as <- <-; destruct I as [I|[]]; discriminate].
    destruct (verify h d) as [[]| |]; injection H as <- <-; cbn in I; intuition discriminate. }
  assert (FG : forall h ps ev o, first_good h ps = (ev, o) -> forall q, ~ In (Created q) ev).
  { intros h. induction ps as [|x ps IH]; intros ev o H q I; cbn in H; [injection H as <- <-; destruct I|]. destruct (check_lib h x) as [ev1 [l1|]] eqn:C.
    - injection H as <- <-. eapply CK; eauto.
    - destruct (first_good h ps) as [ev2 r] eqn:F. injection H as <- ->. apply in_app_or in I. destruct I as [I|I]; [eapply CK; eauto|eapply IH; eauto]. }
  assert (FO : forall h ps ev p l, first_good h ps = (ev, Some (p, l)) -> exists a b, ev = a ++ [Opened p] ++ b).
  { intros h. induction ps as [|x ps IH]; intros ev p l H; cbn in H; [discriminate|]. destruct (check_lib h x) as [ev1 [l1|]] eqn:C.
    - injection H as <- <- <-. unfold check_lib in C. destruct (h_open h x) as [l|]; [|discriminate]. destruct (l_descr l); [|discriminate]. destruct (verify h d) as [w| |]; try discriminate.
      injection C as <- _. exists [], (if w then [WarnSystem x] else []). reflexivity.
    - destruct (first_good h ps) as [ev2 r] eqn:F. injection H as <- ->. destruct (IH _ _ _ eq_refl) as (a & b & ->). exists (ev1 ++ a), b. now rewrite <- !app_assoc. }
  intros h name hints ev r p H I. unfold load in H. destruct (h_process h); [|injection H as <- <-; destruct I]. destruct (find_library _ _ _) as [ps| |]; [|injection H as <- <-; destruct I|injection H as <- <-; destruct I].
  destruct (first_good h ps) as [ev1 [[q l]|]] eqn:F; [|injection H as <- <-; now elim (FG _ _ _ _ F p)].
  assert (D : (ev = ev1 /\ r = LoadError) \/ (exists i, ev = ev1 ++ [Created q] /\ r = Loaded q i)) by (destruct (l_create l), (l_release l); injection H as <- <-; eauto).
  destruct D as [[-> ->]|(i & -> & ->)]; [now elim (FG _ _ _ _ F p)|]. apply in_app_or in I. destruct I as [I|[I|[]]]; [now elim (FG _ _ _ _ F p)|]. injection I as ->.
  pose proof (first_good_some _ _ _ _ _ F) as (a & b & _ & _ & G & _). split; [exact G|]. split; [eauto|]. destruct (FO _ _ _ _ _ F) as (x & y & ->).
  exists x, y. split; [now rewrite <- !app_assoc|]. intros q X. apply (FG _ _ _ _ F q). apply in_app_or in X. apply in_or_app. destruct X; [now left|]. right. apply in_or_app. now right.
Qed.
Print Assumptions C83_created.
(** A library for another system is only warned about. *)
Theorem C83_system_refuted : ~ (forall h name hints ev p i l d, load h name hints = (ev, Loaded p i) -> h_open h p = Some l -> l_descr l = Some d -> d_system d = h_system h).
Proof.
  intros H. set (w := world [(lit "/x/D", dll (mkDescr 5 0 1 (lit "Windows") [1; 2]) 1)] []).
  assert (E : load w (lit "D") [lit "/x"] = ([Opened (lit "/x/D"); WarnSystem (lit "/x/D"); Created (lit "/x/D")], Loaded (lit "/x/D") (Instance 1 [7]))) by (vm_compute; reflexivity).
  specialize (H _ _ _ _ _ _ _ _ E eq_refl eq_refl). vm_compute in H. discriminate.
Qed.
Print Assumptions C83_system_refuted.
(** Libraries that are rejected stay open. *)
Theorem C83_closed_refuted : ~ (forall h name hints ev r p, load h name hints = (ev, r) -> In (Opened p) ev -> In (Closed p) ev \/ exists i, r = Loaded p i).
Proof.
  intros H. set (w := world [(lit "/x/D", dll other 1)] []).
  assert (E : load w (lit "D") [lit "/x"] = ([Opened (lit "/x/D")], LoadError)) by (vm_compute; reflexivity).
  destruct (H _ _ _ _ _ _ E (or_introl eq_refl)) as [[X|[]]|(i & X)]; discriminate.
Qed.
Print Assumptions C83_closed_refuted.
(** In fact no search closes anything. *)
Theorem C83_none_closed : forall h name hints ev r p, load h name hints = (ev, r) -> ~ In (Closed p) ev.
Proof.
  assert (CK : forall h p ev o, check_lib h p = (ev, o) -> forall q, ~ In (Closed q) ev).
  { intros h p ev o H q I. unfold check_lib in H. destruct (h_open h p) as [l|]; [|injection H as <- <-; destruct I]. destruct (l_descr l) as [d|]; [|injection H as <- <-; destruct I as [I|[]]; discriminate].
    destruct (verify h d) as [[]| |]; injection H as <- <-; cbn in I; intuition discriminate. }
  assert (FG : forall h ps ev o, first_good h ps = (ev, o) -> forall q, ~ In (Closed q) ev).
  { intros h. induction ps as [|x ps IH]; intros ev o H q I; cbn in H; [injection H as <- <-; destruct I|]. destruct (check_lib h x) as [ev1 [l1|]] eqn:C.
    - injection H as <- <-. eapply CK; eauto.
    - destruct (first_good h ps) as [ev2 r] eqn:F. injection H as <- ->. apply in_app_or in I. destruct I as [I|I]; [eapply CK; eauto|eapply IH; eauto]. }
  intros h name hints ev r p H I. unfold load in H. destruct (h_process h); [|injection H as <- <-; destruct I]. destruct (find_library _ _ _) as [ps| |]; [|injection H as <- <-; destruct I|injection H as <- <-; destruct I].
  destruct (first_good h ps) as [ev1 [[q l]|]] eqn:F; [|injection H as <- <-; now elim (FG _ _ _ _ F p)].
  destruct (l_create l), (l_release l); injection H as <- <-; try (now elim (FG _ _ _ _ F p)). apply in_app_or in I. destruct I as [I|[I|[]]]; [now elim (FG _ _ _ _ F p)|discriminate].
Qed.
Print Assumptions C83_none_closed.
(** A complete library is not found if a compatible one without the functions comes before it, *)
Theorem C83_found_refuted : ~ (forall h name hints qs q l, places h name hints qs -> ~ thrown h qs -> In q qs -> h_exists h q = Ok true -> good h (h_absolute h q) ->
  h_open h (h_absolute h q) = Some l -> l_create l <> None -> l_release l = true -> exists ev p i, load h name hints = (ev, Loaded p i)).
Proof.
  intros H. set (w := world [(lit "/x/D", mkLib (Some fits) None true); (lit "/y/D", dll fits 1)] []).
  destruct (order_fun w (lit "D") ([lit "/x"; lit "/y"] ++ [lit "ENV:SILKIT_EXTENSION_PATH"; lit "."; lit "/bin"])) as (qs & O).
  assert (P : places w (lit "D") [lit "/x"; lit "/y"] qs) by (exists (lit "/bin"); split; [reflexivity|exact O]).
  destruct (H w (lit "D") [lit "/x"; lit "/y"] qs (lit "/y/D") (dll fits 1) P) as (ev & p & i & L); try reflexivity; [| | |discriminate|].
  - intros (q & _ & X). eapply X. reflexivity.
  - assert (hinted w (lit "/x") (lit "/x")) as X1 by (right; split; [intros v E; discriminate E|reflexivity]).
    assert (hinted w (lit "/y") (lit "/y")) as X2 by (right; split; [intros v E; discriminate E|reflexivity]).
    cbn [app] in O. inversion O as [|? ? ? l1 A1 O1|]; subst. apply dir_of_hinted in A1. pose proof (dir_of_hinted _ _ _ X1) as B. rewrite A1 in B. injection B as ->.
    inversion O1 as [|? ? ? l2 A2 O2|]; subst. apply dir_of_hinted in A2. pose proof (dir_of_hinted _ _ _ X2) as B. rewrite A2 in B. injection B as ->.
    apply in_or_app. right. apply in_or_app. left. cbn. now left.
  - exists (dll fits 1), fits. repeat split.
  - vm_compute in L. discriminate.
Qed.
Print Assumptions C83_found_refuted.
(** nor if whether a file exists cannot be determined in any directory, even a later one. *)
Theorem C83_unreadable_refuted : ~ (forall h name qs q hints l i, places h name hints qs -> In q qs -> h_exists h q = Ok true -> good h (h_absolute h q) ->
  (forall x, In x qs -> h_exists h x = Ok true -> x = q) -> h_open h (h_absolute h q) = Some l -> l_create l = Some i -> l_release l = true -> exists ev, load h name hints = (ev, Loaded (h_absolute h q) i)).
Proof.
  intros H. set (w := mkHost (5, 0, 1) [1; 2] (lit "Linux") (fun p => if text_eqb p (lit "/x/D") then Ok true else if text_eqb p (lit "/z/D") then Exn else Ok false) (fun p => p)
    (fun p => Some (dll fits 1)) (fun v => None) (Some (lit "/bin")) (lit "lib") (lit ".so")).
  destruct (order_fun w (lit "D") ([lit "/x"; lit "/z"] ++ [lit "ENV:SILKIT_EXTENSION_PATH"; lit "."; lit "/bin"])) as (qs & O).
  destruct (H w (lit "D") qs (lit "/x/D") [lit "/x"; lit "/z"] (dll fits 1) (Instance 1 [7])) as (ev & L); try reflexivity.
  - exists (lit "/bin"). split; [reflexivity|exact O].
  - assert (hinted w (lit "/x") (lit "/x")) as X1 by (right; split; [intros v E; discriminate E|reflexivity]).
    cbn [app] in O. inversion O as [|? ? ? l1 A1 O1|]; subst. apply dir_of_hinted in A1. pose proof (dir_of_hinted _ _ _ X1) as B. rewrite A1 in B. injection B as ->. cbn. now left.
  - exists (dll fits 1), fits. repeat split.
  - intros x I E. subst w. cbn [h_exists] in E. destruct (text_eqb_spec x (lit "/x/D")) as [Y|_]; [exact Y|]. destruct (text_eqb x (lit "/z/D")); congruence.
  - vm_compute in L. discriminate.
Qed.
Print Assumptions C83_unreadable_refuted.

(** ** The cache *)
(** Once an extension has been obtained, every further call returns it or fails, and nothing is loaded, created or released: it fails iff it asks for another name or interface. *)
Theorem C83_cached : forall cs k p id is, k_dll k = Some (p, Instance id is) ->
  exists gs, calls cs k = ([], k, gs) /\
    Forall2 (fun (c : call) g => let '(h, f, name, hints) := c in (name = k_name k /\ In f is -> g = GotExtension id is) /\ (~ (name = k_name k /\ In f is) -> g = GotError)) cs gs.
Proof.
  induction cs as [|[[[h f] name] hints] cs IH]; intros k p id is K; [exists []; split; [reflexivity|constructor]|].
  destruct (IH k p id is K) as (gs & E & F). cbn [calls]. unfold loader, get. rewrite K. cbn [is_null]. rewrite E. cbn [app].
  eexists. split; [reflexivity|]. constructor; [|exact F]. destruct (text_eqb_spec name (k_name k)) as [->|N]; cbn [negb].
  - rewrite K. destruct (existsb (N.eqb f) is) eqn:X.
    + apply existsb_exists in X. destruct X as (y & Y & X). apply N.eqb_eq in X. subst y. split; [reflexivity|]. intros M. elim M. auto.
    + split; [|reflexivity]. intros [_ I]. exfalso. rewrite <- not_true_iff_false in X. apply X. apply existsb_exists. exists f. split; [exact I|apply N.eqb_refl].
  - split; [intros [M _]; now elim N|reflexivity].
Qed.
Print Assumptions C83_cached.
(** A call that finds the cache without extension loads; it leaves an extension there exactly if it could be loaded, and a failure to load changes nothing. *)
Theorem C83_first_call : forall h f name hints k ev k' g, is_null (k_dll k) = true -> loader h f name hints k = (ev, k', g) ->
  match snd (load h name hints) with
  | Loaded p (Instance id is) => k' = mkCache name (Some (p, Instance id is)) /\ (In f is -> g = GotExtension id is) /\ (~ In f is -> g = GotError)
  | Loaded p NoInstance => k' = mkCache name (Some (p, NoInstance)) /\ g = GotUndefined
  | LoadError => k' = k /\ g = GotError
  | OtherError => k' = k /\ g = GotOther
  end.
Proof.
  intros h f name hints k ev k' g Z H. unfold loader, get in H. rewrite Z in H. destruct (load h name hints) as [ev1 [| |p [|id is]]]; cbn [snd].
  - injection H as _ <- <-. auto.
  - injection H as _ <- <-. auto.
  - cbn [k_name k_dll] in H. destruct (text_eqb_spec name name) as [_|N]; [|now elim N]. cbn [negb] in H. injection H as _ <- <-. auto.
  - cbn [k_name k_dll] in H. destruct (text_eqb_spec name name) as [_|N]; [|now elim N]. cbn [negb] in H. injection H as _ <- <-. split; [reflexivity|].
    destruct (existsb (N.eqb f) is) eqn:X.
    + split; [reflexivity|]. intros N. elim N. apply existsb_exists in X. destruct X as (y & Y & X). apply N.eqb_eq in X. now subst.
    + split; [|reflexivity]. intros I. exfalso. rewrite <- not_true_iff_false in X. apply X. apply existsb_exists. exists f. split; [exact I|apply N.eqb_refl].
Qed.
Print Assumptions C83_first_call.
(** A null pointer is dereferenced iff CreateExtension of the library found returned none: its constructor threw. *)
Theorem C83_undefined_refuted : ~ (forall cs ev k gs, calls cs cache0 = (ev, k, gs) -> ~ In GotUndefined gs).
Proof.
  intros H. set (w := world [(lit "/x/D", mkLib (Some fits) (Some NoInstance) true)] []).
  refine (H [(w, 7, lit "D", [lit "/x"])] _ _ _ eq_refl _). vm_compute. now left.
Qed.
Print Assumptions C83_undefined_refuted.

(** ** Created and released *)
Definition is_created (e : event) : bool := match e with Created _ => true | _ => false end.
Definition is_released (p : text) (e : event) : bool := match e with Released q => text_eqb p q | _ => false end.
Definition count (f : event -> bool) (l : list event) : nat := List.length (filter f l).
Definition holds (p : text) (k : cache) : nat := match k_dll k with Some (q, _) => if text_eqb p q then 1 else 0 | None => 0 end.
Lemma count_app : forall f a b, count f (a ++ b) = (count f a + count f b)%nat.
Proof. intros. unfold count. now rewrite filter_app, app_length. Qed.
(** Over any calls, what was created of a library and is not held by the cache was released, and what was released was closed. *)
Definition created_of (p : text) (e : event) : bool := match e with Created q => text_eqb p q | _ => false end.
Lemma load_counts : forall h name hints ev r p, load h name hints = (ev, r) ->
  count (created_of p) ev = (match r with Loaded q _ => if text_eqb p q then 1 else 0 | _ => 0 end)%nat /\ count (is_released p) ev = 0%nat.
Proof.
  intros h name hints ev r p H.
  assert (CK : forall x ev o, check_lib h x = (ev, o) -> count (created_of p) ev = 0%nat /\ count (is_released p) ev = 0%nat).
  { intros x e o E. unfold check_lib in E. destruct (h_open h x) as [l|]; [|injection E as <- <-; auto]. destruct (l_descr l) as [d|]; [|injection E as <- <-; auto].
    destruct (verify h d) as [[]| |]; injection E as <- <-; auto. }
  assert (FG : forall ps e o, first_good h ps = (e, o) -> count (created_of p) e = 0%nat /\ count (is_released p) e = 0%nat).
  { induction ps as [|x ps IH]; intros e o E; cbn in E; [injection E as <- <-; auto|]. destruct (check_lib h x) as [ev1 [l1|]] eqn:C.
    - injection E as <- <-. eapply CK; eauto.
    - destruct (first_good h ps) as [ev2 s] eqn:F. injection E as <- ->. rewrite !count_app. destruct (IH _ _ eq_refl), (CK _ _ _ C). lia. }
  unfold load in H. destruct (h_process h); [|injection H as <- <-; auto]. destruct (find_library _ _ _) as [ps| |]; [|injection H as <- <-; auto|injection H as <- <-; auto].
  destruct (first_good h ps) as [ev1 [[q l]|]] eqn:F; [|injection H as <- <-; eapply FG; eauto].
  destruct (FG _ _ _ F) as [A B]. destruct (l_create l), (l_release l); injection H as <- <-; auto. rewrite !count_app, A, B. unfold count. cbn. destruct (text_eqb p q); auto.
Qed.
Theorem C83_released : forall p cs k ev k' gs, calls cs k = (ev, k', gs) -> (holds p k + count (created_of p) ev = holds p k' + count (is_released p) ev)%nat.
Proof.
  intros p. induction cs as [|[[[h f] name] hints] cs IH]; intros k ev k' gs H; cbn [calls] in H; [injection H as <- <- <-; unfold count; cbn; lia|].
  destruct (loader h f name hints k) as [[ev1 k1] g] eqn:L. destruct (calls cs k1) as [[ev2 k2] gs2] eqn:C. injection H as <- <- <-. apply IH in C. rewrite !count_app.
  enough (holds p k + count (created_of p) ev1 = holds p k1 + count (is_released p) ev1)%nat by lia. clear C IH.
  unfold loader, get in L. destruct (is_null (k_dll k)).
  - destruct (load h name hints) as [e r] eqn:E. pose proof (load_counts _ _ _ _ _ p E) as [A B]. destruct r as [| |q i].
    + injection L as <- <- _. lia.
    + injection L as <- <- _. lia.
    + injection L as <- <- _. rewrite !count_app, A, B. unfold holds. cbn [k_dll]. destruct (k_dll k) as [[o j]|]; unfold count; cbn; [destruct (text_eqb p o); cbn; lia|lia].
  - injection L as <- <- _. unfold count. cbn. lia.
Qed.
Print Assumptions C83_released.
Definition is_closed (p : text) (e : event) : bool := match e with Closed q => text_eqb p q | _ => false end.
Theorem C83_closed : forall p cs k ev k' gs, calls cs k = (ev, k', gs) -> count (is_closed p) ev = count (is_released p) ev.
Proof.
  intros p. induction cs as [|[[[h f] name] hints] cs IH]; intros k ev k' gs H; cbn [calls] in H; [injection H as <- <- <-; reflexivity|].
  destruct (loader h f name hints k) as [[ev1 k1] g] eqn:L. destruct (calls cs k1) as [[ev2 k2] gs2] eqn:C. injection H as <- <- <-. apply IH in C. rewrite !count_app.
  enough (count (is_closed p) ev1 = count (is_released p) ev1) by lia. clear C IH. unfold loader, get in L. destruct (is_null (k_dll k)).
  - destruct (load h name hints) as [e r] eqn:E. pose proof (load_counts _ _ _ _ _ p E) as [_ B].
    assert (A : count (is_closed p) e = 0%nat).
    { unfold count. destruct (filter (is_closed p) e) as [|x l] eqn:F; [reflexivity|]. assert (I : In x (filter (is_closed p) e)) by (rewrite F; now left). apply filter_In in I. destruct I as [I X].
      destruct x; try discriminate X. now elim (C83_none_closed _ _ _ _ _ p0 E). }
    destruct r as [| |q i]; injection L as <- <- _; rewrite ?count_app; try lia. destruct (k_dll k) as [[o j]|]; unfold count in *; cbn; [destruct (text_eqb p o); cbn; lia|lia].
  - injection L as <- <- _. reflexivity.
Qed.
Print Assumptions C83_closed.
(** An extension that was returned is released by no later call. *)
Theorem C83_kept : forall cs1 cs2 ev1 k1 gs1 ev2 k2 gs2 id is, calls cs1 cache0 = (ev1, k1, gs1) -> In (GotExtension id is) gs1 -> calls cs2 k1 = (ev2, k2, gs2) ->
  ev2 = [] /\ k2 = k1 /\ exists p, k_dll k1 = Some (p, Instance id is).
Proof.
  assert (A : forall cs k ev k1 gs id is, calls cs k = (ev, k1, gs) -> In (GotExtension id is) gs -> exists p, k_dll k1 = Some (p, Instance id is)).
  { induction cs as [|[[[h f] name] hints] cs IH]; intros k ev k1 gs id is H I; cbn [calls] in H; [injection H as <- <- <-; destruct I|].
    destruct (loader h f name hints k) as [[e1 k2] g] eqn:L. destruct (calls cs k2) as [[e2 k3] gs2] eqn:C. injection H as <- <- <-. destruct I as [->|I]; [|eapply IH; eauto].
    assert (X : exists p, k_dll k2 = Some (p, Instance id is)).
    { destruct (is_null (k_dll k)) eqn:Z.
      - pose proof (C83_first_call _ _ _ _ _ _ _ _ Z L) as F. destruct (snd (load h name hints)) as [| |p [|id' is']]; [now destruct F|now destruct F|now destruct F|].
        destruct F as (-> & F1 & F2). exists p. cbn. destruct (in_dec N.eq_dec f is') as [Y|Y]; [specialize (F1 Y)|specialize (F2 Y)]; congruence.
      - destruct (k_dll k) as [[p [|id' is']]|] eqn:K; try discriminate Z. destruct (C83_cached [(h, f, name, hints)] k p id' is' K) as (gs & E & F).
        cbn [calls] in E. rewrite L in E. injection E as _ -> <-. inversion F as [|? ? ? ? F0 _ E1 E2]; subst. destruct F0 as [F1 F2]. exists p. rewrite K.
        assert (D : name = k_name k /\ In f is' \/ ~ (name = k_name k /\ In f is')) by (destruct (text_eqb_spec name (k_name k)), (in_dec N.eq_dec f is'); tauto).
        destruct D as [D|D]; [specialize (F1 D)|specialize (F2 D)]; congruence. }
    destruct X as (p & X). destruct (C83_cached cs k2 p id is X) as (gs & E & _). rewrite E in C. injection C as _ <- _. eauto. }
  intros cs1 cs2 ev1 k1 gs1 ev2 k2 gs2 id is H I H2. destruct (A _ _ _ _ _ _ _ H I) as (p & K). destruct (C83_cached cs2 k1 p id is K) as (gs & E & _). rewrite E in H2. injection H2 as <- <- _. eauto.
Qed.
Print Assumptions C83_kept.
Example C83_cache_ex :
  let w := world [(lit "/x/D", dll fits 1)] [] in
  calls [(w, 7, lit "D", []); (w, 7, lit "D", [lit "/x"]); (w, 7, lit "E", [lit "/x"]); (w, 8, lit "D", []); (w, 7, lit "D", [])] cache0 =
  ([Opened (lit "/x/D"); Created (lit "/x/D")], mkCache (lit "D") (Some (lit "/x/D", Instance 1 [7])), [GotError; GotExtension 1 [7]; GotError; GotError; GotExtension 1 [7]]).
Proof. vm_compute. reflexivity. Qed.
