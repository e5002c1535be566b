From Coq Require Import String Ascii NArith ZArith List Bool Lia.
From Verif Require Import Base TextModel YamlModel ExtModel.
Import ListNotations.
Open Scope N_scope.
Open Scope list_scope.

Lemma text_eqb_spec : forall a b, reflect (a = b) (text_eqb a b).
Proof. intros a b. unfold text_eqb. destruct (list_eq_dec N.eq_dec a b); constructor; assumption. Qed.
Definition compatible (h : host) (d : descr) : Prop := (d_major d, d_minor d, d_patch d) = h_version h /\ d_build d = h_build h.
Definition good (h : host) (p : text) : Prop := exists l d, h_open h p = Some l /\ l_descr l = Some d /\ compatible h d.
(** the files a library may be, in the order in which they are looked for *)
Definition hinted (h : host) (hint dir : text) : Prop := (exists v, hint = lit "ENV:" ++ v /\ h_env h v = Some dir) \/ ((forall v, hint <> lit "ENV:" ++ v) /\ dir = hint).
Definition names (h : host) (name : text) : list text :=
  [name; h_prefix h ++ name ++ lit "d" ++ h_extension h; name ++ lit "d" ++ h_extension h; h_prefix h ++ name ++ h_extension h; name ++ h_extension h].
Inductive order (h : host) (name : text) : list text -> list text -> Prop :=
| OrderNil : order h name [] []
| OrderDir hint dir r l : hinted h hint dir -> order h name r l -> order h name (hint :: r) (map (join_path dir) (names h name) ++ l)
| OrderSkip v r l : h_env h v = None -> order h name r l -> order h name ((lit "ENV:" ++ v) :: r) l.

Lemma build_ok : forall a b, build_compatible a b = true <-> b = a.
Proof.
  induction a as [|x a IH]; intros [|y b]; cbn; try (split; congruence). rewrite andb_true_iff, N.eqb_eq, IH. split; [intros [-> ->]; reflexivity|intros E; injection E; auto].
Qed.
Lemma verify_ok : forall h d, (exists w, verify h d = Ok w) <-> compatible h d.
Proof.
  intros h d. unfold verify, compatible. destruct (h_version h) as [[ma mi] pa]. destruct (N.eqb_spec (d_major d) ma), (N.eqb_spec (d_minor d) mi), (N.eqb_spec (d_patch d) pa); cbn;
    try (split; [intros (w & W); discriminate|intros [E _]; congruence]).
  destruct (build_compatible (h_build h) (d_build d)) eqn:B; cbn.
  - apply build_ok in B. split; [intros _; split; congruence|eauto].
  - split; [intros (w & W); discriminate|]. intros [_ E]. apply build_ok in E. congruence.
Qed.
Lemma check_ok : forall h p, (exists ev l, check_lib h p = (ev, Some l)) <-> good h p.
Proof.
  intros h p. unfold check_lib, good. destruct (h_open h p) as [l|]; [|split; [intros (ev & l & X); discriminate|intros (l & d & X & _); discriminate]].
  destruct (l_descr l) as [d|] eqn:D.
  - destruct (verify h d) as [w| |] eqn:V.
    + split; [intros _; exists l, d; repeat split; auto; apply verify_ok; eauto|eauto].
    + split; [intros (ev & x & X); discriminate|]. intros (x & d' & X & Y & C). injection X as <-. rewrite D in Y. injection Y as <-. apply verify_ok in C. destruct C. congruence.
    + split; [intros (ev & x & X); discriminate|]. intros (x & d' & X & Y & C). injection X as <-. rewrite D in Y. injection Y as <-. apply verify_ok in C. destruct C. congruence.
  - split; [intros (ev & x & X); discriminate|]. intros (x & d' & X & Y & C). congruence.
Qed.
Lemma check_lib_open : forall h p ev l, check_lib h p = (ev, Some l) -> h_open h p = Some l.
Proof.
  intros h p ev l H. unfold check_lib in H. destruct (h_open h p) as [x|]; [|discriminate]. destruct (l_descr x) as [d|]; [|discriminate]. destruct (verify h d); try discriminate. congruence.
Qed.
Lemma first_good_some : forall h ps ev p l, first_good h ps = (ev, Some (p, l)) -> exists a b, ps = a ++ p :: b /\ Forall (fun x => ~ good h x) a /\ good h p /\ h_open h p = Some l.
Proof.
  intros h. induction ps as [|x ps IH]; intros ev p l H; cbn in H; [discriminate|]. destruct (check_lib h x) as [ev1 [l1|]] eqn:C.
  - injection H as <- <- <-. exists [], ps. repeat split; [constructor|apply check_ok; eauto|eapply check_lib_open; eauto].
  - destruct (first_good h ps) as [ev2 r] eqn:F. injection H as <- ->. destruct (IH _ _ _ eq_refl) as (a & b & -> & A & B & D). exists (x :: a), b. repeat split; auto. constructor; [|exact A].
    intros G. apply check_ok in G. destruct G as (e & y & G). congruence.
Qed.
Lemma first_good_none : forall h ps ev, first_good h ps = (ev, None) -> Forall (fun x => ~ good h x) ps.
Proof.
  intros h. induction ps as [|x ps IH]; intros ev H; cbn in H; [constructor|]. destruct (check_lib h x) as [ev1 [l1|]] eqn:C; [discriminate|].
  destruct (first_good h ps) as [ev2 r] eqn:F. injection H as <- ->. constructor; [|now apply (IH ev2)]. intros G. apply check_ok in G. destruct G as (e & y & G). congruence.
Qed.
Lemma env_hint : forall hint, text_eqb (firstn 4 hint) (lit "ENV:") = true -> hint = lit "ENV:" ++ skipn 4 hint.
Proof. intros hint H. destruct (text_eqb_spec (firstn 4 hint) (lit "ENV:")) as [E|]; [|discriminate]. rewrite <- E. symmetry. apply firstn_skipn. Qed.
Lemma order_fun : forall h name hints, exists l, order h name hints l.
Proof.
  intros h name. induction hints as [|x r (l & L)]; [exists []; constructor|]. destruct (text_eqb (firstn 4 x) (lit "ENV:")) eqn:E.
  - apply env_hint in E. destruct (h_env h (skipn 4 x)) as [d|] eqn:V.
    + eexists. apply (OrderDir _ _ _ d); [|exact L]. left. eauto.
    + exists l. rewrite E. now apply OrderSkip.
  - eexists. apply (OrderDir _ _ _ x); [|exact L]. right. split; [|reflexivity]. intros v ->. cbn in E. discriminate.
Qed.
Lemma dir_of_hinted : forall h x dir, hinted h x dir -> dir_of h x = Some dir.
Proof.
  intros h x dir [(v & -> & V)|[N ->]]; unfold dir_of.
  - cbn [firstn lit app]. destruct (text_eqb_spec (firstn 4 (lit "ENV:" ++ v)) (lit "ENV:")) as [_|X]; [exact V|]. exfalso. apply X. reflexivity.
  - destruct (text_eqb (firstn 4 x) (lit "ENV:")) eqn:E; [|reflexivity]. apply env_hint in E. exfalso. eapply N. exact E.
Qed.
Definition there (h : host) (q : text) : bool := match h_exists h q with Ok b => b | _ => false end.
Lemma found_ok : forall h dir cs, found h dir cs =
  if existsb (fun q => match h_exists h q with Ok _ => false | _ => true end) (map (join_path dir) cs)
  then found h dir cs else Ok (map (h_absolute h) (filter (there h) (map (join_path dir) cs))).
Proof.
  intros h dir. induction cs as [|c cs IH]; [reflexivity|]. cbn [map existsb]. destruct (existsb _ (map (join_path dir) cs)) eqn:E; [now rewrite orb_true_r|]. rewrite orb_false_r.
  cbn [found filter map]. rewrite IH. destruct (h_exists h (join_path dir c)) as [[]| |] eqn:X; try reflexivity; unfold there at 2; rewrite X; reflexivity.
Qed.
Lemma found_throws : forall h dir cs, existsb (fun q => match h_exists h q with Ok _ => false | _ => true end) (map (join_path dir) cs) = true -> forall l, found h dir cs <> Ok l.
Proof.
  intros h dir. induction cs as [|c cs IH]; [discriminate|]. cbn [map existsb]. intros E l H. cbn in H. destruct (h_exists h (join_path dir c)); cbn in *; try discriminate.
  destruct (found h dir cs) eqn:F; try discriminate. eapply IH; eauto.
Qed.
Definition thrown (h : host) (qs : list text) : Prop := exists q, In q qs /\ forall b, h_exists h q <> Ok b.
Lemma throws_spec : forall h qs, existsb (fun q => match h_exists h q with Ok _ => false | _ => true end) qs = true <-> thrown h qs.
Proof.
  intros h qs. rewrite existsb_exists. split; intros (q & I & H); exists q; (split; [exact I|]).
  - intros b E. now rewrite E in H.
  - destruct (h_exists h q) as [b| |] eqn:E; try reflexivity. now elim (H b).
Qed.
Lemma find_library_ok : forall h name hints qs, order h name hints qs ->
  (~ thrown h qs -> find_library h (candidates h name) hints = Ok (map (h_absolute h) (filter (there h) qs))) /\
  (thrown h qs -> forall l, find_library h (candidates h name) hints <> Ok l).
Proof.
  intros h name hints qs H. induction H as [|hint dir r l Hi O [IH1 IH2]|v r l V O [IH1 IH2]].
  - split; [reflexivity|]. intros (q & [] & _).
  - cbn [find_library]. rewrite (dir_of_hinted _ _ _ Hi). change (names h name) with (candidates h name). split.
    + intros N. assert (A : existsb (fun q => match h_exists h q with Ok _ => false | _ => true end) (map (join_path dir) (candidates h name)) = false).
      { apply not_true_iff_false. intros X. apply throws_spec in X. apply N. destruct X as (q & I & X). exists q. split; [apply in_or_app; now left|exact X]. }
      rewrite found_ok, A. cbn [bind]. rewrite IH1; [cbn [bind]; now rewrite filter_app, map_app|]. intros (q & I & X). apply N. exists q. split; [apply in_or_app; now right|exact X].
    + intros (q & I & X) m H. destruct (found h dir (candidates h name)) as [a| |] eqn:F; try discriminate. cbn [bind] in H.
      destruct (find_library h (candidates h name) r) as [b| |] eqn:G; try discriminate. apply in_app_or in I. destruct I as [I|I].
      * eapply found_throws; [|exact F]. apply throws_spec. exists q. eauto.
      * eapply IH2; [exists q; eauto|reflexivity].
  - cbn [find_library]. assert (D : dir_of h (lit "ENV:" ++ v) = None).
    { unfold dir_of. destruct (text_eqb_spec (firstn 4 (lit "ENV:" ++ v)) (lit "ENV:")) as [_|X]; [exact V|]. exfalso. apply X. reflexivity. }
    rewrite D. auto.
Qed.
Lemma map_filter_split : forall h qs a p b, map (h_absolute h) (filter (there h) qs) = a ++ p :: b ->
  exists a' q b', qs = a' ++ q :: b' /\ p = h_absolute h q /\ h_exists h q = Ok true /\ a = map (h_absolute h) (filter (there h) a').
Proof.
  intros h. induction qs as [|x qs IH]; intros a p b H; cbn in H; [destruct a; discriminate|]. destruct (there h x) eqn:T.
  - cbn in H. destruct a as [|y a].
    + cbn in H. injection H as <- H. exists [], x, qs. repeat split. unfold there in T. destruct (h_exists h x); congruence.
    + cbn in H. injection H as <- H. destruct (IH _ _ _ H) as (a' & q & b' & -> & -> & E & ->). exists (x :: a'), q, b'. cbn. rewrite T. auto.
  - destruct (IH _ _ _ H) as (a' & q & b' & -> & -> & E & ->). exists (x :: a'), q, b'. cbn. rewrite T. auto.
Qed.
Lemma order_unique : forall h name hints a b, order h name hints a -> order h name hints b -> a = b.
Proof.
  intros h name hints a b H. revert b. induction H as [|hint dir r l Hi O IH|v r l V O IH]; intros b H'.
  - now inversion H'.
  - inversion H' as [|? dir' ? l' Hi' O'|v ? ? V O']; subst.
    + apply dir_of_hinted in Hi, Hi'. rewrite Hi in Hi'. injection Hi' as <-. now rewrite (IH _ O').
    + exfalso. destruct Hi as [(w & E & W)|[N _]]; [|now apply (N v)]. change (lit "ENV:" ++ v = lit "ENV:" ++ w) in E. apply app_inv_head in E. congruence.
  - inversion H' as [|? dir' ? l' Hi' O'|v' ? ? V' O' E]; subst.
    + exfalso. destruct Hi' as [(w & E & W)|[N _]]; [|now apply (N v)]. change (lit "ENV:" ++ v = lit "ENV:" ++ w) in E. apply app_inv_head in E. congruence.
    + now apply IH.
Qed.
