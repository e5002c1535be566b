(** C80, C81: command lines and the utilities *)
From Coq Require Import String Ascii NArith ZArith List Bool Lia.
From Verif Require Import Base TextModel YamlModel YamlCheckModel YamlRound YamlProps ParticipantModel CliModel CliProofs CliToolProofs.
Import ListNotations.
Open Scope Z_scope.
Open Scope list_scope.

(** * C80: the parser *)
(** ** A command line is accepted if and only if it consists of items with declared names and there are arguments for the values without a name *)
Theorem C80_accepted_iff : forall ds args, distinct_args ds ->
  (exists ds', parse ds args = inl ds') <-> exists l, args = command_line l /\ Forall (wf ds) l /\ room ds (length (positionals l)).
Proof.
  intros ds args D. split.
  - intros (ds' & H). exact (parse_sound ds args ds' D H).
  - intros (l & -> & W & R). eexists. exact (parse_complete ds l D W R).
Qed.
Print Assumptions C80_accepted_iff.
(** ** The last value given to an option is stored, flags that are given are set, values without a name go to the arguments in order, all else
    keeps its value *)
Theorem C80_values : forall ds l, distinct_args ds -> Forall (wf ds) l -> room ds (length (positionals l)) ->
  exists ds', parse ds (command_line l) = inl ds' /\ length ds' = length ds /\
  forall i a a', nth_error ds i = Some a -> nth_error ds' i = Some a' ->
  match a with
  | AOpt n s d v => a' = AOpt n s d (last (given n s l) v)
  | AFlag n s b => a' = AFlag n s (b || flagged n s l)
  | APos n v => a' = APos n (nth (length (filter is_positional (firstn i ds))) (if existsb (fun x => match x with AList _ _ => true | _ => false end) (firstn i ds) then [] else positionals l) v)
  | AList n vs => a' = AList n (vs ++ if existsb (fun x => match x with AList _ _ => true | _ => false end) (firstn i ds) then []
                                      else skipn (length (filter is_positional (firstn i ds))) (positionals l))
  end.
Proof.
  intros ds l D W R. exists (expected ds l (positionals l)). split; [exact (parse_complete ds l D W R)|].
  clear D W R. generalize (positionals l) as ps. split.
  { revert ps. induction ds as [|d ds IH]; intros ps; [reflexivity|]. destruct d; cbn; [destruct ps|..]; cbn; now rewrite IH. }
  revert ps. induction ds as [|d ds IH]; intros ps [|i] a a' H H'; try discriminate.
  - cbn in H. injection H as <-. destruct d as [n x|n x|n s dv x|n s x]; cbn [expected] in H'; [destruct ps|..]; cbn in H'; injection H' as <-; reflexivity.
  - cbn [nth_error] in H. assert (E0 : forall q, (fun b : bool => if b then [] else ps) q = if q then [] else ps) by reflexivity.
    destruct d as [n x|n x|n s dv x|n s x]; cbn [expected] in H'.
    + destruct ps as [|p ps]; cbn [nth_error] in H'; specialize (IH _ i a a' H H'); destruct a; cbn [firstn filter is_positional existsb length] in *; try exact IH.
      * rewrite IH. destruct (existsb _ (firstn i ds)); [destruct (length _); reflexivity|]. destruct (length _); reflexivity.
      * rewrite IH. destruct (existsb _ (firstn i ds)); [reflexivity|]. destruct (length _); reflexivity.
      * rewrite IH. destruct (existsb _ (firstn i ds)); [destruct (length _); reflexivity|]. reflexivity.
    + cbn [nth_error] in H'. specialize (IH _ i a a' H H'). destruct a; cbn [firstn filter is_positional existsb length orb] in *; try exact IH.
      * rewrite IH. destruct (existsb _ (firstn i ds)); destruct (length _); reflexivity.
      * rewrite IH. destruct (existsb _ (firstn i ds)); [reflexivity|]. destruct (length _); reflexivity.
    + cbn [nth_error] in H'. exact (IH _ i a a' H H').
    + cbn [nth_error] in H'. exact (IH _ i a a' H H').
Qed.
Print Assumptions C80_values.
(** ** What is rejected, and which argument the exception names *)
Theorem C80_unknown_rejected : forall ds l a sh n rest, distinct_args ds -> Forall (wf ds) l -> room ds (length (positionals l)) ->
  ~ has_opt ds sh n ->
  (exists v, a = dashed sh n ++ 61%N :: v /\ form_ok sh n (61%N :: v) /\ ~ In 61%N n) \/
  (a = dashed sh n /\ form_ok sh n [] /\ ~ In 61%N n /\ ~ has_flag ds sh n) ->
  parse ds (command_line l ++ a :: rest) = inr (Unknown a).
Proof.
  intros ds l a sh n rest D W R NO H. unfold parse. rewrite next_positional_0. pose proof (parse_items ds l [] (a :: rest) D W R) as P.
  cbn [app] in P. change (positionals []) with (@nil text) in P. cbn [length] in P. rewrite expected_nil in P. rewrite P. clear P. cbn [parse_from].
  pose proof (shape_expected ds l (positionals l)) as SH.
  assert (X : existsb (opt_named sh n) (expected ds l (positionals l)) = false).
  { rewrite (shape_existsb _ (shape_opt_named sh n) _ _ SH). destruct (existsb (opt_named sh n) ds) eqn:E; [apply has_opt_existsb in E; contradiction|reflexivity]. }
  destruct H as [(v & -> & F & E)|(-> & F & E & NF)].
  - rewrite (prefixed_form sh n (61%N :: v) F), (proj2 (split_eq_some _ n v) (conj eq_refl E)).
    rewrite (proj2 (change_first_some _ (set_opt v) _) X). reflexivity.
  - pose proof (prefixed_form sh n [] F) as P. rewrite !app_nil_r in P. rewrite P, (proj2 (split_eq_none n) E), X.
    assert (Y : existsb (flag_named sh n) (expected ds l (positionals l)) = false).
    { rewrite (shape_existsb _ (shape_flag_named sh n) _ _ SH). destruct (existsb (flag_named sh n) ds) eqn:Q; [apply has_flag_existsb in Q; contradiction|reflexivity]. }
    rewrite (proj2 (change_first_some _ set_flag _) Y). reflexivity.
Qed.
Print Assumptions C80_unknown_rejected.
Theorem C80_missing_value_rejected : forall ds l sh n, distinct_args ds -> Forall (wf ds) l -> room ds (length (positionals l)) ->
  has_opt ds sh n -> ~ In 61%N n -> form_ok sh n [] ->
  parse ds (command_line l ++ [dashed sh n]) = inr (NoValue (dashed sh n)).
Proof.
  intros ds l sh n D W R O E F. unfold parse. rewrite next_positional_0. pose proof (parse_items ds l [] [dashed sh n] D W R) as P.
  cbn [app] in P. change (positionals []) with (@nil text) in P. cbn [length] in P. rewrite expected_nil in P. rewrite P. clear P. cbn [parse_from].
  pose proof (prefixed_form sh n [] F) as P. rewrite !app_nil_r in P. rewrite P, (proj2 (split_eq_none n) E).
  rewrite (shape_existsb _ (shape_opt_named sh n) _ _ (shape_expected ds l (positionals l))), (proj2 (has_opt_existsb ds sh n) O). reflexivity.
Qed.
Print Assumptions C80_missing_value_rejected.
Theorem C80_too_many_rejected : forall ds l, distinct_args ds -> Forall (wf ds) l -> ~ room ds (length (positionals l)) ->
  exists a, parse ds (command_line l) = inr (Bad a) /\ In a (positionals l).
Proof.
  intros ds l D W R. destruct (parse_no_room ds l [] D W) as (a & A & B); [destruct ds; exact I|exact R|].
  cbn [positionals flat_map length] in A. rewrite expected_nil in A. exists a. split; [|exact B]. unfold parse. rewrite next_positional_0. exact A.
Qed.
Print Assumptions C80_too_many_rejected.
(** ** The two ways to give a value are the same *)
Theorem C80_equals_or_space : forall ds l sh n v l', distinct_args ds -> Forall (wf ds) l -> wf ds (IEq sh n v) -> wf ds (ISp sh n v) -> Forall (wf ds) l' ->
  parse ds (command_line (l ++ IEq sh n v :: l')) = parse ds (command_line (l ++ ISp sh n v :: l')).
Proof.
  intros ds l sh n v l' D W A B W'.
  assert (F1 : Forall (wf ds) (l ++ IEq sh n v :: l')) by (apply Forall_app; split; [exact W|constructor; assumption]).
  assert (F2 : Forall (wf ds) (l ++ ISp sh n v :: l')) by (apply Forall_app; split; [exact W|constructor; assumption]).
  assert (P : positionals (l ++ IEq sh n v :: l') = positionals (l ++ ISp sh n v :: l')) by (rewrite !positionals_app; reflexivity).
  destruct (room_dec ds (length (positionals (l ++ IEq sh n v :: l')))) as [R|R].
  - rewrite (parse_complete _ _ D F1 R). rewrite P in R. rewrite (parse_complete _ _ D F2 R). rewrite P. f_equal. apply expected_ext.
    + intros. rewrite !given_app. reflexivity.
    + intros. rewrite !flagged_app. reflexivity.
  - (* both are rejected for the same value *)
    unfold parse. rewrite next_positional_0.
    destruct (room_dec ds (length (positionals l))) as [R1|R1].
    + assert (Q : forall i, wf ds i -> positionals [i] = [] -> parse_from ds (slot ds 0) (command_line (l ++ i :: l')) =
        parse_from (expected ds (l ++ [i]) (positionals l)) (slot ds (length (positionals l))) (command_line l')).
      { intros i Wi Pi. replace (l ++ i :: l') with ((l ++ [i]) ++ l') by (rewrite <- app_assoc; reflexivity).
        unfold command_line. rewrite flat_map_app. fold (command_line (l ++ [i])) (command_line l').
        assert (Pl : positionals (l ++ [i]) = positionals l) by (rewrite positionals_app, Pi, app_nil_r; reflexivity).
        pose proof (parse_items ds (l ++ [i]) [] (command_line l') D) as X. cbn [app] in X. change (positionals []) with (@nil text) in X. cbn [length] in X.
        rewrite expected_nil, Pl in X. apply X; [|exact R1]. apply Forall_app. split; [exact W|]. constructor; [exact Wi|constructor]. }
      rewrite (Q _ A eq_refl), (Q _ B eq_refl). f_equal. apply expected_ext; intros; rewrite ?given_app, ?flagged_app; reflexivity.
    + destruct (parse_no_room ds l [] D W) as (a & X & _); [destruct ds; exact I|exact R1|].
      cbn [positionals flat_map length] in X. rewrite expected_nil in X.
      assert (Q : forall r, parse_from ds (slot ds 0) (command_line l ++ r) = inr (Bad a)).
      { intros r. apply (parse_from_error_app (S (length (command_line l)))); [lia|exact X]. }
      unfold command_line. rewrite !flat_map_app. fold (command_line l). rewrite !Q. reflexivity.
Qed.
Print Assumptions C80_equals_or_space.

(** ** Command lines that are not accepted or not understood as one may think *)
Definition demo_args : list argument := [flag "verbose" "v"; opt "log" "l" "info"; APos (lit "input") []; AList (lit "names") []; APos (lit "after") (lit "none")].
Example demo_distinct : distinct_args demo_args.
Proof. cbn. repeat split; intros; repeat match goal with H : _ \/ _ |- _ => destruct H | H : False |- _ => destruct H end; try discriminate. Qed.
Example demo_case :
  parse demo_args (map lit ["-l=warn"; "in.txt"; "--verbose"; "A"; "--log"; "off"; "-"])%string =
    inl [AFlag (lit "verbose") (lit "v") true; AOpt (lit "log") (lit "l") (lit "info") (lit "off"); APos (lit "input") (lit "in.txt");
         AList (lit "names") [lit "A"; lit "-"]; APos (lit "after") (lit "none")].
Proof. reflexivity. Qed.
Example demo_items : map lit ["-l=warn"; "in.txt"; "--verbose"; "A"; "--log"; "off"; "-"]%string =
  command_line [IEq true (lit "l") (lit "warn"); IPos (lit "in.txt"); IFlag false (lit "verbose"); IPos (lit "A"); ISp false (lit "log") (lit "off"); IPos (lit "-")].
Proof. reflexivity. Qed.
(** a value without a name is never one that begins with a dash and has another character: there is no "--" to end the options *)
Theorem C80_no_dashed_positionals : forall ds args ds', distinct_args ds -> parse ds args = inl ds' ->
  forall a a' i, nth_error ds i = Some a -> nth_error ds' i = Some a' ->
  match a, a' with
  | APos _ v, APos _ v' => v' = v \/ forall c r, v' <> 45%N :: c :: r
  | AList _ vs, AList _ vs' => exists new, vs' = vs ++ new /\ Forall (fun v => forall c r, v <> 45%N :: c :: r) new
  | _, _ => True
  end.
Proof.
  intros ds args ds' D H a a' i A A'. destruct (parse_sound ds args ds' D H) as (l & -> & W & R).
  destruct (C80_values ds l D W R) as (ds2 & E & _ & V). assert (ds2 = ds') by congruence. subst ds2. specialize (V i a a' A A').
  assert (P : Forall (fun v => forall c r, v <> 45%N :: c :: r) (positionals l)).
  { apply Forall_forall. intros v I. unfold positionals in I. apply in_flat_map in I. destruct I as (x & X & Y). rewrite Forall_forall in W. specialize (W x X).
    destruct x; cbn in Y; try contradiction. destruct Y as [<-|[]]. exact W. }
  destruct a; subst a'; try exact I.
  - match goal with |- nth ?k ?q ?d = ?d \/ _ => destruct (nth_in_or_default k q d) as [N|N]; [right|left; exact N] end.
    destruct (existsb _ _); [destruct N|]. rewrite Forall_forall in P. exact (P _ N).
  - eexists. split; [reflexivity|]. destruct (existsb _ _); [constructor|]. apply Forall_forall. intros v N. rewrite Forall_forall in P. apply P.
    rewrite <- (firstn_skipn (length (filter is_positional (firstn i ds))) (positionals l)). apply in_app_iff. right. exact N.
Qed.
Print Assumptions C80_no_dashed_positionals.
(** an option takes the next argument whatever it is *)
Theorem C80_option_takes_next : forall ds l sh n v, distinct_args ds -> Forall (wf ds) l -> wf ds (ISp sh n []) -> room ds (length (positionals l)) ->
  exists ds', parse ds (command_line l ++ [dashed sh n; v]) = inl ds' /\
  forall i name s d x, nth_error ds i = Some (AOpt name s d x) -> goes_by sh n name s -> nth_error ds' i = Some (AOpt name s d v).
Proof.
  intros ds l sh n v D W W1 R. assert (F : Forall (wf ds) (l ++ [ISp sh n v])) by (apply Forall_app; split; [exact W|constructor; [exact W1|constructor]]).
  assert (R' : room ds (length (positionals (l ++ [ISp sh n v])))) by (rewrite positionals_app, app_nil_r; exact R).
  replace (command_line l ++ [dashed sh n; v]) with (command_line (l ++ [ISp sh n v])) by (unfold command_line; rewrite flat_map_app; reflexivity).
  destruct (C80_values ds _ D F R') as (ds' & E & L & V). exists ds'. split; [exact E|]. intros i name s d x H G.
  destruct (nth_error ds' i) as [a'|] eqn:A'.
  - specialize (V i _ a' H A'). cbn in V. rewrite V, given_app. cbn. rewrite (proj2 (goes_byb_iff sh n name s) G). cbn. now rewrite last_app1.
  - exfalso. apply nth_error_None in A'. assert (X : nth_error ds i <> None) by congruence. apply nth_error_Some in X. lia.
Qed.
Print Assumptions C80_option_takes_next.
(** the arguments after a list never get a value *)
Theorem C80_after_list_unset : forall ds l n vs e, distinct_args (ds ++ AList n vs :: e) ->
  Forall (wf (ds ++ AList n vs :: e)) l -> room (ds ++ AList n vs :: e) (length (positionals l)) ->
  exists ds', parse (ds ++ AList n vs :: e) (command_line l) = inl ds' /\
  forall i m v, (length ds < i)%nat -> nth_error (ds ++ AList n vs :: e) i = Some (APos m v) -> nth_error ds' i = Some (APos m v).
Proof.
  intros ds l n vs e D W R. destruct (C80_values _ l D W R) as (ds' & E & Q & V). exists ds'. split; [exact E|].
  intros i m v L H. destruct (nth_error ds' i) as [a'|] eqn:H'.
  2:{ exfalso. apply nth_error_None in H'. assert (X : nth_error (ds ++ AList n vs :: e) i <> None) by congruence. apply nth_error_Some in X. lia. }
  specialize (V i _ a' H H'). cbn in V.
  assert (X : existsb (fun x => match x with AList _ _ => true | _ => false end) (firstn i (ds ++ AList n vs :: e)) = true).
  { apply existsb_exists. exists (AList n vs). split; [|reflexivity]. rewrite firstn_app. apply in_app_iff. right.
    destruct (i - length ds)%nat eqn:Z; [lia|]. left. reflexivity. }
  rewrite X in V. rewrite V. match goal with |- context [nth ?k [] v] => destruct k end; reflexivity.
Qed.
Print Assumptions C80_after_list_unset.
(** an option that is given with an empty value has its default value *)
Theorem C80_empty_value_refuted :
  ~ (forall ds l n s d v, distinct_args ds -> Forall (wf ds) l -> In (AOpt n s d v) ds -> given n s l <> [] ->
     exists ds', parse ds (command_line l) = inl ds' /\ get_arg (fun a => match a with AOpt m _ d v => if text_eqb m n then Some (if is_nil v then d else v) else None | _ => None end) ds'
       = Ok (last (given n s l) [])).
Proof.
  intros H. destruct (H [opt "log" "l" "info"] [IEq false (lit "log") []] (lit "log") (lit "l") (lit "info") []) as (ds' & E & G).
  - cbn. split; [intros ? ? ? ? []|exact I].
  - repeat constructor; [vm_compute; intuition discriminate|discriminate|discriminate|]. exists (lit "log"), (lit "l"), (lit "info"), []. split; [left; reflexivity|reflexivity].
  - left. reflexivity.
  - discriminate.
  - vm_compute in E. injection E as <-. vm_compute in G. discriminate.
Qed.
Print Assumptions C80_empty_value_refuted.

(** * C81: the utilities *)
(** ** The system controller runs if and only if its command line is in order; what it then uses *)
Theorem C81_controller_runs : forall D file join l, Forall (wf controller_args) l -> forall k,
  controller_main D file join (command_line l) = Ok (Run k) <->
  flag_of "help" "h" l = false /\ flag_of "version" "v" l = false /\ positionals l <> [] /\ NoDup (positionals l) /\
  k_required k = positionals l /\ k_name k = option_of "name" "n" "SystemController" l /\ k_uri k = option_of "connect-uri" "u" "silkit://localhost:8500" l /\
  join (k_config k) (k_name k) (k_uri k) = true /\
  ((option_given "configuration" "c" l /\ ~ option_given "log" "l" l /\ file (option_of "configuration" "c" "" l) = FileOk (k_config k)) \/
   (~ option_given "configuration" "c" l /\ exists lv, lower (option_of "log" "l" "info" l) = lit (level_word lv) /\
      tl (option_of "log" "l" "info" l) = lower (tl (option_of "log" "l" "info" l)) /\ k_config k = stdout_only D lv)).
Proof.
  intros D file join l W k. rewrite (controller_eq D file join l W). cbv zeta.
  pose proof (option_given_b "log" "l" l) as GL. pose proof (option_given_b "configuration" "c" l) as GC.
  destruct (flag_of "help" "h" l). { split; [discriminate|intros (X & _); discriminate]. }
  destruct (flag_of "version" "v" l). { split; [discriminate|intros (_ & X & _); discriminate]. }
  destruct (is_nil (positionals l)) eqn:EP. { apply is_nil_true in EP. split; [discriminate|intros (_ & _ & X & _); contradiction]. }
  apply is_nil_false in EP. pose proof (distinct_nodup (positionals l)) as DN.
  set (name := option_of "name" "n" "SystemController" l). set (uri := option_of "connect-uri" "u" "silkit://localhost:8500" l).
  set (log := option_of "log" "l" "info" l) in *. set (cfg := option_of "configuration" "c" "" l).
  assert (FIN : forall c, (if negb (join c name uri) then Ok (Fail (-3)) else if negb (distinct (positionals l)) then Ok (Fail (-2)) else Ok (Run (mkController name uri (positionals l) c))) = Ok (Run k) <->
     NoDup (positionals l) /\ k_required k = positionals l /\ k_name k = name /\ k_uri k = uri /\ join (k_config k) (k_name k) (k_uri k) = true /\ c = k_config k).
  { intros c. destruct (join c name uri) eqn:J; cbn [negb].
    - destruct (distinct (positionals l)) eqn:DI; cbn [negb].
      + split.
        * intros X. injection X as <-. cbn. repeat split; auto. now apply DN.
        * intros (_ & A & B & C & _ & ->). destruct k. cbn in *. subst. reflexivity.
      + split; [discriminate|]. intros (X & _). apply DN in X. congruence.
    - split; [discriminate|]. intros (_ & _ & B & C & X & Y). rewrite B, C, <- Y in X. congruence. }
  destruct (negb (is_nil (last (given (lit "configuration") (lit "c") l) []))) eqn:HC.
  - assert (G : option_given "configuration" "c" l) by now apply GC.
    destruct (negb (is_nil (last (given (lit "log") (lit "l") l) []))) eqn:HL; cbn [andb].
    + assert (option_given "log" "l" l) by now apply GL. split; [discriminate|]. intros (_ & _ & _ & _ & _ & _ & _ & _ & [(_ & X & _)|(X & _)]); contradiction.
    + assert (NL : ~ option_given "log" "l" l) by (intros X; apply GL in X; discriminate).
      assert (V : valid_level log = true) by (unfold log; rewrite (not_given_default _ _ _ _ NL); reflexivity). rewrite V. cbn [negb].
      destruct (file cfg) as [c| |] eqn:F.
      * rewrite FIN. split.
        -- intros (A & B & C & D' & E & ->). repeat split; auto.
        -- intros (_ & _ & _ & A & B & C & D' & E & [(_ & _ & X)|(X & _)]); [|contradiction]. repeat split; auto. congruence.
      * split; [discriminate|]. intros (_ & _ & _ & _ & _ & _ & _ & _ & [(_ & _ & X)|(X & _)]); [discriminate|contradiction].
      * split; [discriminate|]. intros (_ & _ & _ & _ & _ & _ & _ & _ & [(_ & _ & X)|(X & _)]); [discriminate|contradiction].
  - assert (NC : ~ option_given "configuration" "c" l) by (intros X; apply GC in X; discriminate). rewrite andb_false_r.
    destruct (valid_level log) eqn:V; cbn [negb].
    + apply valid_level_iff in V. destruct V as (lv & V). destruct (load D (stdout_config (upper1 log))) as [c| |] eqn:L.
      * apply load_stdout_ok in L. destruct L as (lv' & L & ->). pose proof (upper1_other _ _ _ V L) as ->. rewrite FIN. split.
        -- intros (A & B & C & D' & E & X). repeat split; auto. right. split; [exact NC|]. exists lv. split; [exact V|]. split; [|congruence]. now apply (upper1_name _ _ V).
        -- intros (_ & _ & _ & A & B & C & D' & E & [(X & _)|(_ & lw & X & _ & Y)]); [contradiction|]. repeat split; auto.
           rewrite Y. f_equal. rewrite V in X. destruct lv, lw; vm_compute in X; congruence.
      * split; [discriminate|]. intros (_ & _ & _ & _ & _ & _ & _ & _ & [(X & _)|(_ & lw & X & Y & _)]); [contradiction|].
        apply (upper1_name _ _ X) in Y. assert (Z : load D (stdout_config (upper1 log)) = Ok (stdout_only D lw)) by (apply load_stdout_ok; eauto). congruence.
      * split; [discriminate|]. rewrite load_stdout in L. destruct (r_level (NVal true (upper1 log)) LInfo) eqn:R; try discriminate. now apply r_level_defined in R.
    + split; [discriminate|]. intros (_ & _ & _ & _ & _ & _ & _ & _ & [(X & _)|(_ & lw & X & _)]); [contradiction|].
      assert (Y : valid_level log = true) by (apply valid_level_iff; eauto). congruence.
Qed.
Print Assumptions C81_controller_runs.
(** an unreadable command line *)
Lemma parse_cases : forall ds args, distinct_args ds -> (exists e, parse ds args = inr e) \/ exists l, args = command_line l /\ Forall (wf ds) l /\ room ds (length (positionals l)).
Proof. intros ds args D. destruct (parse ds args) as [ds'|e] eqn:P; [right; exact (parse_sound _ _ _ D P)|left; eauto]. Qed.
Definition ctl_line : list item := [IPos (lit "A"); ISp true (lit "n") (lit "Ctl"); IPos (lit "B"); IEq false (lit "log") (lit "Warn"); IFlag true (lit "ni")].
Example controller_case : forall D, Forall (wf controller_args) ctl_line /\ controller_main D (fun _ => FileOther) (fun _ _ _ => true) (command_line ctl_line) =
    Ok (Run (mkController (lit "Ctl") (lit "silkit://localhost:8500") [lit "A"; lit "B"] (stdout_only D LWarn))).
Proof. intros D. split; [apply wfb_ok; reflexivity|]. apply C81_controller_runs; [apply wfb_ok; reflexivity|]. repeat split; try discriminate.
  - repeat constructor; intros []; [discriminate|contradiction].
  - right. split; [intros X; now apply X|]. exists LWarn. repeat split.
Qed.
(** in every other case it ends, and how; no command line makes it end in another way than by reading a file *)
Theorem C81_controller_ends : forall D file join args,
  match controller_main D file join args with
  | Ok _ => True
  | Exn => exists l, args = command_line l /\ Forall (wf controller_args) l /\ file (option_of "configuration" "c" "" l) = FileOther
  | UB => False
  end.
Proof.
  intros D file join args. destruct (parse_cases controller_args args controller_distinct) as [(e & P)|(l & -> & W & _)].
  - unfold controller_main. now rewrite P.
  - rewrite (controller_eq D file join l W). cbv zeta. destruct (flag_of "help" "h" l); [exact I|]. destruct (flag_of "version" "v" l); [exact I|].
    destruct (is_nil (positionals l)); [exact I|]. destruct (_ && _); [exact I|]. destruct (negb (valid_level _)); [exact I|].
    destruct (negb (is_nil (last (given (lit "configuration") (lit "c") l) []))).
    + destruct (file (option_of "configuration" "c" "" l)) eqn:F; [|exact I|eauto]. destruct (negb _); [exact I|]. destruct (negb _); exact I.
    + destruct (load D _); [|exact I|exact I]. destruct (negb _); [exact I|]. destruct (negb _); exact I.
Qed.
Print Assumptions C81_controller_ends.
(** a name that is there twice is found after the participant has joined: if it could not join the code is -3 *)
Theorem C81_controller_duplicates_late : forall D file l, Forall (wf controller_args) l -> flag_of "help" "h" l = false -> flag_of "version" "v" l = false ->
  ~ option_given "configuration" "c" l -> ~ option_given "log" "l" l -> ~ NoDup (positionals l) ->
  controller_main D file (fun _ _ _ => true) (command_line l) = Ok (Fail (-2)) /\ controller_main D file (fun _ _ _ => false) (command_line l) = Ok (Fail (-3)).
Proof.
  intros D file l W H V C L N. assert (B : forall b : bool, (b = true -> False) -> b = false) by (intros []; [tauto|reflexivity]).
  assert (PN : is_nil (positionals l) = false) by (destruct (positionals l); [exfalso; apply N; constructor|reflexivity]).
  assert (DI : distinct (positionals l) = false) by (apply B; intros X; apply N; now apply distinct_nodup).
  rewrite !(controller_eq D file _ l W). cbv zeta. rewrite H, V, PN.
  rewrite (B (negb (is_nil (last (given (lit "configuration") (lit "c") l) [])))) by (intros X; apply C; now apply option_given_b). rewrite andb_false_r.
  rewrite (not_given_default "log" "l" "info" l L). rewrite DI. split; reflexivity.
Qed.
Print Assumptions C81_controller_duplicates_late.
(** a level in capital letters is one that is accepted, and then the configuration made from it is not *)
Theorem C81_controller_capital_level_refuted : ~ (forall D file join l, Forall (wf controller_args) l -> positionals l <> [] -> NoDup (positionals l) ->
  valid_level (option_of "log" "l" "info" l) = true -> (forall c n u, join c n u = true) -> ~ option_given "configuration" "c" l -> flag_of "help" "h" l = false ->
  flag_of "version" "v" l = false -> exists k, controller_main D file join (command_line l) = Ok (Run k)).
Proof.
  intros H. destruct (H exD (fun _ => FileOther) (fun _ _ _ => true) [IPos (lit "A"); ISp false (lit "log") (lit "WARN")]) as (k & K); try reflexivity.
  - apply wfb_ok. reflexivity.
  - discriminate.
  - repeat constructor. intros [].
  - intros X. now apply X.
  - vm_compute in K. discriminate.
Qed.
Print Assumptions C81_controller_capital_level_refuted.

(** ** The controller sets the workflow once, when for the first time all that are required are connected, and puts itself into it *)
Theorem C81_workflow : forall req own os, req <> [] ->
  (exists a b, os = a ++ b /\ forall n, In n req -> up n a) /\ c_workflow (ctl_run req own os) = [req ++ [own]] \/
  (forall a b, os = a ++ b -> exists n, In n req /\ ~ up n a) /\ c_workflow (ctl_run req own os) = [].
Proof.
  intros req own os R. pose proof (ctl_inv_run req own os R) as I. unfold ctl_inv in I. destruct (c_set (ctl_run req own os)); [left|right]; tauto.
Qed.
Print Assumptions C81_workflow.
Example workflow_case : c_workflow (ctl_run [lit "A"; lit "B"] (lit "S") [Connected (lit "B"); Connected (lit "C"); Disconnected (lit "B"); Connected (lit "A"); Connected (lit "B"); Disconnected (lit "A"); Connected (lit "A")])
  = [[lit "A"; lit "B"; lit "S"]].
Proof. reflexivity. Qed.
Example no_workflow_case : c_workflow (ctl_run [lit "A"; lit "B"] (lit "S") [Connected (lit "B"); Disconnected (lit "B"); Connected (lit "A"); Connected (lit "A")]) = [].
Proof. reflexivity. Qed.
(** a name that is required and never connects stops it; so does its own name, as the monitor reports the other participants *)
Theorem C81_workflow_never : forall req own os n, In n req -> ~ In (Connected n) os -> c_workflow (ctl_run req own os) = [].
Proof.
  intros req own os n I N. assert (R : req <> []) by (intros ->; contradiction). destruct (C81_workflow req own os R) as [[(a & b & -> & U) _]|[_ X]]; [|exact X].
  destruct (U n I) as (c & d & -> & _). exfalso. apply N. rewrite <- app_assoc. apply in_or_app. right. now left.
Qed.
Print Assumptions C81_workflow_never.

(** ** A signal: stopped or aborted according to the state, at most six waits, at most one abort; an error is reported if and only if no wait
    saw the final state *)
Definition waits (l : list act) : nat := length (filter (fun a => match a with DoWait => true | _ => false end) l).
Definition aborts (l : list act) : nat := length (filter (fun a => match a with DoAbort => true | _ => false end) l).
Theorem C81_signal : forall st ready, exists l, on_signal st ready = Some l /\
  (1 <= waits l <= 6)%nat /\ (aborts l <= 1)%nat /\
  (forall k, (k < waits l - 1)%nat -> ready k = false) /\ (In DoReportError l <-> ready (waits l - 1)%nat = false) /\
  (In DoStop l <-> st = SRunning \/ st = SPaused) /\
  (In DoAbort l <-> st = SOther \/ (st <> SAborting /\ ready 0%nat = false /\ ready 1%nat = false /\ ready 2%nat = false)) /\
  (ready (waits l - 1)%nat = false -> In DoAbort l \/ st = SAborting) /\
  (hd_error l = Some (match st with SRunning | SPaused => DoStop | SOther => DoAbort | _ => DoWait end)).
Proof.
  intros st ready.
  assert (L : forall k, k = 0%nat \/ k = 1%nat \/ k = 2%nat \/ k = 3%nat \/ k = 4%nat \/ (5 <= k)%nat) by (intros; lia).
  destruct (ready 0%nat) eqn:E0; [|destruct (ready 1%nat) eqn:E1; [|destruct (ready 2%nat) eqn:E2; [|destruct (ready 3%nat) eqn:E3; [|destruct (ready 4%nat) eqn:E4; [|destruct (ready 5%nat) eqn:E5]]]]];
    destruct st; unfold on_signal, retries; cbn [Nat.add]; rewrite ?E0, ?E1, ?E2, ?E3, ?E4, ?E5; cbn [option_map app]; eexists; (split; [reflexivity|]); cbn;
    (split; [lia|]); (split; [lia|]);
    (split; [intros k K; destruct (L k) as [->|[->|[->|[->|[->|X]]]]]; first [assumption|lia]|]);
    rewrite ?E0, ?E1, ?E2, ?E3, ?E4, ?E5;
    repeat split; intros; repeat match goal with H : _ \/ _ |- _ => destruct H | H : _ /\ _ |- _ => destruct H | H : False |- _ => destruct H end;
    try discriminate; try congruence; first [right; repeat split; discriminate|tauto].
Qed.
Print Assumptions C81_signal.

(** ** The monitor runs if and only if its command line is in order; what it then uses *)
Theorem C81_monitor_runs : forall D file join l, Forall (wf monitor_args) l -> forall m,
  monitor_main D file join (command_line l) = Ok (Run m) <->
  let au := flag_of "autonomous" "a" l in let co := flag_of "coordinated" "r" l in let sy := flag_of "sync" "s" l in
  positionals l = [] /\ flag_of "help" "h" l = false /\ flag_of "version" "v" l = false /\ (au = true -> co = false) /\ (sy = true -> au = true \/ co = true) /\
  m_pname m = option_of "name" "n" "SystemMonitor" l /\ m_uri m = option_of "connect-uri" "u" "silkit://localhost:8500" l /\
  m_lifecycle m = (if au then Some MAutonomous else if co then Some MCoordinated else None) /\ m_sync m = sy /\
  join (m_config m) (m_pname m) (m_uri m) = true /\
  ((option_given "configuration" "c" l /\ file (option_of "configuration" "c" "" l) = FileOk (m_config m)) \/
   (~ option_given "configuration" "c" l /\ exists lv, option_of "loglevel" "l" "Info" l = lit (level_name lv) /\ m_config m = stdout_only D lv)).
Proof.
  intros D file join l W m. cbv zeta. destruct (positionals l) as [|p ps] eqn:P.
  2:{ split; [|intros (X & _); discriminate]. intros X. exfalso. unfold monitor_main in X. destruct (parse monitor_args (command_line l)) as [ds|] eqn:PA; [|discriminate].
      destruct (C80_too_many_rejected monitor_args l monitor_distinct W) as (a & Y & _); [rewrite monitor_room, P; discriminate|]. congruence. }
  destruct (monitor_parsed l W P) as (ds & PA & E1 & E2 & E3 & E4 & E5 & E6 & E7 & E8 & E9).
  unfold monitor_main. rewrite PA, E1. cbn [bind]. destruct (flag_of "help" "h" l). { split; [discriminate|intros (_ & X & _); discriminate]. }
  rewrite E2. cbn [bind]. destruct (flag_of "version" "v" l). { split; [discriminate|intros (_ & _ & X & _); discriminate]. }
  rewrite E3, E4, E5, E6, E7, E8, E9. cbn [bind]. unfold optv_of. cbn [o_value o_has].
  set (au := flag_of "autonomous" "a" l). set (co := flag_of "coordinated" "r" l). set (sy := flag_of "sync" "s" l).
  set (name := option_of "name" "n" "SystemMonitor" l). set (uri := option_of "connect-uri" "u" "silkit://localhost:8500" l).
  destruct (au && co) eqn:AC. { apply andb_true_iff in AC. destruct AC as [-> ->]. split; [discriminate|]. intros (_ & _ & _ & X & _). now specialize (X eq_refl). }
  destruct (sy && negb co && negb au) eqn:SY.
  { apply andb_true_iff in SY. destruct SY as [SY A]. apply andb_true_iff in SY. destruct SY as [S C]. apply negb_true_iff in A, C. rewrite A, C, S.
    split; [discriminate|]. intros (_ & _ & _ & _ & X & _). destruct (X eq_refl); discriminate. }
  assert (MODE : (if au || co then Some (if au then MAutonomous else MCoordinated) else None) = (if au then Some MAutonomous else if co then Some MCoordinated else None)) by (destruct au, co; reflexivity).
  assert (SYNC : (au || co) && sy = sy) by (destruct au, co, sy; cbn in *; congruence). rewrite MODE, SYNC.
  assert (EX1 : au = true -> co = false) by (destruct au, co; cbn in *; congruence).
  assert (EX2 : sy = true -> au = true \/ co = true) by (destruct sy, au, co; cbn in *; auto; congruence).
  assert (LV : (if negb (is_nil (last (given (lit "loglevel") (lit "l") l) [])) then option_of "loglevel" "l" "" l else lit "Info") = option_of "loglevel" "l" "Info" l).
  { unfold option_of. now destruct (last (given (lit "loglevel") (lit "l") l) []). } rewrite LV.
  assert (CF : negb (is_nil (option_of "configuration" "c" "" l)) = true <-> option_given "configuration" "c" l).
  { unfold option_given, option_of. destruct (last (given (lit "configuration") (lit "c") l) []); cbn; split; congruence. }
  set (mode := if au then Some MAutonomous else if co then Some MCoordinated else None) in *.
  assert (FIN : forall c, (if negb (join c name uri) then Ok (Fail (-3)) else Ok (Run (mkMonitor name uri c mode sy))) = Ok (Run m) <->
     m_pname m = name /\ m_uri m = uri /\ m_lifecycle m = mode /\ m_sync m = sy /\ join (m_config m) (m_pname m) (m_uri m) = true /\ c = m_config m).
  { intros c. destruct (join c name uri) eqn:J; cbn [negb].
    - split; [intros X; injection X as <-; cbn; repeat split; auto|]. intros (A & B & C & D' & _ & E). destruct m. cbn in *. now subst.
    - split; [discriminate|]. intros (A & B & _ & _ & X & Y). rewrite A, B, <- Y in X. congruence. }
  destruct (negb (is_nil (option_of "configuration" "c" "" l))) eqn:HC.
  - assert (G : option_given "configuration" "c" l) by now apply CF. clearbody mode. destruct (file (option_of "configuration" "c" "" l)) as [c| |] eqn:F.
    + rewrite FIN. split.
      * intros (A & B & C & D' & E & ->). repeat (split; [auto; fail|]). left. auto.
      * intros (_ & _ & _ & _ & _ & A & B & C & D' & E & [(_ & X)|(X & _)]); [|contradiction]. repeat (split; [auto; fail|]). congruence.
    + split; [discriminate|]. intros (_ & _ & _ & _ & _ & _ & _ & _ & _ & _ & [(_ & X)|(X & _)]); [discriminate|contradiction].
    + split; [discriminate|]. intros (_ & _ & _ & _ & _ & _ & _ & _ & _ & _ & [(_ & X)|(X & _)]); [discriminate|contradiction].
  - assert (NG : ~ option_given "configuration" "c" l) by (intros X; apply CF in X; discriminate).
    destruct (load D (stdout_config (option_of "loglevel" "l" "Info" l))) as [c| |] eqn:L.
    + apply load_stdout_ok in L. destruct L as (lv & L & ->). rewrite FIN. split.
      * intros (A & B & C & D' & E & X). repeat (split; [auto; fail|]). right. split; [exact NG|]. exists lv. auto.
      * intros (_ & _ & _ & _ & _ & A & B & C & D' & E & [(X & _)|(_ & lw & X & Y)]); [contradiction|]. repeat (split; [auto; fail|]). rewrite Y.
        f_equal. rewrite L in X. destruct lv, lw; vm_compute in X; congruence.
    + split; [discriminate|]. intros (_ & _ & _ & _ & _ & _ & _ & _ & _ & _ & [(X & _)|(_ & lw & X & Y)]); [contradiction|].
      assert (Z : load D (stdout_config (option_of "loglevel" "l" "Info" l)) = Ok (stdout_only D lw)) by (apply load_stdout_ok; eauto). congruence.
    + split; [discriminate|]. rewrite load_stdout in L. destruct (r_level (NVal true (option_of "loglevel" "l" "Info" l)) LInfo) eqn:R; try discriminate. now apply r_level_defined in R.
Qed.
Print Assumptions C81_monitor_runs.
Definition mon_line : list item := [IFlag true (lit "r"); IEq true (lit "l") (lit "Debug"); IFlag false (lit "sync")].
Example monitor_case : forall D, Forall (wf monitor_args) mon_line /\ monitor_main D (fun _ => FileOther) (fun _ _ _ => true) (command_line mon_line) =
  Ok (Run (mkMonitor (lit "SystemMonitor") (lit "silkit://localhost:8500") (stdout_only D LDebug) (Some MCoordinated) true)).
Proof.
  intros D. split; [apply wfb_ok; reflexivity|]. apply C81_monitor_runs; [apply wfb_ok; reflexivity|]. cbv zeta. repeat split; try discriminate; [right; reflexivity|].
  right. split; [intros X; now apply X|]. exists LDebug. split; reflexivity.
Qed.
(** the usage names the levels Critical, Error, Warning, Info, Debug, Trace (PM:76-77): with one of them it does not run *)
Theorem C81_monitor_documented_level_refuted : ~ (forall D file join x, In x (map lit ["Critical"; "Error"; "Warning"; "Info"; "Debug"; "Trace"]%string) -> (forall c n u, join c n u = true) ->
  exists m, monitor_main D file join [lit "--loglevel"; x] = Ok (Run m)).
Proof.
  intros H. destruct (H exD (fun _ => FileOther) (fun _ _ _ => true) (lit "Warning")) as (m & M); [cbn; tauto|reflexivity|]. vm_compute in M. discriminate.
Qed.
Print Assumptions C81_monitor_documented_level_refuted.
