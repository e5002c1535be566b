(** C81: the registry *)
From Coq Require Import String Ascii NArith ZArith List Bool Lia.
From Verif Require Import Base TextModel YamlModel YamlCheckModel YamlRound YamlProps ParticipantModel CliModel CliProofs CliToolProofs CliProps.
Import ListNotations.
Open Scope Z_scope.
Open Scope list_scope.

(** the configuration the registry reads: the file if one is given *)
Definition reads (e : reg_env) (l : list item) (f : rcfg) : Prop :=
  (option_given "registry-configuration" "c" l /\ e_file e (option_of "registry-configuration" "c" "" l) = FileOk f) \/
  (~ option_given "registry-configuration" "c" l /\ f = rcfg0).
Definition is_given (n s : string) (l : list item) : bool := match last (given (lit n) (lit s) l) [] with [] => false | _ => true end.
(** what the registry runs with, from the items and the file [f] *)
Definition expected_registry (D : dbl) (e : reg_env) (l : list item) (lv : level) (f : rcfg) : registry :=
  let d := pcfg0 D in let m := middleware0 D in
  let svc := e_win e && flag_of "windows-service" "W" l in
  let uri := match rc_listen f with Some (c :: r) => c :: r | _ => option_of "listen-uri" "u" "silkit://localhost:8500" l end in
  let own := match svc, lv with
             | true, LOff => []
             | true, _ => [mkSink FSimple SFile lv (if is_given "directory" "C" l then lit "VectorSilKitRegistry_WindowsService" else e_tmp e) [] []]
             | false, _ => [mkSink FSimple SStdout lv [] [] []]
             end in
  mkRegistry
    (mkPc (p_schema d) (rc_description f) (p_file d) (p_name d) (p_can d) (p_lin d) (p_eth d) (p_flexray d) (p_pubs d) (p_subs d) (p_servers d) (p_clients d)
       (mkLog (lg_remote (p_logging d)) (lg_flush (p_logging d)) (match lg_sinks (rc_logging f) with [] => own | s => s end))
       (p_health d) (p_tracing d) (p_ext d) (p_includes d)
       (mkMw uri (mw_attempts m) (mw_rcvbuf m) (mw_sndbuf m) (mw_nodelay m) (mw_quickack m)
          (match rc_domain f with Some b => b | None => if svc then false else mw_domain m end)
          (mw_acceptors m) (mw_proxy m) (mw_remote m) (mw_timeout m))
       (mkExp (ex_time (p_exp d)) (mkMetrics (me_sinks (rc_metrics f)) (Some (match me_collect (rc_metrics f) with Some b => b | None => true end)) (me_interval (rc_metrics f)))))
    uri
    (match rc_dashboard f with
     | Some u => Some u
     | None => if flag_of "enable-dashboard" "Q" l || is_given "dashboard-uri" "d" l then Some (option_of "dashboard-uri" "d" "http://localhost:8082" l) else None
     end)
    (if is_given "generate-configuration" "g" l then Some (option_of "generate-configuration" "g" "" l) else None)
    svc
    (if is_given "x-status-file" "" l && negb svc then Some (option_of "x-status-file" "" "" l) else None).
Lemma is_given_iff : forall n s l, is_given n s l = true <-> option_given n s l.
Proof. intros. unfold is_given, option_given. destruct (last (given (lit n) (lit s) l) []); split; congruence. Qed.
Lemma is_given_b : forall n s l, negb (is_nil (last (given (lit n) (lit s) l) [])) = is_given n s l.
Proof. intros. unfold is_given. now destruct (last (given (lit n) (lit s) l) []). Qed.
Lemma option_of_nil : forall n s l, is_nil (option_of n s "" l) = negb (is_given n s l).
Proof. intros. unfold option_of, is_given. now destruct (last (given (lit n) (lit s) l) []). Qed.

Lemma sanitize_registry_eq : forall D c x y, p_name c = [] ->
  sanitize_registry D c (x :: y) = Ok (set_uri (match mw_uri (p_middleware c) with [] => x :: y | u => u end) c).
Proof.
  intros D c x y N. unfold sanitize_registry, sanitize. rewrite N. cbn [is_nil lit list_ascii_of_string map].
  destruct c as [a0 a1 a2 a3 a4 a5 a6 a7 a8 a9 a10 a11 a12 a13 a14 a15 a16 mw a17]. destruct mw as [u b1 b2 b3 b4 b5 b6 b7 b8 b9 b10]. cbn in N. subst. unfold set_name, set_uri. cbn [p_middleware mw_uri].
  destruct u as [|u us]; cbn [is_nil]; [reflexivity|]. destruct (negb (text_eqb (u :: us) (x :: y))); reflexivity.
Qed.

(** ** The registry runs if and only if its command line, the directory and the file are in order, with what was given on the command line and in the
    file; the file wins *)
Theorem C81_registry_runs : forall D e l, Forall (wf (registry_args (e_win e))) l -> forall r,
  registry_main D e (command_line l) = Ok (RegRun r) <->
  positionals l = [] /\ flag_of "help" "h" l = false /\ flag_of "version" "v" l = false /\
  (option_given "directory" "C" l -> e_chdir e (option_of "directory" "C" "" l) = true) /\
  exists lv f, lower (option_of "log" "l" "info" l) = lit (level_word lv) /\ reads e l f /\ r = expected_registry D e l lv f.
Proof.
  intros D e l W r. destruct (positionals l) as [|p ps] eqn:P.
  2:{ split; [|intros (X & _); discriminate]. intros X. exfalso. unfold registry_main in X. destruct (parse (registry_args (e_win e)) (command_line l)) as [ds|] eqn:PA; [|discriminate].
      destruct (C80_too_many_rejected (registry_args (e_win e)) l (registry_distinct _) W) as (a & Y & _); [rewrite registry_room, P; discriminate|]. congruence. }
  destruct (registry_parsed (e_win e) l W P) as (ds & PA & E1 & E2 & E3 & E4 & E5 & E6 & E7 & E8 & E9 & E10 & E11).
  unfold registry_main. rewrite PA, E1. cbn [bind]. destruct (flag_of "help" "h" l). { split; [discriminate|intros (_ & X & _); discriminate]. }
  rewrite E2. cbn [bind]. unfold optv_of at 1 2 3. cbn [o_has o_value]. rewrite is_given_b, option_of_nil, negb_involutive, andb_diag.
  destruct (is_given "directory" "C" l && negb (e_chdir e (option_of "directory" "C" "" l))) eqn:DI.
  { apply andb_true_iff in DI. destruct DI as [A B]. apply is_given_iff in A. apply negb_true_iff in B. split; [discriminate|]. intros (_ & _ & _ & X & _). specialize (X A). congruence. }
  assert (DOK : option_given "directory" "C" l -> e_chdir e (option_of "directory" "C" "" l) = true).
  { intros X. apply is_given_iff in X. rewrite X in DI. now apply negb_false_iff in DI. } clear DI.
  rewrite E3. cbn [bind]. destruct (flag_of "version" "v" l). { split; [discriminate|intros (_ & _ & X & _); discriminate]. }
  rewrite E4, E5, E6, E7, E8. cbn [bind].
  assert (SVC : (if e_win e then get_flag "windows-service" ds else Ok false) = Ok (e_win e && flag_of "windows-service" "W" l)) by (destruct (e_win e); [now apply E9|reflexivity]).
  set (svc := e_win e && flag_of "windows-service" "W" l) in *.
  set (dash := option_of "dashboard-uri" "d" "http://localhost:8082" l).
  assert (DA : (if flag_of "enable-dashboard" "Q" l
    then if o_has (optv_of "dashboard-uri" "d" "http://localhost:8082" l) then (o_value (optv_of "dashboard-uri" "d" "http://localhost:8082" l), true) else (o_default (optv_of "dashboard-uri" "d" "http://localhost:8082" l), true)
    else (o_value (optv_of "dashboard-uri" "d" "http://localhost:8082" l), o_has (optv_of "dashboard-uri" "d" "http://localhost:8082" l))) =
    (dash, flag_of "enable-dashboard" "Q" l || is_given "dashboard-uri" "d" l)).
  { unfold optv_of. cbn [o_has o_value o_default]. rewrite is_given_b. fold dash. destruct (flag_of "enable-dashboard" "Q" l); [|reflexivity].
    destruct (is_given "dashboard-uri" "d" l) eqn:G; [reflexivity|]. cbn [orb]. f_equal. unfold dash. symmetry. apply not_given_default. intros X. apply is_given_iff in X. congruence. }
  rewrite DA. rewrite SVC. cbn [bind]. unfold optv_of. cbn [o_has o_value]. rewrite !is_given_b, option_of_nil.
  set (log := option_of "log" "l" "info" l). destruct (valid_level log) eqn:V; cbn [negb].
  2:{ split; [discriminate|]. intros (_ & _ & _ & _ & lv & f & X & _). assert (valid_level log = true) by (apply valid_level_iff; eauto). congruence. }
  apply valid_level_iff in V. destruct V as (lv & V). rewrite E10. cbn [bind]. unfold optv_of. cbn [o_has o_value]. rewrite is_given_b.
  assert (UNI : forall lw, lower log = lit (level_word lw) -> lw = lv) by (intros lw X; rewrite V in X; destruct lv, lw; vm_compute in X; congruence).
  assert (RD : forall f, reads e l f <-> (if is_given "registry-configuration" "c" l then e_file e (option_of "registry-configuration" "c" "" l) else FileOk rcfg0) = FileOk f).
  { intros f. unfold reads. rewrite <- is_given_iff. destruct (is_given "registry-configuration" "c" l).
    - split; [intros [(_ & X)|(X & _)]; [exact X|now elim X]|auto].
    - split; [intros [(X & _)|(_ & X)]; [discriminate|congruence]|]. intros X. right. split; [discriminate|congruence]. }
  destruct (if is_given "registry-configuration" "c" l then e_file e (option_of "registry-configuration" "c" "" l) else FileOk rcfg0) as [f| |].
  2:{ split; [discriminate|]. intros (_ & _ & _ & _ & lw & f & _ & X & _). apply RD in X. discriminate. }
  2:{ split; [discriminate|]. intros (_ & _ & _ & _ & lw & f & _ & X & _). apply RD in X. discriminate. }
  set (own := if svc then _ else _).
  set (en := flag_of "enable-dashboard" "Q" l || is_given "dashboard-uri" "d" l). set (lu := option_of "listen-uri" "u" "silkit://localhost:8500" l).
  set (status := if negb (is_given "x-status-file" "" l) || svc then None else Some (option_of "x-status-file" "" "" l)).
  match goal with |- ?a = _ <-> _ => assert (X : a = Ok (RegRun (expected_registry D e l lv f))) end.
  { unfold override. 
    assert (LU : exists x y, lu = x :: y).
    { unfold lu, option_of. destruct (last (given (lit "listen-uri") (lit "u") l) []); eauto. cbn. eauto. }
    destruct LU as (lx & ly & LU).
    assert (LF : level_from_string log = lv) by now apply level_from_string_word.
    assert (ST : status = if is_given "x-status-file" "" l && negb svc then Some (option_of "x-status-file" "" "" l) else None) by (unfold status; destruct (is_given "x-status-file" "" l), svc; reflexivity).
    rewrite ST. clear status ST. unfold expected_registry. fold svc lu dash en. cbv zeta.
    assert (OWN : own = mkPc [] [] [] [] [] [] [] [] [] [] [] [] (mkLog (lg_remote logging0) (lg_flush logging0) (match svc, lv with
             | true, LOff => []
             | true, _ => [mkSink FSimple SFile lv (if is_given "directory" "C" l then lit "VectorSilKitRegistry_WindowsService" else e_tmp e) [] []]
             | false, _ => [mkSink FSimple SStdout lv [] [] []] end)) health0 tracing0 [] includes0
        (let m := middleware0 D in mkMw (mw_uri m) (mw_attempts m) (mw_rcvbuf m) (mw_sndbuf m) (mw_nodelay m) (mw_quickack m) (if svc then false else mw_domain m) (mw_acceptors m) (mw_proxy m) (mw_remote m) (mw_timeout m)) (experimental0 D)).
    { unfold own, configure_service, configure_logging. rewrite LF. destruct svc, lv; reflexivity. }
    rewrite OWN. clear own OWN. set (sk := match svc, lv with true, LOff => _ | true, _ => _ | false, _ => _ end).
    destruct f as [fd fv fl fdo fda flo fm]. destruct flo as [fr ff fs]. destruct fm as [ms mc mi]. cbn [rc_description rc_listen rc_logging rc_dashboard rc_domain rc_metrics lg_sinks me_sinks me_collect me_interval].
    rewrite LU. destruct fd, fl as [[|? ?]|], fs, fda, fdo, mc; cbn -[lit sanitize_registry set_uri]; rewrite sanitize_registry_eq by reflexivity; rewrite E11;
      cbn -[lit]; rewrite ?orb_true_r, ?orb_false_r, ?is_given_b; reflexivity. }
  rewrite X. split.
  - intros Y. injection Y as <-. repeat (split; [auto; fail|]). exists lv, f. split; [exact V|]. split; [now apply RD|reflexivity].
  - intros (_ & _ & _ & _ & lw & f' & A & B & ->). rewrite (UNI lw A). apply RD in B. injection B as ->. reflexivity.
Qed.
Print Assumptions C81_registry_runs.
Definition reg_line : list item := [ISp false (lit "listen-uri") (lit "silkit://h:1"); IFlag true (lit "Q"); IEq true (lit "l") (lit "WARN"); IEq true (lit "c") (lit "r.yaml"); IEq true (lit "g") (lit "out.json")].
Definition reg_file : rcfg := mkRc (lit "Lab") (lit "1") (Some (lit "silkit://file:2")) None None logging0 metrics0.
Definition reg_there : reg_env := mkEnv false (fun _ => false) (fun p => if text_eqb p (lit "r.yaml") then FileOk reg_file else FileOther) (lit "/tmp/x").
Example registry_case : forall D, Forall (wf (registry_args false)) reg_line /\ exists r, registry_main D reg_there (command_line reg_line) = Ok (RegRun r) /\
  g_listen r = lit "silkit://file:2" /\ mw_uri (p_middleware (g_config r)) = lit "silkit://file:2" /\ g_dashboard r = Some (lit "http://localhost:8082") /\ p_description (g_config r) = lit "Lab" /\
  lg_sinks (p_logging (g_config r)) = [mkSink FSimple SStdout LWarn [] [] []] /\ g_generate r = Some (lit "out.json") /\ g_status r = None.
Proof.
  intros D. split; [apply wfb_ok; reflexivity|]. exists (expected_registry D reg_there reg_line LWarn reg_file). split; [|repeat split; reflexivity].
  apply C81_registry_runs; [apply wfb_ok; reflexivity|]. split; [reflexivity|]. split; [reflexivity|]. split; [reflexivity|].
  split; [intros X; exfalso; now apply X|]. exists LWarn, reg_file. split; [reflexivity|]. split; [|reflexivity]. left. split; [discriminate|reflexivity].
Qed.
(** ** Nothing on the command line or in the file makes the registry end by an exception *)
Theorem C81_registry_ends : forall D e args, exists s, registry_main D e args = Ok s.
Proof.
  intros D e args. destruct (parse_cases (registry_args (e_win e)) args (registry_distinct _)) as [(x & P)|(l & -> & W & R)].
  - unfold registry_main. rewrite P. eauto.
  - apply registry_room in R. apply length_zero_iff_nil in R. destruct (registry_parsed (e_win e) l W R) as (ds & PA & E1 & E2 & E3 & E4 & E5 & E6 & E7 & E8 & E9 & E10 & E11).
    unfold registry_main. rewrite PA, E1. cbn [bind]. destruct (flag_of "help" "h" l); [eauto|]. rewrite E2. cbn [bind]. destruct (_ && _ && _); [eauto|].
    rewrite E3. cbn [bind]. destruct (flag_of "version" "v" l); [eauto|]. rewrite E4, E5, E6, E7, E8. cbn [bind].
    assert (SVC : (if e_win e then get_flag "windows-service" ds else Ok false) = Ok (e_win e && flag_of "windows-service" "W" l)) by (destruct (e_win e); [now apply E9|reflexivity]).
    rewrite SVC. cbn [bind]. destruct (if flag_of "enable-dashboard" "Q" l then _ else _) as [dash en]. destruct (negb (valid_level _)); [eauto|]. rewrite E10. cbn [bind].
    destruct (if o_has _ then _ else _) as [f| |]; [|eauto|eauto]. destruct (override _ _ _ _) as [[c d] b]. destruct (sanitize_registry _ _ _); [|eauto|eauto].
    rewrite E11. cbn [bind]. eauto.
Qed.
Print Assumptions C81_registry_ends.

(** ** Starting: a dashboard that cannot be created is left out, one that cannot be connected to ends the registry *)
Theorem C81_registry_starts : forall D t r,
  (exists x, start_registry D t r = Some x) <->
  t_registry t = true /\ (t_instance t = true -> g_dashboard r <> None -> t_connect t = true) /\ exists u, t_listen t (g_listen r) = Some u /\ (g_generate r <> None -> t_write t = true).
Proof.
  intros D t r. unfold start_registry. destruct (t_registry t); cbn [negb]; [|split; [intros (x & X)|intros (X & _)]; discriminate].
  destruct (t_instance t), (g_dashboard r) as [d|], (t_connect t), (t_listen t (g_listen r)) as [u|], (g_generate r) as [p|], (t_write t); cbn [negb];
    (split; [intros (x & X); try discriminate X|intros (_ & A & u' & B & C)]);
    first [discriminate B|solve [eexists; reflexivity]|solve [specialize (C ltac:(discriminate)); discriminate]|solve [specialize (A eq_refl ltac:(discriminate)); discriminate]|idtac];
    (split; [reflexivity|]); (split; [intros; first [reflexivity|congruence]|]); eexists; (split; [reflexivity|]); intros; first [reflexivity|congruence].
Qed.
Print Assumptions C81_registry_starts.
(** what then runs; the configuration that is generated is read back with the address the registry listens at. For the numbers in it see C67 *)
Theorem C81_registry_started : forall D t r x, start_registry D t r = Some x -> dbl_ok D (d_zero D) -> dbl_ok D (d_five D) ->
  t_listen t (g_listen r) = Some (x_uri x) /\ x_dashboard x = (if t_instance t then g_dashboard r else None) /\
  match g_generate r with
  | None => x_file x = None
  | Some p => exists json n c, x_file x = Some (p, json, n) /\ (json = true <-> exists q, p = q ++ lit ".json") /\ load D n = Ok c /\
                mw_uri (p_middleware c) = x_uri x /\ p_name c = [] /\ lg_sinks (p_logging c) = []
  end.
Proof.
  intros D t r x H Z F. unfold start_registry in H. destruct (negb (t_registry t)); [discriminate|].
  destruct (match (if t_instance t then g_dashboard r else None) with Some _ => negb (t_connect t) | None => false end); [discriminate|].
  destruct (t_listen t (g_listen r)) as [u|]; [|discriminate]. destruct (g_generate r) as [p|].
  - destruct (t_write t); [|discriminate]. injection H as <-. cbn [x_uri x_dashboard x_file]. split; [reflexivity|]. split; [reflexivity|].
    exists (ends_with (lit ".json") p), (serialize D (set_uri u (pcfg0 D))). eexists. split; [reflexivity|]. split.
    + unfold ends_with. split.
      * intros E. apply andb_true_iff in E. destruct E as [_ E]. apply text_eqb_eq in E. exists (firstn (length p - length (lit ".json")) p). rewrite <- E at 2. symmetry. apply firstn_skipn.
      * intros (q & ->). apply andb_true_iff. rewrite app_length. split; [apply Nat.leb_le; lia|]. apply text_eqb_eq.
        replace (length q + length (lit ".json") - length (lit ".json"))%nat with (length q) by lia. rewrite skipn_app, skipn_all, Nat.sub_diag. reflexivity.
    + split.
      * apply C68_written_loads; [|constructor]. constructor; try (cbn; constructor; fail); [| |exact Z|split; vm_compute; discriminate].
        -- split; exact I.
        -- repeat split; try exact (proj1 F); try exact (proj2 F); vm_compute; discriminate.
      * repeat split.
  - injection H as <-. auto.
Qed.
Print Assumptions C81_registry_started.
(** ** The status file says that the registry runs if and only if it does *)
Theorem C81_registry_status : forall D t s, 
  (In "running"%string (status_writes D t s) <-> exists r x p, s = RegRun r /\ g_status r = Some p /\ start_registry D t r = Some x) /\
  (status_writes D t s <> [] -> hd_error (status_writes D t s) = Some "starting"%string /\ last (status_writes D t s) ""%string = "stopped"%string).
Proof.
  intros D t s. destruct s as [|c [p|]|r]; cbn [status_writes].
  - split; [split; [intros []|intros (r & x & p & X & _); discriminate]|congruence].
  - split; [split; [cbn; intuition discriminate|intros (r & x & q & X & _); discriminate]|auto].
  - split; [split; [intros []|intros (r & x & p & X & _); discriminate]|congruence].
  - destruct (g_status r) as [p|] eqn:G.
    + destruct (start_registry D t r) as [x|] eqn:S.
      * split; [split; [intros _; exists r, x, p; auto|intros _; cbn; auto]|auto].
      * split; [split; [cbn; intuition discriminate|intros (r' & x & q & X & _ & Y); injection X as <-; congruence]|auto].
    + split; [split; [intros []|intros (r' & x & q & X & Y & _); injection X as <-; congruence]|congruence].
Qed.
Print Assumptions C81_registry_status.
Example registry_start_case : forall D, exists r x, registry_main D (mkEnv false (fun _ => false) (fun _ => FileOther) []) (map lit ["--x-status-file"; "s"; "-g=a.json"; "-Q"]%string) = Ok (RegRun r) /\
  start_registry D (mkStart false true false Some true) r = Some x /\ x_uri x = lit "silkit://localhost:8500" /\ x_dashboard x = None /\ 
  status_writes D (mkStart false true false Some true) (RegRun r) = ["starting"; "running"; "stopped"]%string /\ status_writes D (mkStart true true false Some true) (RegRun r) = ["starting"; "stopped"]%string.
Proof.
  intros D. exists (expected_registry D (mkEnv false (fun _ => false) (fun _ => FileOther) []) [ISp false (lit "x-status-file") (lit "s"); IEq true (lit "g") (lit "a.json"); IFlag true (lit "Q")] LInfo rcfg0).
  eexists. split; [|repeat split; reflexivity].
  change (map lit ["--x-status-file"; "s"; "-g=a.json"; "-Q"]%string) with (command_line [ISp false (lit "x-status-file") (lit "s"); IEq true (lit "g") (lit "a.json"); IFlag true (lit "Q")]).
  apply C81_registry_runs; [apply wfb_ok; reflexivity|]. repeat (split; [reflexivity|]). split; [intros X; exfalso; now apply X|]. exists LInfo, rcfg0.
  split; [reflexivity|]. split; [|reflexivity]. right. split; [intros X; now apply X|reflexivity].
Qed.
