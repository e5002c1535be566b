(** Proofs about the utilities *)
From Coq Require Import String Ascii NArith ZArith List Bool Lia.
From Verif Require Import Base TextModel YamlModel YamlCheckModel ParticipantModel CliModel CliProofs.
Import ListNotations.
Open Scope Z_scope.
Open Scope list_scope.

Lemma parse_from_error_app : forall m args ds cur a r, (length args < m)%nat -> parse_from ds cur args = inr (Bad a) -> parse_from ds cur (args ++ r) = inr (Bad a).
Proof.
  induction m as [|m IH]; intros args ds cur a r L H; [lia|]. destruct args as [|x args]; [discriminate|]. cbn [parse_from app length] in *.
  destruct (prefixed x) as [[sh arg]|].
  - destruct (split_eq arg) as [[n v]|].
    + destruct (change_first (opt_named sh n) (set_opt v) ds); [|discriminate]. apply IH; [lia|exact H].
    + destruct (existsb (opt_named sh arg) ds).
      * destruct args as [|v args]; [discriminate|]. cbn [app length] in *. destruct (change_first (opt_named sh arg) (set_opt v) ds); [|discriminate]. apply IH; [lia|exact H].
      * destruct (change_first (flag_named sh arg) set_flag ds); [|discriminate]. apply IH; [lia|exact H].
  - destruct (set_positional x ds cur) as [[ds' []]|]; try (apply IH; [lia|exact H]). exact H.
Qed.

(** ** The configuration made from a level *)
Definition level_name (l : level) : string :=
  match l with LCritical => "Critical" | LError => "Error" | LWarn => "Warn" | LInfo => "Info" | LDebug => "Debug" | LTrace => "Trace" | LOff => "Off" end.
Definition stdout_only (D : dbl) (l : level) : pcfg := with_sinks [mkSink FSimple SStdout l [] [] []] (pcfg0 D).
Lemma stdout_valid : forall t, fst (validate (stdout_config t)) = true.
Proof. intros t. vm_compute. reflexivity. Qed.
Lemma load_stdout : forall D t, load D (stdout_config t) =
  match r_level (NVal true t) LInfo with Ok l => Ok (stdout_only D l) | Exn => Exn | UB => UB end.
Proof.
  intros D t. unfold load. rewrite stdout_valid. unfold deserialize.
  assert (R : r_logging (NMap [("Sinks"%string, NSeq [NMap [("Type"%string, NVal true (lit "Stdout")); ("Level"%string, NVal true t)]])]) logging0 =
    match r_level (NVal true t) LInfo with Ok l => Ok (mkLog false LOff [mkSink FSimple SStdout l [] [] []]) | Exn => Exn | UB => UB end).
  { cbv -[r_level]. destruct (r_level (NVal true t) LInfo) as [l| |]; reflexivity. }
  change (stdout_config t) with (NMap [("Logging"%string, NMap [("Sinks"%string, NSeq [NMap [("Type"%string, NVal true (lit "Stdout")); ("Level"%string, NVal true t)]])])]).
  set (x := NMap [("Sinks"%string, NSeq [NMap [("Type"%string, NVal true (lit "Stdout")); ("Level"%string, NVal true t)]])]) in *.
  unfold r_pcfg. cbn -[r_logging]. change (mkLog false LOff []) with logging0. rewrite R. destruct (r_level (NVal true t) LInfo); reflexivity.
Qed.
Lemma r_level_names : forall t l, r_level (NVal true t) LInfo = Ok l <-> t = lit (level_name l).
Proof.
  intros t l. cbv beta iota delta [r_level is_str]. split.
  - repeat match goal with |- (if ?b then _ else _) = _ -> _ => destruct b eqn:?; [intros X; injection X as <-; apply text_eqb_eq; assumption|] end. discriminate.
  - intros ->. destruct l; reflexivity.
Qed.
Lemma r_level_defined : forall t, r_level (NVal true t) LInfo <> UB.
Proof. intros t. unfold r_level. repeat destruct (is_str _ _); discriminate. Qed.
Lemma load_stdout_ok : forall D t c, load D (stdout_config t) = Ok c <-> exists l, t = lit (level_name l) /\ c = stdout_only D l.
Proof.
  intros D t c. rewrite load_stdout. split.
  - destruct (r_level (NVal true t) LInfo) as [l| |] eqn:E; try discriminate. intros X. injection X as <-. exists l. split; [now apply r_level_names|reflexivity].
  - intros (l & E & ->). apply r_level_names in E. now rewrite E.
Qed.
Lemma load_stdout_exn : forall D t, (forall l, t <> lit (level_name l)) -> load D (stdout_config t) = Exn.
Proof.
  intros D t H. rewrite load_stdout. destruct (r_level (NVal true t) LInfo) as [l| |] eqn:E; [|reflexivity|now apply r_level_defined in E].
  apply r_level_names in E. now apply H in E.
Qed.
(** ** Levels on the command line *)
Definition level_word (l : level) : string :=
  match l with LCritical => "critical" | LError => "error" | LWarn => "warn" | LInfo => "info" | LDebug => "debug" | LTrace => "trace" | LOff => "off" end.
Lemma valid_level_iff : forall s, valid_level s = true <-> exists l, lower s = lit (level_word l).
Proof.
  intros s. unfold valid_level. rewrite existsb_exists. split.
  - intros (w & I & E). apply text_eqb_eq in E. cbn in I.
    destruct I as [<-|[<-|[<-|[<-|[<-|[<-|[<-|[]]]]]]]]; [exists LTrace|exists LDebug|exists LWarn|exists LInfo|exists LError|exists LCritical|exists LOff]; exact E.
  - intros (l & E). exists (level_word l). split; [destruct l; cbn; tauto|]. rewrite E. apply text_eqb_refl.
Qed.
Lemma level_from_string_word : forall s l, lower s = lit (level_word l) -> level_from_string s = l.
Proof. intros s l E. unfold level_from_string. rewrite E. destruct l; reflexivity. Qed.
(** the first letter made upper case gives a name of a level if and only if the others are lower case letters *)
Lemma upper1_name : forall s l, lower s = lit (level_word l) -> (upper1 s = lit (level_name l) <-> tl s = lower (tl s)).
Proof.
  intros s l H. destruct s as [|c r]; [destruct l; discriminate|]. cbn [lower map tl] in *. unfold upper1. fold (lower r) in *.
  assert (X : exists d t, lit (level_word l) = d :: t /\ lit (level_name l) = (d - 32)%N :: t /\ (97 <= d <= 122)%N) by (destruct l; do 2 eexists; repeat split; vm_compute; congruence).
  destruct X as (d & t & W & N & B). rewrite W in H. rewrite N. injection H as Hc Hr.
  assert (C : (if (97 <=? c)%N && (c <=? 122)%N then (c - 32)%N else c) = (d - 32)%N).
  { destruct ((65 <=? c)%N && (c <=? 90)%N) eqn:E; destruct ((97 <=? c)%N && (c <=? 122)%N) eqn:F; lia. }
  rewrite C, Hr. split; [intros Q; injection Q as ->; reflexivity|intros ->; reflexivity].
Qed.
Lemma upper1_other : forall s l l', lower s = lit (level_word l) -> upper1 s = lit (level_name l') -> l' = l.
Proof.
  intros s l l' H E. destruct s as [|c r]; [destruct l; discriminate|]. cbn [lower map upper1] in *. fold (lower r) in *.
  assert (L : forall l, lit (level_word l) = lower (lit (level_name l))) by (intros []; reflexivity).
  rewrite L in H. assert (Q : lower ((if (97 <=? c)%N && (c <=? 122)%N then (c - 32)%N else c) :: r) = lower (lit (level_name l))).
  { rewrite <- H. cbn [lower map]. fold (lower r). f_equal. destruct ((97 <=? c)%N && (c <=? 122)%N) eqn:F; [|reflexivity].
    replace ((65 <=? c - 32)%N && (c - 32 <=? 90)%N) with true by lia. destruct ((65 <=? c)%N && (c <=? 90)%N) eqn:G; lia. }
  rewrite E in Q. destruct l, l'; vm_compute in Q; try discriminate; reflexivity.
Qed.

(** * What the items say to a utility *)
(** the value of an option: the last one that was given unless that is empty, else the default *)
Definition option_of (n s d : string) (l : list item) : text :=
  match last (given (lit n) (lit s) l) [] with [] => lit d | v => v end.
Definition option_given (n s : string) (l : list item) : Prop := last (given (lit n) (lit s) l) [] <> [].
Definition flag_of (n s : string) (l : list item) : bool := flagged (lit n) (lit s) l.
Fixpoint distinct_argsb (ds : list argument) : bool :=
  match ds with
  | [] => true
  | AOpt n s _ _ :: r => forallb (fun a => match a with AOpt m t _ _ => negb (text_eqb m n) && (negb (text_eqb t s) || is_nil s) | _ => true end) r && distinct_argsb r
  | AFlag n s _ :: r => forallb (fun a => match a with AFlag m t _ => negb (text_eqb m n) && (negb (text_eqb t s) || is_nil s) | _ => true end) r && distinct_argsb r
  | _ :: r => distinct_argsb r
  end.
Lemma distinct_argsb_ok : forall ds, distinct_argsb ds = true -> distinct_args ds.
Proof.
  assert (K : forall m n t s, negb (text_eqb m n) && (negb (text_eqb t s) || is_nil s) = true -> m <> n /\ (t = s -> s = [])).
  { intros m n t s E. apply andb_true_iff in E. destruct E as [A B]. split; [intros ->; rewrite text_eqb_refl in A; discriminate|].
    intros ->. rewrite text_eqb_refl in B. cbn in B. now apply is_nil_true. }
  induction ds as [|d ds IH]; intros H; [exact I|]. destruct d; cbn in *; try (apply IH, H); apply andb_true_iff in H; destruct H as [A B]; (split; [|apply IH, B]);
    rewrite forallb_forall in A; intros; match goal with X : In _ _ |- _ => apply A in X; apply K in X; exact X end.
Qed.
Lemma controller_distinct : distinct_args controller_args.
Proof. apply distinct_argsb_ok. reflexivity. Qed.
Lemma monitor_distinct : distinct_args monitor_args.
Proof. apply distinct_argsb_ok. reflexivity. Qed.
Lemma registry_distinct : forall w, distinct_args (registry_args w).
Proof. intros []; apply distinct_argsb_ok; reflexivity. Qed.
Lemma option_of_value : forall n s d l, (if is_nil (last (given (lit n) (lit s) l) []) then lit d else last (given (lit n) (lit s) l) []) = option_of n s d l.
Proof. intros. unfold option_of. now destruct (last (given (lit n) (lit s) l) []). Qed.
Lemma option_given_b : forall n s l, negb (is_nil (last (given (lit n) (lit s) l) [])) = true <-> option_given n s l.
Proof. intros. unfold option_given. destruct (last (given (lit n) (lit s) l) []); cbn; split; congruence. Qed.
Lemma controller_room : forall k, room controller_args k.
Proof. intros []; exact I. Qed.
(** the values the controller reads *)
Lemma controller_parsed : forall l, Forall (wf controller_args) l -> exists ds,
  parse controller_args (command_line l) = inl ds /\ get_flag "help" ds = Ok (flag_of "help" "h" l) /\ get_flag "version" ds = Ok (flag_of "version" "v" l) /\
  get_list "participantNames" ds = Ok (positionals l) /\
  get_option "name" ds = Ok (mkOptv (option_of "name" "n" "SystemController" l) (lit "SystemController") (negb (is_nil (last (given (lit "name") (lit "n") l) [])))) /\
  get_option "log" ds = Ok (mkOptv (option_of "log" "l" "info" l) (lit "info") (negb (is_nil (last (given (lit "log") (lit "l") l) [])))) /\
  get_option "configuration" ds = Ok (mkOptv (option_of "configuration" "c" "" l) [] (negb (is_nil (last (given (lit "configuration") (lit "c") l) [])))) /\
  get_option "connect-uri" ds = Ok (mkOptv (option_of "connect-uri" "u" "silkit://localhost:8500" l) (lit "silkit://localhost:8500") (negb (is_nil (last (given (lit "connect-uri") (lit "u") l) [])))).
Proof.
  intros l W. rewrite (parse_complete _ _ controller_distinct W (controller_room _)). eexists. split; [reflexivity|].
  rewrite <- !option_of_value. repeat split.
Qed.
Lemma distinct_nodup : forall l, distinct l = true <-> NoDup l.
Proof.
  induction l as [|x l IH]; cbn; [split; [constructor|reflexivity]|]. rewrite andb_true_iff, negb_true_iff, IH. split.
  - intros [A B]. constructor; [|exact B]. intros I. assert (existsb (text_eqb x) l = true) by (apply existsb_exists; exists x; split; [exact I|apply text_eqb_refl]). congruence.
  - intros H. inversion H as [|? ? A B]; subst. split; [|exact B]. destruct (existsb (text_eqb x) l) eqn:E; [|reflexivity].
    apply existsb_exists in E. destruct E as (y & Y & E). apply text_eqb_eq in E. subst. contradiction.
Qed.
Lemma lit_ne : forall c r, lit (String c r) <> [].
Proof. discriminate. Qed.
Lemma not_given_default : forall n s d l, ~ option_given n s l -> option_of n s d l = lit d.
Proof. intros n s d l H. unfold option_of, option_given in *. destruct (last (given (lit n) (lit s) l) []); [reflexivity|]. exfalso. apply H. discriminate. Qed.
Lemma is_nil_false : forall {A} (l : list A), is_nil l = false <-> l <> [].
Proof. intros A [|x l]; cbn; split; congruence. Qed.

(** the whole of the controller until it runs, on items *)
Lemma controller_eq : forall D file join l, Forall (wf controller_args) l ->
  let name := option_of "name" "n" "SystemController" l in let uri := option_of "connect-uri" "u" "silkit://localhost:8500" l in
  let log := option_of "log" "l" "info" l in let cfg := option_of "configuration" "c" "" l in
  let has_log := negb (is_nil (last (given (lit "log") (lit "l") l) [])) in
  let has_cfg := negb (is_nil (last (given (lit "configuration") (lit "c") l) [])) in
  controller_main D file join (command_line l) =
  if flag_of "help" "h" l then Ok ShowUsage else if flag_of "version" "v" l then Ok ShowVersion
  else if is_nil (positionals l) then Ok (Fail (-1))
  else if has_log && has_cfg then Ok (Fail (-1))
  else if negb (valid_level log) then Ok (Fail (-1))
  else match (if has_cfg then file cfg else match load D (stdout_config (upper1 log)) with Ok c => FileOk c | _ => FileConfig end) with
       | FileConfig => Ok (Fail (-2)) | FileOther => Exn
       | FileOk c => if negb (join c name uri) then Ok (Fail (-3)) else if negb (distinct (positionals l)) then Ok (Fail (-2))
                     else Ok (Run (mkController name uri (positionals l) c))
       end.
Proof.
  intros D file join l W name uri log cfg has_log has_cfg. destruct (controller_parsed l W) as (ds & P & E1 & E2 & E3 & E4 & E5 & E6 & E7).
  unfold controller_main. rewrite P, E1. cbn [bind]. destruct (flag_of "help" "h" l); [reflexivity|]. rewrite E2. cbn [bind].
  destruct (flag_of "version" "v" l); [reflexivity|]. rewrite E3. cbn [bind]. destruct (is_nil (positionals l)); [reflexivity|].
  rewrite E4, E5, E6. cbn [bind o_has o_value]. fold has_log has_cfg. destruct (has_log && has_cfg); [reflexivity|]. rewrite E7. reflexivity.
Qed.

(** ** The controller at work *)
Lemma tmem_in : forall n l, tmem n l = true <-> In n l.
Proof. intros n l. unfold tmem. rewrite existsb_exists. split; [intros (x & I & E); apply text_eqb_eq in E; now subst|intros I; exists n; split; [exact I|apply text_eqb_refl]]. Qed.
Lemma set_eqb_iff : forall a b, set_eqb a b = true <-> (forall x, In x a <-> In x b).
Proof.
  intros a b. unfold set_eqb. rewrite andb_true_iff, !forallb_forall. split.
  - intros [A B] x. split; intros I; apply tmem_in; auto.
  - intros H. split; intros x I; apply tmem_in; now apply H.
Qed.
(** [n] has connected and has not left since *)
Definition up (n : text) (os : list ctl_op) : Prop := exists a b, os = a ++ Connected n :: b /\ ~ In (Disconnected n) b.
Lemma up_nil : forall n, ~ up n [].
Proof. intros n (a & b & E & _). destruct a; discriminate. Qed.
Lemma rev_case : forall A (b : list A), b = [] \/ exists b' x, b = b' ++ [x].
Proof. intros A b. destruct b as [|x b _] using rev_ind; [now left|right; eauto]. Qed.
Lemma app_last : forall {A} (a b : list A) x y, a ++ [x] = b ++ [y] -> a = b /\ x = y.
Proof. intros. now apply app_inj_tail. Qed.
Lemma up_snoc : forall n os o, up n (os ++ [o]) <-> o = Connected n \/ (up n os /\ o <> Disconnected n).
Proof.
  intros n os o. split.
  - intros (a & b & E & N). destruct (rev_case _ b) as [->|(b' & x & ->)].
    + apply app_last in E. now left.
    + right. replace (a ++ Connected n :: b' ++ [x]) with ((a ++ Connected n :: b') ++ [x]) in E by (rewrite <- app_assoc; reflexivity).
      apply app_last in E. destruct E as [-> ->]. split.
      * exists a, b'. split; [reflexivity|]. intros I. apply N. apply in_or_app. now left.
      * intros ->. apply N. apply in_or_app. right. now left.
  - intros [->|[(a & b & -> & N) D]].
    + exists os, []. split; [reflexivity|auto].
    + exists a, (b ++ [o]). split; [rewrite <- app_assoc; reflexivity|]. intros I. apply in_app_or in I. destruct I as [I|[I|[]]]; auto.
Qed.
Lemma ctl_snoc : forall req own os o, ctl_run req own (os ++ [o]) = ctl_step req own (ctl_run req own os) o.
Proof. intros. unfold ctl_run. now rewrite fold_left_app. Qed.
Definition ctl_inv (req : list text) (own : text) (os : list ctl_op) (s : ctl) : Prop :=
  if c_set s then c_workflow s = [req ++ [own]] /\ exists a b, os = a ++ b /\ forall n, In n req -> up n a
  else c_workflow s = [] /\ (forall n, In n (c_connected s) <-> In n req /\ up n os) /\ forall a b, os = a ++ b -> exists n, In n req /\ ~ up n a.
Lemma ctl_inv_run : forall req own os, req <> [] -> ctl_inv req own os (ctl_run req own os).
Proof.
  intros req own os R. induction os as [|o os IH] using rev_ind.
  - unfold ctl_inv. cbn. split; [reflexivity|]. split.
    + intros n. split; [tauto|]. intros [_ X]. now apply up_nil in X.
    + intros a b E. symmetry in E. apply app_eq_nil in E. destruct E as [-> ->]. destruct req as [|n req]; [easy|]. exists n. split; [now left|apply up_nil].
  - rewrite ctl_snoc. set (s := ctl_run req own os) in *. unfold ctl_step. unfold ctl_inv in IH. destruct (c_set s) eqn:CS.
    + unfold ctl_inv. rewrite CS. destruct IH as (A & a & b & E & U). split; [exact A|]. exists a, (b ++ [o]). split; [rewrite E; now rewrite app_assoc|exact U].
    + destruct IH as (W & C & P).
      assert (STAY : forall s', c_set s' = false -> c_workflow s' = [] -> (forall n, In n (c_connected s') <-> In n req /\ up n (os ++ [o])) ->
                     (exists n, In n req /\ ~ up n (os ++ [o])) -> ctl_inv req own (os ++ [o]) s').
      { intros s' X W' Y Z. unfold ctl_inv. rewrite X. split; [exact W'|]. split; [exact Y|]. intros a b E.
        destruct (rev_case _ b) as [->|(b' & x & ->)]; [rewrite app_nil_r in E; now subst|]. rewrite app_assoc in E. apply app_last in E. destruct E as [-> _]. now apply (P a b'). }
      destruct (P os [] (eq_sym (app_nil_r os))) as (n0 & I0 & N0).
      destruct o as [n|n].
      * destruct (tmem n req) eqn:M; cbn [negb].
        -- apply tmem_in in M. cbv zeta. set (con := if tmem n (c_connected s) then c_connected s else n :: c_connected s).
           assert (CON : forall m, In m con <-> In m req /\ up m (os ++ [Connected n])).
           { intros m. rewrite up_snoc. assert (X : In m con <-> m = n \/ In m (c_connected s)).
             { unfold con. destruct (tmem n (c_connected s)) eqn:T; [apply tmem_in in T; split; [tauto|intros [->|]; auto]|cbn; split; intros [|]; auto]. }
             rewrite X, C. split; [intros [->|[A B]]; [split; [exact M|now left]|split; [exact A|right; split; [exact B|discriminate]]]|].
             intros [A [B|[B _]]]; [injection B as ->; now left|right; auto]. }
           destruct (set_eqb con req) eqn:SE.
           ++ rewrite set_eqb_iff in SE. unfold ctl_inv. cbn. rewrite W. split; [reflexivity|]. exists (os ++ [Connected n]), []. split; [now rewrite app_nil_r|].
              intros m I. apply SE in I. now apply CON in I.
           ++ apply STAY; cbn; auto. destruct (existsb (fun m => negb (tmem m con)) req) eqn:EX.
              ** apply existsb_exists in EX. destruct EX as (m & I & T). exists m. split; [exact I|]. intros U. assert (In m con) by now apply CON. apply tmem_in in H. rewrite H in T. discriminate.
              ** exfalso. assert (set_eqb con req = true); [|congruence]. apply set_eqb_iff. intros m. split; [intros I; now apply CON in I|]. intros I.
                 destruct (tmem m con) eqn:T; [now apply tmem_in|]. assert (existsb (fun m => negb (tmem m con)) req = true) by (apply existsb_exists; exists m; split; [exact I|now rewrite T]). congruence.
        -- assert (M' : ~ In n req) by (intros I; apply tmem_in in I; congruence). apply STAY; auto.
           ++ intros m. rewrite C, up_snoc. split; [intros [A B]; split; [exact A|right; split; [exact B|discriminate]]|]. intros [A [B|[B _]]]; [injection B as ->; contradiction|auto].
           ++ exists n0. split; [exact I0|]. rewrite up_snoc. intros [X|[X _]]; [injection X as ->|]; contradiction.
      * destruct (tmem n req) eqn:M.
        -- apply tmem_in in M. apply STAY; cbn; auto.
           ++ intros m. rewrite filter_In, C, up_snoc, negb_true_iff. split.
              ** intros [[A B] T]. split; [exact A|]. right. split; [exact B|]. intros X. injection X as ->. rewrite text_eqb_refl in T. discriminate.
              ** intros [A [B|[B N]]]; [discriminate|]. split; [auto|]. destruct (text_eqb m n) eqn:T; [|reflexivity]. apply text_eqb_eq in T. subst. congruence.
           ++ exists n. split; [exact M|]. rewrite up_snoc. intros [X|[_ X]]; [discriminate|congruence].
        -- assert (M' : ~ In n req) by (intros I; apply tmem_in in I; congruence). apply STAY; auto.
           ++ intros m. rewrite C, up_snoc. split; [intros [A B]; split; [exact A|right; split; [exact B|intros X; injection X as ->; contradiction]]|]. intros [A [B|[B _]]]; [discriminate|auto].
           ++ exists n0. split; [exact I0|]. rewrite up_snoc. intros [X|[X _]]; [discriminate|contradiction].
Qed.

(** ** The monitor and the registry until they run *)
Lemma monitor_room : forall k, room monitor_args k <-> k = 0%nat.
Proof. intros [|[|k]]; cbn; split; (tauto || discriminate || lia). Qed.
Definition optv_of (n s d : string) (l : list item) : optv := mkOptv (option_of n s d l) (lit d) (negb (is_nil (last (given (lit n) (lit s) l) []))).
Lemma monitor_parsed : forall l, Forall (wf monitor_args) l -> positionals l = [] -> exists ds,
  parse monitor_args (command_line l) = inl ds /\ get_flag "help" ds = Ok (flag_of "help" "h" l) /\ get_flag "version" ds = Ok (flag_of "version" "v" l) /\
  get_option "connect-uri" ds = Ok (optv_of "connect-uri" "u" "silkit://localhost:8500" l) /\ get_option "name" ds = Ok (optv_of "name" "n" "SystemMonitor" l) /\
  get_option "configuration" ds = Ok (optv_of "configuration" "c" "" l) /\ get_option "loglevel" ds = Ok (optv_of "loglevel" "l" "" l) /\
  get_flag "autonomous" ds = Ok (flag_of "autonomous" "a" l) /\ get_flag "coordinated" ds = Ok (flag_of "coordinated" "r" l) /\ get_flag "sync" ds = Ok (flag_of "sync" "s" l).
Proof.
  intros l W P. rewrite (parse_complete _ _ monitor_distinct W); [|apply monitor_room; now rewrite P]. eexists. split; [reflexivity|].
  unfold optv_of. rewrite <- !option_of_value. repeat split.
Qed.
Lemma registry_room : forall w k, room (registry_args w) k <-> k = 0%nat.
Proof. intros [] [|[|k]]; cbn; split; (tauto || discriminate || lia). Qed.
Lemma registry_parsed : forall w l, Forall (wf (registry_args w)) l -> positionals l = [] -> exists ds,
  parse (registry_args w) (command_line l) = inl ds /\ get_flag "help" ds = Ok (flag_of "help" "h" l) /\ get_option "directory" ds = Ok (optv_of "directory" "C" "" l) /\
  get_flag "version" ds = Ok (flag_of "version" "v" l) /\ get_option "listen-uri" ds = Ok (optv_of "listen-uri" "u" "silkit://localhost:8500" l) /\
  get_option "log" ds = Ok (optv_of "log" "l" "info" l) /\ get_option "dashboard-uri" ds = Ok (optv_of "dashboard-uri" "d" "http://localhost:8082" l) /\
  get_option "x-status-file" ds = Ok (optv_of "x-status-file" "" "" l) /\ get_flag "enable-dashboard" ds = Ok (flag_of "enable-dashboard" "Q" l) /\
  (w = true -> get_flag "windows-service" ds = Ok (flag_of "windows-service" "W" l)) /\
  get_option "registry-configuration" ds = Ok (optv_of "registry-configuration" "c" "" l) /\ get_option "generate-configuration" ds = Ok (optv_of "generate-configuration" "g" "" l).
Proof.
  intros w l W P. rewrite (parse_complete _ _ (registry_distinct w) W); [|apply registry_room; now rewrite P]. eexists. split; [reflexivity|].
  unfold optv_of. rewrite <- !option_of_value. destruct w; repeat split; discriminate.
Qed.
(** any value of the flags and options, given as words or not, has been defined *)
Lemma get_total_registry : forall w args ds, parse (registry_args w) args = inl ds -> exists l, Forall (wf (registry_args w)) l /\ args = command_line l /\ positionals l = [].
Proof.
  intros w args ds P. destruct (parse_sound _ _ _ (registry_distinct w) P) as (l & A & B & C). exists l. split; [exact B|]. split; [exact A|].
  apply registry_room in C. now apply length_zero_iff_nil.
Qed.
Lemma get_total_monitor : forall args ds, parse monitor_args args = inl ds -> exists l, Forall (wf monitor_args) l /\ args = command_line l /\ positionals l = [].
Proof.
  intros args ds P. destruct (parse_sound _ _ _ monitor_distinct P) as (l & A & B & C). exists l. split; [exact B|]. split; [exact A|].
  apply monitor_room in C. now apply length_zero_iff_nil.
Qed.
(** a check of [wf] for the examples *)
Definition form_okb (sh : bool) (m : text) : bool := negb (is_nil m) && (negb sh || text_eqb m [45%N] || negb (hd 0 m =? 45)%N).
Definition wfb (ds : list argument) (i : item) : bool :=
  match i with
  | IPos v => match v with c :: _ :: _ => negb (c =? 45)%N | _ => true end
  | IEq sh n v => negb (existsb (N.eqb 61) n) && form_okb sh (n ++ 61%N :: v) && existsb (opt_named sh n) ds
  | ISp sh n v => negb (existsb (N.eqb 61) n) && form_okb sh (n ++ []) && existsb (opt_named sh n) ds
  | IFlag sh n => negb (existsb (N.eqb 61) n) && form_okb sh (n ++ []) && negb (existsb (opt_named sh n) ds) && existsb (flag_named sh n) ds
  end.
Lemma form_okb_ok : forall sh n r, form_okb sh (n ++ r) = true -> form_ok sh n r.
Proof.
  intros sh n r H. unfold form_okb in H. apply andb_true_iff in H. destruct H as [A B]. split; [destruct (n ++ r); [discriminate|discriminate]|].
  intros ->. cbn [negb orb] in B. apply orb_true_iff in B. destruct B as [B|B]; [left; now apply text_eqb_eq|right]. apply negb_true_iff, N.eqb_neq in B. exact B.
Qed.
Lemma wfb_ok : forall ds l, forallb (wfb ds) l = true -> Forall (wf ds) l.
Proof.
  intros ds l H. rewrite forallb_forall in H. apply Forall_forall. intros i I. apply H in I. clear H.
  assert (N61 : forall n, negb (existsb (N.eqb 61) n) = true -> ~ In 61%N n).
  { intros n E X. apply negb_true_iff in E. assert (existsb (N.eqb 61) n = true) by (apply existsb_exists; exists 61%N; split; [exact X|reflexivity]). congruence. }
  destruct i as [v|sh n v|sh n v|sh n]; cbn in *.
  - intros c r ->. destruct r; discriminate.
  - apply andb_true_iff in I. destruct I as [I C]. apply andb_true_iff in I. destruct I as [A B]. split; [auto|]. split; [now apply form_okb_ok|now apply has_opt_existsb].
  - apply andb_true_iff in I. destruct I as [I C]. apply andb_true_iff in I. destruct I as [A B]. split; [auto|]. split; [now apply form_okb_ok|now apply has_opt_existsb].
  - apply andb_true_iff in I. destruct I as [I D]. apply andb_true_iff in I. destruct I as [I C]. apply andb_true_iff in I. destruct I as [A B].
    split; [auto|]. split; [now apply form_okb_ok|]. split; [|now apply has_flag_existsb]. intros X. apply has_opt_existsb in X. rewrite X in C. discriminate.
Qed.
