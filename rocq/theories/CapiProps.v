(** C77-C79: The C API and the C++ layer above it *)
From Coq Require Import String Ascii List ZArith NArith Bool Lia.
From Verif Require Import CapiModel CapiSpec CapiTables CapiProofs CapiCallProofs.
Import ListNotations.
Open Scope string_scope. Open Scope Z_scope. Open Scope list_scope.

(* ------------------------------------------------------------------ *)
(** * C77: errors *)

(** ** Exceptions of the classes of SIL Kit come out of the C API as exceptions of the same class, with their text *)
Theorem C77_exceptions_keep_class : forall show e last,
  In (ex_class e) [ESilKit; ETypeConversion; EConfiguration; EState; EProtocol; EAssertion; EExtension; ELogic; ELength; EOutOfRange] ->
  let '(rc, l) := catch_exceptions e last in
  exists e' pre, throw_on_error show rc l = Some e' /\ ex_class e' = ex_class e /\ ex_what e' = (pre ++ ex_what e)%string.
Proof.
  intros show [c w] last H. cbn [ex_class] in H.
  assert (Q : forall a b c, ((a ++ b) ++ c = a ++ b ++ c)%string).
  { intros x y z. induction x as [|k x IH]; cbn; [reflexivity|]. now rewrite IH. }
  assert (B : forall rc, rc <> SUCCESS -> exists e' pre, throw_on_error show rc w = Some e' /\ ex_what e' = (pre ++ w)%string).
  { intros rc N. unfold throw_on_error. destruct (rc =? SUCCESS) eqn:E; [apply Z.eqb_eq in E; congruence|].
    set (s := match return_code_to_string false rc with (_, Some s) => s | (_, None) => "Unknown" end).
    eexists. exists ("SIL Kit: " ++ s ++ " (" ++ show rc ++ "):" ++ nl)%string. split; [reflexivity|]. cbn [ex_what].
    rewrite !Q. reflexivity. }
  assert (C : exists rc k, catch_exceptions {| ex_class := c; ex_what := w |} last = (rc, w) /\ rc <> SUCCESS /\
    (forall e', throw_on_error show rc w = Some e' -> ex_class e' = k) /\ k = c).
  { cbn in H. repeat destruct H as [<-|H]; try destruct H;
      (eexists; eexists; split; [reflexivity|]; split; [discriminate|]; split; [|reflexivity];
       intros e' E; injection E as <-; reflexivity). }
  destruct C as (rc & k & -> & N & K & <-).
  destruct (B rc N) as (e' & pre & T & W).
  exists e', pre. split; [exact T|]. split; [apply (K _ T)|exact W].
Qed.
Print Assumptions C77_exceptions_keep_class.
Example exceptions_case :
  catch_exceptions {| ex_class := ELength; ex_what := "too long" |} "old" = (15, "too long") /\
  option_map ex_class (throw_on_error (fun _ => "15") 15 "too long") = Some ELength /\
  option_map ex_what (throw_on_error (fun _ => "15") 15 "too long") = Some ("SIL Kit: Length limits violated (15):" ++ nl ++ "too long")%string.
Proof. repeat split. Qed.

(** ** No exception is lost: whatever is thrown below, the C++ layer throws, at least the base class *)
Theorem C77_no_exception_lost : forall show e last,
  let '(rc, l) := catch_exceptions e last in
  rc <> SUCCESS /\ exists e', throw_on_error show rc l = Some e' /\ derives 4 (ex_class e') ESilKit = true.
Proof.
  intros show [c w] last. destruct c; (split; [discriminate|]; eexists; split; reflexivity).
Qed.
Print Assumptions C77_no_exception_lost.

(** ** A call that succeeded throws nothing *)
Theorem C77_success_throws_nothing : forall show rc last, throw_on_error show rc last = None <-> rc = SUCCESS.
Proof.
  intros show rc last. unfold throw_on_error. split.
  - destruct (rc =? SUCCESS) eqn:E; [intros _; apply Z.eqb_eq; exact E|discriminate].
  - intros ->. reflexivity.
Qed.
Print Assumptions C77_success_throws_nothing.

(** ** The classes of the standard library and bad parameters come out as the base class, with their text *)
Theorem C77_other_exceptions : forall show e last,
  In (ex_class e) [EBadParameter; EStdRuntime; EStdException] ->
  let '(rc, l) := catch_exceptions e last in
  l = ex_what e /\ option_map ex_class (throw_on_error show rc l) = Some ESilKit /\
  (rc = BADPARAMETER <-> ex_class e = EBadParameter).
Proof.
  intros show [c w] last H. cbn in H. repeat destruct H as [<-|H]; try destruct H;
    (split; [reflexivity|]; split; [reflexivity|]; split; intros X; try discriminate; reflexivity).
Qed.
Print Assumptions C77_other_exceptions.

(** ** The text of what is no std::exception is that of an earlier error *)
Theorem C77_foreign_exception_text_refuted :
  ~ (forall e last, snd (catch_exceptions e last) = ex_what e) /\
  (forall e last, ex_class e = EForeign -> catch_exceptions e last = (UNSPECIFIEDERROR, last)).
Proof.
  split.
  - intros H. specialize (H {| ex_class := EForeign; ex_what := "now" |} "earlier"). discriminate.
  - intros [c w] last E. cbn in E. subst. reflexivity.
Qed.
Print Assumptions C77_foreign_exception_text_refuted.

(** ** Texts of return codes: every code has one, different codes have different ones, others are refused *)
Theorem C77_code_strings : forall rc, 0 <= rc <= 16 ->
  exists s, return_code_to_string false rc = (SUCCESS, Some s) /\
    forall rc', return_code_to_string false rc' = (SUCCESS, Some s) -> rc' = rc.
Proof.
  intros rc H.
  assert (U : forall rc s, return_code_to_string false rc = (SUCCESS, Some s) -> In (rc, s) code_strings).
  { intros r s E. unfold return_code_to_string in E. destruct (lookupZ r code_strings) as [t|] eqn:L; [|discriminate].
    injection E as <-. clear H. revert L. generalize code_strings as l. induction l as [|[k v] l IH]; cbn; [discriminate|].
    destruct (k =? r) eqn:K; intros L; [left; apply Z.eqb_eq in K; congruence|right; apply IH, L]. }
  assert (V : forall a b s, In (a, s) code_strings -> In (b, s) code_strings -> a = b).
  { assert (D : forallb (fun x => forallb (fun y => negb (String.eqb (snd x) (snd y)) || (fst x =? fst y)) code_strings) code_strings = true) by (vm_compute; reflexivity).
    intros a b s A B. pose proof (Forall_forallb _ _ _ (a, s) D A) as D2. cbv beta in D2.
    pose proof (Forall_forallb _ _ _ (b, s) D2 B) as D3. cbn [fst snd] in D3. rewrite String.eqb_refl in D3. cbn in D3. lia. }
  assert (X : exists s, return_code_to_string false rc = (SUCCESS, Some s)).
  { assert (R : In rc (map Z.of_nat (seq 0 17))).
    { apply in_map_iff. exists (Z.to_nat rc). split; [lia|]. apply in_seq. lia. }
    cbn in R. repeat destruct R as [<-|R]; try destruct R; (eexists; reflexivity). }
  destruct X as [s S]. exists s. split; [exact S|]. intros rc' S'. apply (V _ _ s); apply U; assumption.
Qed.
Print Assumptions C77_code_strings.
Theorem C77_unknown_code_or_null : forall null rc, null = true \/ ~ (0 <= rc <= 16) -> return_code_to_string null rc = (BADPARAMETER, None).
Proof.
  intros null rc H. unfold return_code_to_string. destruct null; [reflexivity|].
  destruct H as [H|H]; [discriminate|].
  assert (L : lookupZ rc code_strings = None).
  { unfold code_strings, SUCCESS, UNSPECIFIEDERROR, NOTSUPPORTED, NOTIMPLEMENTED, BADPARAMETER, BUFFERTOOSMALL, TIMEOUT, UNSUPPORTEDSERVICE, WRONGSTATE,
      TYPECONVERSIONERROR, CONFIGURATIONERROR, PROTOCOLERROR, ASSERTIONERROR, EXTENSIONERROR, LOGICERROR, LENGTHERROR, OUTOFRANGEERROR.
    cbn [lookupZ]. repeat match goal with |- context [?a =? rc] => replace (a =? rc) with false by lia end. reflexivity. }
  rewrite L. reflexivity.
Qed.
Print Assumptions C77_unknown_code_or_null.

(* ------------------------------------------------------------------ *)
(** * C77: identifiers of structs *)

(** ** The parts of an identifier are read back, and the identifiers of structs are valid *)
Theorem C77_identifiers : forall s, 0 < si_service s < 9 -> 0 < si_type s < 256 -> 0 < si_version s < 256 ->
  id_service (struct_id s) = si_service s /\ id_type (struct_id s) = si_type s /\ id_version (struct_id s) = si_version s /\
  id_valid (struct_id s) = true.
Proof.
  intros s A B C. destruct (id_fields s) as (E1 & E2 & E3); [unfold is_byte; lia..|].
  split; [exact E1|]. split; [exact E2|]. split; [exact E3|]. apply id_valid_struct; assumption.
Qed.
Print Assumptions C77_identifiers.

(** ** Valid are exactly the numbers with the letters S and K, a service, a type and a version *)
Theorem C77_valid_identifiers : forall i, 0 <= i < 2 ^ 64 -> id_valid i = true <->
  exists service type version rest, 0 < service < 9 /\ 0 < type < 256 /\ 0 < version < 256 /\ 0 <= rest < 2 ^ 24 /\
    i = 83 * 2 ^ 56 + 75 * 2 ^ 48 + service * 2 ^ 40 + type * 2 ^ 32 + version * 2 ^ 24 + rest.
Proof.
  assert (L : forall i k, 0 <= k -> Z.land (Z.shiftr i k) 255 = i / 2 ^ k mod 256).
  { intros i k K. rewrite Z.shiftr_div_pow2 by exact K. change 255 with (Z.ones 8). rewrite Z.land_ones by lia. reflexivity. }
  intros i R. unfold id_valid, id_service, id_type, id_version. rewrite !L by lia.
  change (2 ^ 64) with 18446744073709551616 in R. change (2 ^ 56) with 72057594037927936. change (2 ^ 48) with 281474976710656. change (2 ^ 40) with 1099511627776.
  change (2 ^ 32) with 4294967296. change (2 ^ 24) with 16777216. split.
  - intros H. exists (i / 1099511627776 mod 256), (i / 4294967296 mod 256), (i / 16777216 mod 256), (i mod 16777216).
    assert (A : 0 <= i / 4294967296 mod 256 < 256) by (apply Z.mod_pos_bound; lia). assert (B : 0 <= i / 16777216 mod 256 < 256) by (apply Z.mod_pos_bound; lia).
    assert (C : 0 <= i mod 16777216 < 16777216) by (apply Z.mod_pos_bound; lia).
    rewrite !andb_true_iff, !negb_true_iff in H. destruct H as (((((H1 & H2) & H3) & H4) & H5) & H6).
    repeat (split; [lia|]). Z.div_mod_to_equations. lia.
  - intros (sv & ty & ve & r & A & B & C & D & E).
    assert (E1 : i / 1099511627776 mod 256 = sv) by (subst i; Z.div_mod_to_equations; lia). assert (E2 : i / 4294967296 mod 256 = ty) by (subst i; Z.div_mod_to_equations; lia).
    assert (E3 : i / 16777216 mod 256 = ve) by (subst i; Z.div_mod_to_equations; lia). assert (E4 : i / 72057594037927936 mod 256 = 83) by (subst i; Z.div_mod_to_equations; lia).
    assert (E5 : i / 281474976710656 mod 256 = 75) by (subst i; Z.div_mod_to_equations; lia). rewrite E1, E2, E3, E4, E5. lia.
Qed.
Print Assumptions C77_valid_identifiers.
Example valid_identifiers_case : id_valid 6001892032224690176 = true /\ id_valid (6001892032224690176 + 2 ^ 56) = false.
Proof. split; vm_compute; reflexivity. Qed.

(** ** All structs have valid identifiers, no two the same *)
Theorem C77_all_identifiers : forall n s, In (n, s) all_ids -> id_valid (struct_id s) = true /\
  forall m t, In (m, t) all_ids -> struct_id t = struct_id s -> m = n.
Proof.
  assert (D : forallb (fun x => id_valid (struct_id (snd x)) &&
    forallb (fun y => negb (struct_id (snd y) =? struct_id (snd x)) || String.eqb (fst y) (fst x)) all_ids) all_ids = true) by (vm_compute; reflexivity).
  intros n s I. pose proof (Forall_forallb _ _ _ (n, s) D I) as D2. apply andb_true_iff in D2. destruct D2 as [D2 D3].
  split; [exact D2|]. intros m t J E. pose proof (Forall_forallb _ _ _ (m, t) D3 J) as D4. cbn [fst snd] in D4.
  rewrite E, Z.eqb_refl in D4. cbn in D4. apply String.eqb_eq in D4. exact D4.
Qed.
Print Assumptions C77_all_identifiers.
Example identifiers_case : length all_ids = 66%nat /\ struct_id id_CanFrame = 6001892032224690176.
Proof. split; vm_compute; reflexivity. Qed.

(* ------------------------------------------------------------------ *)
(** * C77: parameters *)

(* the functions that follow a pointer they do not check *)
Definition unchecked : list string :=
  ["SilKit_DataPublisher_Create"; "SilKit_DataSubscriber_Create"; "SilKit_LinController_SetFrameResponse";
   "SilKit_Experimental_SystemController_SetWorkflowConfiguration"; "SilKit_RpcServer_Create"; "SilKit_RpcClient_Create"].

(* the parameters whose header is not checked *)
Definition headers_unchecked : list (string * string) :=
  [("SilKit_DataPublisher_Create", "dataSpec"); ("SilKit_DataSubscriber_Create", "dataSpec");
   ("SilKit_EthernetController_SendFrame", "frame"); ("SilKit_FlexrayController_UpdateTxBuffer", "update");
   ("SilKit_Experimental_LinController_GetSlaveConfiguration", "outLinSlaveConfiguration");
   ("SilKit_Experimental_LinController_SendDynamicResponse", "frame");
   ("SilKit_Experimental_SystemController_SetWorkflowConfiguration", "cWorkflowConfiguration");
   ("SilKit_RpcServer_Create", "rpcSpec"); ("SilKit_RpcClient_Create", "rpcSpec")].

Lemma table_covered : forall f, In f capi -> ~ In (fn_name f) unchecked -> covered f = true.
Proof.
  assert (D : forallb (fun f => existsb (String.eqb (fn_name f)) unchecked || covered f) capi = true) by (vm_compute; reflexivity).
  intros f I N. pose proof (Forall_forallb _ _ _ f D I) as D2. apply orb_true_iff in D2. destruct D2 as [D2|D2]; [|exact D2].
  exfalso. apply N. apply existsb_exists in D2. destruct D2 as (x & X & E). apply String.eqb_eq in E. congruence.
Qed.

(** ** A null pointer that a function would follow: BADPARAMETER, and the library below is not called *)
Theorem C77_null_parameter : forall f a i last, In f capi -> ~ In (fn_name f) unchecked -> args_ok f a ->
  forall x, In x (needs f) -> is_null a x = true ->
  exists m, api_call f a i last = Ret BADPARAMETER m false.
Proof.
  intros f a i last I N A x X NX.
  destruct (covered_call f a i last (table_covered f I N) A) as [[_ E]|(m & _ & E)]; [|eauto].
  exfalso. assert (existsb (is_null a) (needs f) = true) by (apply existsb_exists; eauto). congruence.
Qed.
Print Assumptions C77_null_parameter.
(** ** ... also in the functions left out, but for one parameter that is not checked and one that may be null *)
Theorem C77_null_pointer : forall f a i last p k, In f capi -> args_ok f a ->
  In (p, k) (fn_params f) -> is_pointer k = true -> get a p = Some ANull ->
  (fn_name f = "SilKit_ParticipantConfiguration_ToJson" /\ p = "outputString") \/
  (fn_name f = "SilKit_DataSubscriber_Create" /\ p = "defaultDataHandler") \/
  exists m, api_call f a i last = Ret BADPARAMETER m false.
Proof.
  intros f a i last p k I A P K G.
  assert (D : forallb (fun f => forallb (fun pk => negb (is_pointer (snd pk))
      || (String.eqb (fn_name f) "SilKit_ParticipantConfiguration_ToJson" && String.eqb (fst pk) "outputString")
      || (String.eqb (fn_name f) "SilKit_DataSubscriber_Create" && String.eqb (fst pk) "defaultDataHandler")
      || knows (known_places f) (fst pk, None)) (fn_params f)) capi = true) by (vm_compute; reflexivity).
  pose proof (Forall_forallb _ _ _ f D I) as D2. pose proof (Forall_forallb _ _ _ (p, k) D2 P) as D3. cbn [fst snd] in D3.
  rewrite K in D3. cbn [negb orb] in D3. apply orb_true_iff in D3. destruct D3 as [D3|D3].
  - apply orb_true_iff in D3. destruct D3 as [D3|D3]; apply andb_true_iff in D3; destruct D3 as [D3 D4];
      apply String.eqb_eq in D3; apply String.eqb_eq in D4; auto.
  - right. right. apply (place_call f a i last (p, None) D3 A).
    unfold is_null, eval_arg. cbn [fst snd]. rewrite G. reflexivity.
Qed.
Print Assumptions C77_null_pointer.
Example null_pointer_case :
  api_call f_CanController_SendFrame [("controller", APtr); ("message", ANull); ("transmitContext", ANull)] IReturn "old"
    = Ret BADPARAMETER "Parameter 'message' must not be null." false.
Proof. reflexivity. Qed.

(** ** None of these functions follows a null pointer, whatever is given *)
Theorem C77_no_undefined_behaviour : forall f a i last, In f capi -> ~ In (fn_name f) unchecked -> args_ok f a ->
  api_call f a i last <> ApiUB.
Proof.
  intros f a i last I N A.
  destruct (covered_call f a i last (table_covered f I N) A) as [[R E]|(m & _ & E)]; [|congruence].
  unfold api_call. rewrite R, E. destruct i as [|e]; [discriminate|]. destruct (catch_exceptions e last). discriminate.
Qed.
Print Assumptions C77_no_undefined_behaviour.

(** ** Good arguments: the library is called, and its outcome is the outcome *)
Lemma failing_check : forall a cs m, run_checks a cs = Some (Some m) -> exists c, In c cs /\ run_check a c = Some (Some m).
Proof.
  induction cs as [|c r IH]; cbn [run_checks]; intros m H; [discriminate|].
  destruct (run_check a c) as [x|] eqn:E.
  - injection H as ->. exists c. split; [left; reflexivity|exact E].
  - destruct (IH m H) as (d & I & D). exists d. split; [right; exact I|exact D].
Qed.
Lemma table_places : forall f c, In f capi -> In c (fn_checks f) ->
  match c with
  | CkPointer p g | CkOut p g | CkHandler p g => In (p, g) (needs f)
  | CkBool _ None => False
  | _ => True
  end.
Proof.
  assert (D : forallb (fun f => forallb (fun c => match c with
    | CkPointer p g | CkOut p g | CkHandler p g => knows (needs f) (p, g) | CkBool _ None => false | _ => true end) (fn_checks f)) capi = true) by (vm_compute; reflexivity).
  intros f c I C. pose proof (Forall_forallb _ _ _ f D I) as D2. pose proof (Forall_forallb _ _ _ c D2 C) as D3.
  destruct c as [p g|p g|p g|p [g|]|p g|p g]; try exact Logic.I; try discriminate; apply knows_In; exact D3.
Qed.
Lemma good_header : forall a p g h fs, (forall q v, get a q = Some v -> good_arg v) -> eval_arg a p g = Some (AStruct h fs) -> id_valid h = true.
Proof.
  intros a p g h fs G E. unfold eval_arg in E. destruct (get a p) as [v|] eqn:P; [|discriminate]. specialize (G _ _ P).
  destruct g as [g|].
  - destruct v as [| |h' fs'|]; try discriminate. destruct G as [_ G]. destruct (G _ _ E) as [G2 _]. exact G2.
  - assert (X : v = AStruct h fs) by (destruct v; congruence). subst v. exact (proj1 G).
Qed.
Theorem C77_good_arguments : forall f a i last, In f capi -> ~ In (fn_name f) unchecked -> args_ok f a -> good_args f a ->
  api_call f a i last = match i with
                        | IReturn => Ret SUCCESS last true
                        | IThrow e => Ret (fst (catch_exceptions e last)) (snd (catch_exceptions e last)) true
                        end.
Proof.
  intros f a i last I N A (G1 & G2).
  destruct (covered_call f a i last (table_covered f I N) A) as [[R E]|(m & R & _)].
  - unfold api_call. rewrite R, E. destruct i as [|e]; [reflexivity|]. destruct (catch_exceptions e last). reflexivity.
  - exfalso. destruct (failing_check _ _ _ R) as (c & C & F). pose proof (table_places f c I C) as T.
    assert (NN : forall p g, In (p, g) (needs f) -> eval_arg a p g <> Some ANull).
    { intros p g X Q. specialize (G1 _ X). unfold is_null in G1. cbn [fst snd] in G1. rewrite Q in G1. discriminate. }
    destruct c as [p g|p g|p g|p g|p g|p g]; cbn [run_check] in F.
    + specialize (NN _ _ T). destruct (eval_arg a p g) as [[]|]; try discriminate. congruence.
    + specialize (NN _ _ T). destruct (eval_arg a p g) as [[]|]; try discriminate. congruence.
    + specialize (NN _ _ T). destruct (eval_arg a p g) as [[]|]; try discriminate. congruence.
    + destruct g as [g|]; [|exact T]. unfold eval_arg in F. destruct (get a p) as [[| |h fs|]|] eqn:P; try discriminate.
      specialize (G2 _ _ P). destruct G2 as [_ G2]. destruct (get fs g) as [x|] eqn:X; [|discriminate].
      destruct x as [| | |z]; try discriminate. destruct (proj2 (G2 _ _ X) z eq_refl) as [-> | ->]; discriminate.
    + destruct (eval_arg a p g) as [[| |h fs|]|] eqn:P; try discriminate. rewrite (good_header _ _ _ _ _ G2 P) in F. discriminate.
    + destruct (eval_arg a p g) as [[| |h fs|]|] eqn:P; try discriminate. rewrite (good_header _ _ _ _ _ G2 P) in F. discriminate.
Qed.
Print Assumptions C77_good_arguments.

(** ** A struct with an invalid header: BADPARAMETER *)
Lemma table_headers : forall f p k, In f capi -> In (p, k) (fn_params f) -> (k = KHeader \/ exists s, k = KStruct s) ->
  ~ In (fn_name f, p) headers_unchecked -> In (CkHeader p None) (fn_checks f) \/ In (CkPlain p None) (fn_checks f).
Proof.
  assert (D : forallb (fun f => forallb (fun pk => match snd pk with
    | KHeader | KStruct _ => existsb (fun x => String.eqb (fst x) (fn_name f) && String.eqb (snd x) (fst pk)) headers_unchecked
        || existsb (fun c => match c with CkHeader q None | CkPlain q None => String.eqb q (fst pk) | _ => false end) (fn_checks f)
    | _ => true end) (fn_params f)) capi = true) by (vm_compute; reflexivity).
  intros f p k I P K N. pose proof (Forall_forallb _ _ _ f D I) as D2. pose proof (Forall_forallb _ _ _ (p, k) D2 P) as D3. cbn [fst snd] in D3.
  assert (X : existsb (fun x => String.eqb (fst x) (fn_name f) && String.eqb (snd x) p) headers_unchecked
        || existsb (fun c => match c with CkHeader q None | CkPlain q None => String.eqb q p | _ => false end) (fn_checks f) = true)
    by (destruct K as [->|(s & ->)]; exact D3).
  apply orb_true_iff in X. destruct X as [X|X]; apply existsb_exists in X; destruct X as (y & Y & E).
  - exfalso. apply N. apply andb_true_iff in E. destruct E as [E1 E2]. apply String.eqb_eq in E1. apply String.eqb_eq in E2.
    rewrite <- E1, <- E2. destruct y. exact Y.
  - destruct y as [| | | |q [g|]|q [g|]]; try discriminate; apply String.eqb_eq in E; subst q; auto.
Qed.
Theorem C77_invalid_header : forall f a i last p k h fs, In f capi -> ~ In (fn_name f) unchecked -> args_ok f a ->
  In (p, k) (fn_params f) -> (k = KHeader \/ exists s, k = KStruct s) -> ~ In (fn_name f, p) headers_unchecked ->
  get a p = Some (AStruct h fs) -> id_valid h = false ->
  exists m, api_call f a i last = Ret BADPARAMETER m false.
Proof.
  intros f a i last p k h fs I N A P K U G V.
  destruct (covered_call f a i last (table_covered f I N) A) as [[R _]|(m & _ & E)]; [|eauto].
  exfalso. rewrite run_checks_all in R.
  destruct (table_headers f p k I P K U) as [C|C]; specialize (R _ C); cbn [run_check] in R; unfold eval_arg in R; rewrite G, V in R; discriminate.
Qed.
Print Assumptions C77_invalid_header.
Example invalid_header_case :
  api_call f_CanController_SendFrame [("controller", APtr); ("message", AStruct 0 []); ("transmitContext", ANull)] IReturn "old"
    = Ret BADPARAMETER "The parameter 'message' has no valid SilKit_StructHeader. Check your library version" false /\
  api_call f_CanController_SendFrame [("controller", APtr); ("message", AStruct (struct_id id_CanFrame) []); ("transmitContext", ANull)]
    (IThrow {| ex_class := EState; ex_what := "down" |}) "old" = Ret WRONGSTATE "down" true.
Proof. split; vm_compute; reflexivity. Qed.

(** ** Structs within: the two parameters of a FlexRay configuration, and booleans of FlexRay buffers *)
Theorem C77_flexray_configuration_members : forall a i last h fs g h', args_ok f_FlexrayController_Configure a ->
  get a "config" = Some (AStruct h fs) -> In g ["clusterParams"; "nodeParams"] ->
  get fs g = Some ANull \/ (get fs g = Some (AStruct h' []) /\ id_valid h' = false) ->
  exists m, api_call f_FlexrayController_Configure a i last = Ret BADPARAMETER m false.
Proof.
  intros a i last h fs g h' A G GG H.
  destruct (covered_call f_FlexrayController_Configure a i last eq_refl A) as [[R _]|(m & _ & E)]; [|eauto].
  exfalso. rewrite run_checks_all in R. destruct H as [H|[H V]].
  - assert (C : In (CkPointer "config" (Some g)) (fn_checks f_FlexrayController_Configure))
      by (destruct GG as [<-|[<-|[]]]; [right; right; left|right; right; right; left]; reflexivity).
    specialize (R _ C). cbn [run_check] in R. unfold eval_arg in R. rewrite G, H in R. discriminate.
  - assert (C : In (CkHeader "config" (Some g)) (fn_checks f_FlexrayController_Configure))
      by (destruct GG as [<-|[<-|[]]]; [do 5 right; left|do 6 right; left]; reflexivity).
    specialize (R _ C). cbn [run_check] in R. unfold eval_arg in R. rewrite G, H, V in R. discriminate.
Qed.
Print Assumptions C77_flexray_configuration_members.
Theorem C77_flexray_booleans : forall a i last h fs z, z <> 0 -> z <> 1 ->
  (args_ok f_FlexrayController_ReconfigureTxBuffer a -> get a "config" = Some (AStruct h fs) ->
   get fs "hasPayloadPreambleIndicator" = Some (AVal z) ->
   exists m, api_call f_FlexrayController_ReconfigureTxBuffer a i last = Ret BADPARAMETER m false) /\
  (args_ok f_FlexrayController_UpdateTxBuffer a -> get a "update" = Some (AStruct h fs) ->
   get fs "payloadDataValid" = Some (AVal z) ->
   exists m, api_call f_FlexrayController_UpdateTxBuffer a i last = Ret BADPARAMETER m false).
Proof.
  intros a i last h fs z Z0 Z1. split; intros A G X.
  - destruct (covered_call f_FlexrayController_ReconfigureTxBuffer a i last eq_refl A) as [[R _]|(m & _ & E)]; [|eauto].
    exfalso. rewrite run_checks_all in R.
    assert (C : existsb (fun c => match c with CkBool p (Some g) => String.eqb p "config" && String.eqb g "hasPayloadPreambleIndicator" | _ => false end)
      (fn_checks f_FlexrayController_ReconfigureTxBuffer) = true) by reflexivity.
    apply existsb_exists in C. destruct C as (c & C & E). specialize (R _ C). destruct c as [| | |p [g|]| |]; try discriminate.
    apply andb_true_iff in E. destruct E as [E1 E2]. apply String.eqb_eq in E1. apply String.eqb_eq in E2. subst.
    cbn [run_check] in R. unfold eval_arg in R. rewrite G, X in R. replace ((z =? 1) || (z =? 0)) with false in R by lia. discriminate.
  - destruct (covered_call f_FlexrayController_UpdateTxBuffer a i last eq_refl A) as [[R _]|(m & _ & E)]; [|eauto].
    exfalso. rewrite run_checks_all in R.
    assert (C : existsb (fun c => match c with CkBool p (Some g) => String.eqb p "update" && String.eqb g "payloadDataValid" | _ => false end)
      (fn_checks f_FlexrayController_UpdateTxBuffer) = true) by reflexivity.
    apply existsb_exists in C. destruct C as (c & C & E). specialize (R _ C). destruct c as [| | |p [g|]| |]; try discriminate.
    apply andb_true_iff in E. destruct E as [E1 E2]. apply String.eqb_eq in E1. apply String.eqb_eq in E2. subst.
    cbn [run_check] in R. unfold eval_arg in R. rewrite G, X in R. replace ((z =? 1) || (z =? 0)) with false in R by lia. discriminate.
Qed.
Print Assumptions C77_flexray_booleans.

(** ** The functions that are left out above do follow null pointers *)
Lemma arg_ok_struct : forall s h fs,
  (forall f, In f (followed s) -> get fs f = Some ANull \/ get fs f = Some APtr) ->
  In s ["SilKit_LinFrameResponse"; "SilKit_DataSpec"; "SilKit_RpcSpec"; "SilKit_WorkflowConfiguration"; "SilKit_CanFrame"; "SilKit_EthernetFrame"] ->
  arg_ok (KStruct s) (AStruct h fs).
Proof.
  intros s h fs H I. right. exists h, fs. split; [reflexivity|]. intros f b M.
  assert (E : existsb (String.eqb f) (followed s) = true).
  { unfold member in M. destruct (existsb (String.eqb f) (followed s)); [reflexivity|].
    cbn in I. repeat destruct I as [<-|I]; try destruct I; discriminate. }
  assert (B : In f (followed s)).
  { apply existsb_exists in E. destruct E as (x & X & E). apply String.eqb_eq in E. subst. exact X. }
  unfold member_ok. rewrite M. unfold member in M. rewrite E in M. injection M as <-.
  replace (String.eqb s "SilKit_FlexrayControllerConfig") with false
    by (cbn in I; repeat destruct I as [<-|I]; try destruct I; reflexivity).
  destruct (H f B) as [X|X]; rewrite X; eauto.
Qed.
Ltac args_tac :=
  let p := fresh in let k := fresh in let I := fresh in
  intros p k I; cbn in I;
  repeat (destruct I as [I|I]; [injection I as <- <-; eexists; split; [reflexivity|];
    first [apply arg_ok_struct; [intros ? J; cbn in J; repeat destruct J as [<-|J]; try destruct J; auto|cbn; tauto]
          | left; reflexivity | right; reflexivity | eexists; reflexivity]|]); destruct I.
Theorem C77_unchecked_pointers_refuted : forall n, In n unchecked ->
  exists f a, In f capi /\ fn_name f = n /\ args_ok f a /\ forall i last, api_call f a i last = ApiUB.
Proof.
  intros n H. cbn in H. destruct H as [<-|[<-|[<-|[<-|[<-|[<-|[]]]]]]].
  - exists f_DataPublisher_Create, [("outPublisher", APtr); ("participant", APtr); ("controllerName", APtr);
      ("dataSpec", AStruct (struct_id id_DataSpec) [("topic", ANull); ("mediaType", APtr)]); ("history", AVal 0)].
    split; [unfold capi; cbn; tauto|]. split; [reflexivity|]. split; [args_tac|reflexivity].
  - exists f_DataSubscriber_Create, [("outSubscriber", APtr); ("participant", APtr); ("controllerName", APtr);
      ("dataSpec", AStruct (struct_id id_DataSpec) [("topic", APtr); ("mediaType", APtr)]); ("defaultDataHandlerContext", ANull); ("defaultDataHandler", ANull)].
    split; [unfold capi; cbn; tauto|]. split; [reflexivity|]. split; [args_tac|reflexivity].
  - exists f_LinController_SetFrameResponse, [("controller", APtr); ("response", AStruct (struct_id id_LinFrameResponse) [("frame", ANull)])].
    split; [unfold capi; cbn; tauto|]. split; [reflexivity|]. split; [args_tac|reflexivity].
  - exists f_Experimental_SystemController_SetWorkflowConfiguration,
      [("cSystemController", APtr); ("cWorkflowConfiguration", AStruct (struct_id id_WorkflowConfiguration) [("requiredParticipantNames", ANull)])].
    split; [unfold capi; cbn; tauto|]. split; [reflexivity|]. split; [args_tac|reflexivity].
  - exists f_RpcServer_Create, [("out", APtr); ("participant", APtr); ("controllerName", APtr);
      ("rpcSpec", AStruct (struct_id id_RpcSpec) [("functionName", ANull); ("mediaType", APtr)]); ("context", ANull); ("callHandler", APtr)].
    split; [unfold capi; cbn; tauto|]. split; [reflexivity|]. split; [args_tac|reflexivity].
  - exists f_RpcClient_Create, [("out", APtr); ("participant", APtr); ("controllerName", APtr);
      ("rpcSpec", AStruct (struct_id id_RpcSpec) [("functionName", APtr); ("mediaType", ANull)]); ("context", ANull); ("resultHandler", APtr)].
    split; [unfold capi; cbn; tauto|]. split; [reflexivity|]. split; [args_tac|reflexivity].
Qed.
Print Assumptions C77_unchecked_pointers_refuted.

(** ** A header is accepted whatever struct it belongs to *)
Theorem C77_header_of_another_struct_refuted :
  (exists f a p s h fs, In f capi /\ args_ok f a /\ In (p, KStruct s) (fn_params f) /\ get a p = Some (AStruct h fs) /\
     In ("SilKit_LinFrame", id_LinFrame) all_ids /\ s = "SilKit_CanFrame" /\ h = struct_id id_LinFrame /\
     api_call f a IReturn "" = Ret SUCCESS "" true) /\
  (forall f a last, In f capi -> ~ In (fn_name f) unchecked -> args_ok f a ->
     (forall x, In x (needs f) -> is_null a x = false) ->
     (forall p v, get a p = Some v -> match v with
        | AStruct h fs => (exists n s, In (n, s) all_ids /\ h = struct_id s) /\
            (forall g x, get fs g = Some x -> x = ANull \/ x = APtr \/ x = AVal 0 \/ x = AVal 1 \/ exists n s, In (n, s) all_ids /\ x = AStruct (struct_id s) [])
        | _ => True end) ->
     api_call f a IReturn last = Ret SUCCESS last true).
Proof.
  split.
  - exists f_CanController_SendFrame, [("controller", APtr); ("message", AStruct (struct_id id_LinFrame) []); ("transmitContext", ANull)],
      "message", "SilKit_CanFrame", (struct_id id_LinFrame), [].
    split; [unfold capi; cbn; tauto|]. split; [args_tac|]. split; [right; left; reflexivity|]. split; [reflexivity|].
    split; [unfold all_ids; cbn; tauto|]. repeat split.
  - intros f a last I N A NN H. apply (C77_good_arguments f a IReturn last I N A). split; [exact NN|].
    intros p v G. specialize (H p v G). destruct v as [| |h fs|z]; try exact Logic.I.
    destruct H as [(n & s & S & ->) H]. split; [apply (C77_all_identifiers n s S)|].
    intros g x X. destruct (H g x X) as [->|[->|[->|[->|(m & t & T & ->)]]]]; cbn [header_good].
    + split; [exact Logic.I|intros z Z; discriminate].
    + split; [exact Logic.I|intros z Z; discriminate].
    + split; [exact Logic.I|intros z Z; injection Z as <-; auto].
    + split; [exact Logic.I|intros z Z; injection Z as <-; auto].
    + split; [apply (C77_all_identifiers m t T)|intros z Z; discriminate].
Qed.
Print Assumptions C77_header_of_another_struct_refuted.

(** ** The parameters listed above as not checked: a struct with any header is taken *)
Theorem C77_header_not_checked_refuted : forall h fs last,
  api_call f_EthernetController_SendFrame [("controller", APtr); ("frame", AStruct h fs); ("userContext", ANull)] IReturn last = Ret SUCCESS last true.
Proof. reflexivity. Qed.
Print Assumptions C77_header_not_checked_refuted.

(** ** Events of a network simulation: each is taken as the struct it is *)
Definition event_tables : list (Z * list (Z * string)) := [(1, can_cases); (2, ethernet_cases); (3, flexray_cases); (4, lin_cases)].
Theorem C77_produced_events : forall service cases n s, In (service, cases) event_tables -> In (n, s) all_ids -> si_service s = service ->
  forall m, produce_as cases (struct_id s) = Some m -> m = n.
Proof.
  assert (D : forallb (fun t => forallb (fun ns => negb (si_service (snd ns) =? fst t) ||
     match produce_as (snd t) (struct_id (snd ns)) with Some m => String.eqb m (fst ns) | None => true end) all_ids) event_tables = true) by (vm_compute; reflexivity).
  intros service cases n s T I S m P.
  pose proof (Forall_forallb _ _ _ (service, cases) D T) as D2. pose proof (Forall_forallb _ _ _ (n, s) D2 I) as D3. cbn [fst snd] in D3.
  rewrite S, Z.eqb_refl, P in D3. apply String.eqb_eq in D3. exact D3.
Qed.
Print Assumptions C77_produced_events.
Example produced_case : map (fun s => produce_as can_cases (struct_id s)) [id_CanFrameEvent; id_CanFrameTransmitEvent; id_CanStateChangeEvent; id_CanErrorStateChangeEvent; id_CanFrame]
  = [Some "SilKit_CanFrameEvent"; Some "SilKit_CanFrameTransmitEvent"; Some "SilKit_CanStateChangeEvent"; Some "SilKit_CanErrorStateChangeEvent"; None].
Proof. vm_compute. reflexivity. Qed.
(** ** ... but events of other services are taken as structs they are not, and what is no event is dropped without an error *)
Theorem C77_produced_service_refuted :
  ~ (forall n s m, In (n, s) all_ids -> produce_as can_cases (struct_id s) = Some m -> m = n) /\
  produce_as can_cases (struct_id id_LinGoToSleepEvent) <> Some "SilKit_LinGoToSleepEvent" /\
  produce_as can_cases (struct_id id_CanFrame) = None.
Proof.
  split; [|split; [vm_compute; discriminate|vm_compute; reflexivity]].
  intros H. specialize (H "SilKit_LinFrameResponse" id_LinFrameResponse). 
  assert (I : In ("SilKit_LinFrameResponse", id_LinFrameResponse) all_ids) by (unfold all_ids; cbn; tauto).
  specialize (H _ I eq_refl). discriminate.
Qed.
Print Assumptions C77_produced_service_refuted.

(* ------------------------------------------------------------------ *)
(** * C78: conversions of structs *)

Definition all_pairs : list pair := user_pairs ++ event_pairs ++ request_pairs ++ produced_pairs.

Fixpoint typedb (l : layout) (s : store) : bool :=
  match l with
  | [] => true
  | (f, t) :: r =>
      match get s f with
      | Some (VI z) => isnum t && (lo t <=? z) && (z <=? hi t)
      | Some (VB nn bs) => match t with TBytes => nn || match bs with [] => true | _ => false end | TArr8 => nn && Nat.eqb (length bs) 8 | _ => false end
      | None => false
      end && typedb r s
  end.
Lemma typedb_ok : forall l s, typedb l s = true -> typed l s.
Proof.
  induction l as [|[f t] r IH]; intros s H g u I; [destruct I|]. cbn [typedb] in H. apply andb_true_iff in H. destruct H as [H1 H2].
  destruct I as [E|I]; [|apply (IH s H2 g u I)]. injection E as <- <-.
  destruct (get s f) as [[z|nn bs]|]; [| |discriminate]; eexists; (split; [reflexivity|]).
  - apply andb_true_iff in H1. destruct H1 as [H1 H3]. apply andb_true_iff in H1. destruct H1 as [H1 H4].
    destruct t; try discriminate; exists z; (split; [reflexivity|]); lia.
  - destruct t; try discriminate.
    + exists nn, bs. split; [reflexivity|]. intros N. destruct nn; [reflexivity|]. destruct bs; [congruence|discriminate].
    + apply andb_true_iff in H1. destruct H1 as [-> H3]. exists bs. split; [reflexivity|]. apply Nat.eqb_eq. exact H3.
Qed.

Lemma pairs_all : forall (P : pair -> bool) ex, forallb (fun p => existsb (String.eqb (p_name p)) ex || P p) all_pairs = true ->
  forall p, In p all_pairs -> ~ In (p_name p) ex -> P p = true.
Proof.
  intros P ex D p I N. pose proof (Forall_forallb _ _ _ p D I) as D2. apply orb_true_iff in D2. destruct D2 as [D2|D2]; [|exact D2].
  exfalso. apply N. apply existsb_exists in D2. destruct D2 as (x & X & E). apply String.eqb_eq in E. congruence.
Qed.

(** ** A C++ struct that goes through the C API comes out as it was *)
Theorem C78_there_and_back : forall p, In p all_pairs ->
  ~ In (p_name p) ["flx_update"; "req_flexray_tx_buffer_update"; "req_lin_controller_status_update"] ->
  forall s, typed (p_x p) s -> (p_narrow p = true -> sizes_fit s) ->
  exists c r, run_conv (p_out p) s = Done c /\ run_conv (p_in p) c = Done r /\
    forall f t, In (f, t) (p_x p) -> exists v w, get s f = Some v /\ get r f = Some w /\ same v w.
Proof.
  intros p I N. apply there_and_back.
  apply (pairs_all check_there_and_back ["flx_update"; "req_flexray_tx_buffer_update"; "req_lin_controller_status_update"]); [vm_compute; reflexivity|exact I|exact N].
Qed.
Print Assumptions C78_there_and_back.
Definition demo_frame : store :=
  [("canId", VI 4294967295); ("flags", VI 528); ("dlc", VI 3); ("sdt", VI 255); ("vcid", VI 7); ("af", VI 305419896); ("dataField", VB true [1; 2; 3]%N)].
Example there_and_back_case : length all_pairs = 64%nat /\ typed X_CanFrame demo_frame /\
  match run_conv cv_can_frame_out demo_frame with
  | Done c => get c "id" = Some (VI 4294967295) /\ get c "structHeader" = Some (VI (struct_id id_CanFrame)) /\
              match run_conv cv_can_frame_in c with Done r => get r "canId" = Some (VI 4294967295) /\ get r "dataField" = Some (VB true [1; 2; 3]%N) | _ => False end
  | _ => False
  end.
Proof. split; [reflexivity|]. split; [apply typedb_ok; reflexivity|]. vm_compute. repeat split. Qed.

(** ** Each field of the C struct holds the field of the C++ struct, as far as its type allows *)
Theorem C78_fields_to_c : forall p, In p all_pairs -> p_name p <> "req_lin_controller_status_update" ->
  forall s, typed (p_x p) s -> (p_narrow p = true -> sizes_fit s) ->
  exists c, run_conv (p_out p) s = Done c /\
    forall f t, In (f, t) (p_x p) -> exists tg v w,
      get (p_c p) (c_name p f) = Some tg /\ get s f = Some v /\ get c (c_name p f) = Some w /\ holds tg v w.
Proof.
  intros p I N. apply to_c.
  apply (pairs_all check_to_c ["req_lin_controller_status_update"]); [vm_compute; reflexivity|exact I|].
  intros [E|[]]; congruence.
Qed.
Print Assumptions C78_fields_to_c.

(** ** The C struct carries its own identifiers, and every field of it has been written *)
Theorem C78_headers_to_c : forall p, In p all_pairs -> ~ In (p_name p) ["lin_status_event"; "lin_header_event"; "flx_transmit_event"] ->
  forall s, typed (p_x p) s -> (p_narrow p = true -> sizes_fit s) ->
  exists c, run_conv (p_out p) s = Done c /\
    (forall h i, In (h, i) (p_headers p) -> get c h = Some (VI (struct_id i))) /\
    (forall f t, In (f, t) (p_c p) -> exists v, get c f = Some v).
Proof.
  intros p I N. apply to_c_headers.
  apply (pairs_all check_headers ["lin_status_event"; "lin_header_event"; "flx_transmit_event"]); [vm_compute; reflexivity|exact I|exact N].
Qed.
Print Assumptions C78_headers_to_c.

(** ** Each field of the C++ struct made from a C struct holds the field of the C struct *)
Theorem C78_fields_from_c : forall p, In p all_pairs -> ~ In (p_name p) ["flx_update"; "req_flexray_tx_buffer_update"] ->
  forall s, c_struct p s ->
  exists d, run_conv (p_in p) s = Done d /\
    forall f t, In (f, t) (p_x p) -> exists tx v w,
      get (p_x p) f = Some tx /\ get s (c_name p f) = Some v /\ get d f = Some w /\ holds tx v w.
Proof.
  intros p I N. apply from_c.
  apply (pairs_all check_from_c ["flx_update"; "req_flexray_tx_buffer_update"]); [vm_compute; reflexivity|exact I|exact N].
Qed.
Print Assumptions C78_fields_from_c.

(** ** Lists of frame responses and of buffer configurations *)
Definition list_pairs : list (string * bool) :=   (* whether the number of elements is narrowed to 32 bits *)
  [("lin_init_response", false); ("req_lin_frame_response", false); ("flx_buffer", true); ("req_flexray_tx_buffer_config", true)].
Theorem C78_lists_there_and_back : forall p narrow, In p all_pairs -> In (p_name p, narrow) list_pairs ->
  forall l, Forall (typed (p_x p)) l -> (narrow = true -> Z.of_nat (length l) < 2 ^ 32) ->
  exists n cs rs, list_out narrow (p_out p) l = Done (n, cs) /\ list_in (p_in p) n cs = Done rs /\
    Forall2 (fun s r => forall f t, In (f, t) (p_x p) -> exists v w, get s f = Some v /\ get r f = Some w /\ same v w) l rs.
Proof.
  intros p narrow I L l F N.
  assert (D : forallb (fun p => negb (existsb (fun x => String.eqb (fst x) (p_name p)) list_pairs) || (check_there_and_back p && negb (p_narrow p))) all_pairs = true) by (vm_compute; reflexivity).
  pose proof (Forall_forallb _ _ _ p D I) as D2. apply orb_true_iff in D2.
  assert (X : existsb (fun x => String.eqb (fst x) (p_name p)) list_pairs = true).
  { apply existsb_exists. exists (p_name p, narrow). split; [exact L|]. apply String.eqb_refl. }
  rewrite X in D2. destruct D2 as [D2|D2]; [discriminate|]. apply andb_true_iff in D2. destruct D2 as [D2 D3].
  apply lists_there_and_back; [exact D2|destruct (p_narrow p); [discriminate|reflexivity]|exact F|exact N].
Qed.
Print Assumptions C78_lists_there_and_back.
Example list_pairs_case : forallb (fun x => existsb (fun p => String.eqb (p_name p) (fst x)) all_pairs) list_pairs = true.
Proof. vm_compute. reflexivity. Qed.

(** ** Updates of FlexRay buffers *)
Theorem C78_flexray_update : forall s i v nn bs, typed X_FlexrayTxBufferUpdate s ->
  get s "txBufferIndex" = Some (VI i) -> get s "payloadDataValid" = Some (VI v) -> get s "payload" = Some (VB nn bs) ->
  exists c, run_conv cv_flx_update_out s = Done c /\
    (v = 1 -> nn = true -> exists r, run_conv cv_flx_update_in c = Done r /\
       get r "txBufferIndex" = Some (VI i) /\ get r "payloadDataValid" = Some (VI 1) /\ get r "payload" = Some (VB true bs)) /\
    (v = 1 -> nn = false -> run_conv cv_flx_update_in c = Bad) /\
    (v = 0 -> exists r, run_conv cv_flx_update_in c = Done r /\
       get r "txBufferIndex" = Some (VI i) /\ get r "payloadDataValid" = Some (VI 0) /\ get r "payload" = Some (VB false [])).
Proof.
  intros s i v nn bs T G1 G2 G3.
  assert (Ri : 0 <= i <= 65535).
  { destruct (T "txBufferIndex" U16 ltac:(left; reflexivity)) as (x & X & z & -> & R). rewrite G1 in X. injection X as ->. exact R. }
  assert (Rv : v = 0 \/ v = 1).
  { destruct (T "payloadDataValid" TBool ltac:(right; left; reflexivity)) as (x & X & z & -> & R). rewrite G2 in X. injection X as ->. cbn in R. lia. }
  eexists. split.
  - unfold run_conv, cv_flx_update_out. cbn [cv_dst cv_init cv_body run_body guard_holds run_stmt]. rewrite G1, G2, G3.
    cbn [get C_FlexrayTxBufferUpdate String.eqb Ascii.eqb Bool.eqb fold_left]. reflexivity.
  - rewrite (wrap_id U16 i) by (try reflexivity; exact Ri).
    rewrite (wrap_id CBool v) by (try reflexivity; cbn; lia).
    split; [|split].
    + intros -> ->. eexists. split.
      { unfold run_conv, cv_flx_update_in. cbn. fold (wrap U16 i). reflexivity. }
      cbn. change (i mod 65536) with (i mod 2 ^ 16). rewrite Z.mod_small by lia. auto.
    + intros -> ->. reflexivity.
    + intros ->. eexists. split.
      { unfold run_conv, cv_flx_update_in. cbn. reflexivity. }
      cbn. rewrite Z.mod_small by lia. auto.
Qed.
Print Assumptions C78_flexray_update.
(** ** A marker of validity that is no boolean is rejected whatever the rest of the update is *)
Theorem C78_flexray_update_boolean : forall c z, get c "payloadDataValid" = Some (VI z) -> z <> 0 -> z <> 1 -> run_conv cv_flx_update_in c = Bad.
Proof.
  intros c z G A B. unfold run_conv, cv_flx_update_in. cbn [cv_dst cv_init cv_body run_body guard_holds run_stmt]. rewrite G. replace ((z =? 0) || (z =? 1)) with false by lia. reflexivity.
Qed.
Print Assumptions C78_flexray_update_boolean.
Example flexray_update_boolean_case : run_conv cv_flx_update_in [("txBufferIndex", VI 1); ("payloadDataValid", VI 2); ("payload", VB true [1%N])] = Bad.
Proof. vm_compute. reflexivity. Qed.
(** ** ... of the network simulation: the payload is dropped unless it is marked as valid *)
Theorem C78_netsim_flexray_update : forall s i v nn bs, typed X_NetSim_FlexrayTxBufferUpdate s ->
  get s "txBufferIndex" = Some (VI i) -> get s "payloadDataValid" = Some (VI v) -> get s "payload" = Some (VB nn bs) ->
  exists c r, run_conv cv_req_flexray_tx_buffer_update_out s = Done c /\ run_conv cv_req_flexray_tx_buffer_update_in c = Done r /\
    get r "txBufferIndex" = Some (VI i) /\ get r "payloadDataValid" = Some (VI v) /\
    get r "payload" = Some (if v =? 0 then VB false [] else VB nn bs).
Proof.
  intros s i v nn bs T G1 G2 G3.
  assert (Ri : 0 <= i <= 65535).
  { destruct (T "txBufferIndex" U16 ltac:(left; reflexivity)) as (x & X & z & -> & R). rewrite G1 in X. injection X as ->. exact R. }
  assert (Rv : v = 0 \/ v = 1).
  { destruct (T "payloadDataValid" TBool ltac:(right; left; reflexivity)) as (x & X & z & -> & R). rewrite G2 in X. injection X as ->. cbn in R. lia. }
  eexists. destruct Rv as [-> | ->]; eexists; (split;
    [unfold run_conv, cv_req_flexray_tx_buffer_update_out; cbn [cv_dst cv_init cv_body run_body guard_holds run_stmt]; rewrite G1, G2, G3;
     cbn [get C_NetSim_FlexrayTxBufferUpdate String.eqb Ascii.eqb Bool.eqb fold_left]; reflexivity|]);
    rewrite (wrap_id U16 i) by (try reflexivity; exact Ri);
    (split; [unfold run_conv, cv_req_flexray_tx_buffer_update_in; cbn; reflexivity|]);
    cbn; rewrite Z.mod_small by lia; auto.
Qed.
Print Assumptions C78_netsim_flexray_update.
Theorem C78_flexray_payload_refuted :
  ~ (forall s, typed X_FlexrayTxBufferUpdate s -> exists c r, run_conv cv_flx_update_out s = Done c /\ run_conv cv_flx_update_in c = Done r) /\
  ~ (forall s c r v, typed X_NetSim_FlexrayTxBufferUpdate s -> run_conv cv_req_flexray_tx_buffer_update_out s = Done c ->
       run_conv cv_req_flexray_tx_buffer_update_in c = Done r -> get s "payload" = Some v -> get r "payload" = Some v).
Proof.
  split; intros H.
  - destruct (H [("txBufferIndex", VI 0); ("payloadDataValid", VI 1); ("payload", VB false [])]) as (c & r & C & R).
    + apply typedb_ok. reflexivity.
    + vm_compute in C. injection C as <-. vm_compute in R. discriminate.
  - set (s := [("txBufferIndex", VI 0); ("payloadDataValid", VI 0); ("payload", VB true [7]%N)]) in *.
    assert (T : typed X_NetSim_FlexrayTxBufferUpdate s) by (apply typedb_ok; reflexivity).
    destruct (C78_netsim_flexray_update s 0 0 true [7]%N T eq_refl eq_refl eq_refl) as (c & r & C & R & _ & _ & P).
    rewrite (H s c r _ T C R eq_refl) in P. discriminate.
Qed.
Print Assumptions C78_flexray_payload_refuted.

(** ** The time of a status update of a LIN controller is lost on the way to the network simulation *)
Theorem C78_lin_status_time_refuted :
  ~ (forall s t, typed X_NetSim_LinControllerStatusUpdate s -> get s "timestamp" = Some (VI t) ->
       exists c, run_conv cv_req_lin_controller_status_update_out s = Done c /\ get c "timestamp" = Some (VI t)) /\
  (forall s, typed X_NetSim_LinControllerStatusUpdate s ->
       exists c, run_conv cv_req_lin_controller_status_update_out s = Done c /\ get c "timestamp" = Some (VI 0)).
Proof.
  split.
  - intros H. destruct (H [("timestamp", VI 5); ("status", VI 1)] 5) as (c & C & G); [apply typedb_ok; reflexivity|reflexivity|].
    vm_compute in C. injection C as <-. discriminate.
  - intros s T. destruct (T "status" U32 ltac:(unfold X_NetSim_LinControllerStatusUpdate; cbn; tauto)) as (x & X & z & -> & R).
    eexists. split; [unfold run_conv, cv_req_lin_controller_status_update_out; cbn [cv_dst cv_init cv_body run_body guard_holds run_stmt]; rewrite X; reflexivity|reflexivity].
Qed.
Print Assumptions C78_lin_status_time_refuted.

(** ** Three events carry a wrong header, or none *)
Theorem C78_event_headers_refuted :
  (exists s c, typed X_LinFrameStatusEvent s /\ run_conv cv_lin_status_event_out s = Done c /\ get c "frame.structHeader" = None) /\
  (exists s c, typed X_LinFrameHeaderEvent s /\ run_conv cv_lin_header_event_out s = Done c /\
     get c "structHeader" = Some (VI (struct_id id_LinWakeupEvent)) /\ struct_id id_LinWakeupEvent <> struct_id id_LinFrameHeaderEvent) /\
  (exists s c, typed X_FlexrayFrameTransmitEvent s /\ run_conv cv_flx_transmit_event_out s = Done c /\
     get c "structHeader" = Some (VI (struct_id id_FlexrayFrameEvent)) /\ struct_id id_FlexrayFrameEvent <> struct_id id_FlexrayFrameTransmitEvent).
Proof.
  split; [|split]; [exists (zeroed X_LinFrameStatusEvent)|exists (zeroed X_LinFrameHeaderEvent)|exists (zeroed X_FlexrayFrameTransmitEvent)]; eexists;
    (split; [apply typedb_ok; reflexivity|]; split; [vm_compute; reflexivity|]).
  - vm_compute. reflexivity.
  - split; [vm_compute; reflexivity|vm_compute; discriminate].
  - split; [vm_compute; reflexivity|vm_compute; discriminate].
Qed.
Print Assumptions C78_event_headers_refuted.

(** ** Parameters of a FlexRay node in older and newer versions of the struct *)
Definition node_v (v : Z) : store :=
  ("structHeader", VI (struct_id {| si_service := si_service id_FlexrayNodeParameters; si_type := si_type id_FlexrayNodeParameters; si_version := v |}))
  :: zeroed C_FlexrayNodeParameters.
Theorem C78_node_versions_refuted :
  id_valid (struct_id {| si_service := si_service id_FlexrayNodeParameters; si_type := si_type id_FlexrayNodeParameters; si_version := 1 |}) = true /\
  id_valid (struct_id {| si_service := si_service id_FlexrayNodeParameters; si_type := si_type id_FlexrayNodeParameters; si_version := 3 |}) = true /\
  (exists d, run_conv cv_flx_node_in (node_v 1) = Done d /\ get d "pLatestTx" = Some (VI 0) /\ get d "pSecondKeySlotId" = None /\ get d "pTwoKeySlotMode" = None) /\
  run_conv cv_flx_node_in (node_v 3) = Done [].
Proof.
  split; [vm_compute; reflexivity|]. split; [vm_compute; reflexivity|]. split.
  - eexists. split; [vm_compute; reflexivity|]. repeat split.
  - vm_compute. reflexivity.
Qed.
Print Assumptions C78_node_versions_refuted.

(** ** An acknowledge of CAN in the first version of the struct leaves the id of the frame uninitialised *)
Theorem C78_can_transmit_version_refuted :
  exists s d, typed C_CanFrameTransmitEvent s /\
    get s "structHeader" = Some (VI (struct_id {| si_service := 1; si_type := si_type id_CanFrameTransmitEvent; si_version := 1 |})) /\
    run_conv cv_evt_can_frame_transmit_event_in s = Done d /\ get d "timestamp" = Some (VI 0) /\ get d "canId" = None.
Proof.
  exists (("structHeader", VI (struct_id {| si_service := 1; si_type := si_type id_CanFrameTransmitEvent; si_version := 1 |})) :: zeroed C_CanFrameTransmitEvent).
  eexists. split; [apply typedb_ok; reflexivity|]. split; [reflexivity|]. split; [vm_compute; reflexivity|]. split; reflexivity.
Qed.
Print Assumptions C78_can_transmit_version_refuted.

(** ** The payload of a FlexRay frame is cut to its size modulo 2^32 *)
Theorem C78_flexray_payload_size : forall s nn bs, typed X_FlexrayFrameEvent s -> get s "frame.payload" = Some (VB nn bs) ->
  exists c, run_conv cv_flx_frame_event_out s = Done c /\
    get c "frame.payload" = Some (VB nn (firstn (Z.to_nat (Z.of_nat (length bs) mod 2 ^ 32)) bs)).
Proof.
  intros s nn bs T G.
  assert (N : forall f t, In (f, t) X_FlexrayFrameEvent -> isnum t = true -> exists z, get s f = Some (VI z)).
  { intros f t I K. destruct (T f t I) as (v & V & HT). destruct (has_ty_num _ _ K HT) as (z & -> & _). eauto. }
  destruct (N "timestamp" I64) as [a1 A1]; [unfold X_FlexrayFrameEvent; cbn; tauto|reflexivity|].
  destruct (N "channel" U32) as [a2 A2]; [unfold X_FlexrayFrameEvent; cbn; tauto|reflexivity|].
  destruct (N "frame.header.flags" U8) as [a3 A3]; [unfold X_FlexrayFrameEvent; cbn; tauto|reflexivity|].
  destruct (N "frame.header.frameId" U16) as [a4 A4]; [unfold X_FlexrayFrameEvent; cbn; tauto|reflexivity|].
  destruct (N "frame.header.payloadLength" U8) as [a5 A5]; [unfold X_FlexrayFrameEvent; cbn; tauto|reflexivity|].
  destruct (N "frame.header.headerCrc" U16) as [a6 A6]; [unfold X_FlexrayFrameEvent; cbn; tauto|reflexivity|].
  destruct (N "frame.header.cycleCount" U8) as [a7 A7]; [unfold X_FlexrayFrameEvent; cbn; tauto|reflexivity|].
  eexists. split.
  - unfold run_conv, cv_flx_frame_event_out. cbn [cv_dst cv_init cv_body run_body guard_holds run_stmt].
    rewrite A1, A2, A3, A4, A5, A6, A7, G. cbn [get C_FlexrayFrameEvent String.eqb Ascii.eqb Bool.eqb fold_left]. reflexivity.
  - cbn [get String.eqb Ascii.eqb Bool.eqb]. reflexivity.
Qed.
Print Assumptions C78_flexray_payload_size.

(* ------------------------------------------------------------------ *)
(** * C79: data of handlers *)

(** ** A handler is only called with data that is still there *)
Theorem C79_handler_data_alive : forall c os k d,
  In c [can_class; ethernet_class; flexray_class; monitor_class; timesync_class] ->
  (forall j id, In (HRemove j id) os -> (j < length c)%nat) ->
  In d (contexts (hrun c (hinit c) os) k) -> alive (hrun c (hinit c) os) d = true.
Proof.
  intros c os k d C R. apply contexts_alive. intros j id I. specialize (R j id I).
  cbn in C. destruct C as [<-|[<-|[<-|[<-|[<-|[]]]]]]; cbn in R;
    do 8 (destruct j as [|j]; [solve [left; reflexivity|right; reflexivity|exfalso; lia]|]); exfalso; lia.
Qed.
Print Assumptions C79_handler_data_alive.
(** ** ... and data that no handler is registered with is freed *)
Theorem C79_handler_data_freed : forall c os d,
  In c [can_class; ethernet_class; flexray_class; monitor_class] ->
  (forall j id, In (HRemove j id) os -> (j < length c)%nat) ->
  (forall k, ~ In d (contexts (hrun c (hinit c) os) k)) -> alive (hrun c (hinit c) os) d = false.
Proof.
  intros c os d C R N. destruct (alive (hrun c (hinit c) os) d) eqn:A; [|reflexivity]. exfalso.
  destruct (alive_contexts c os d) as (k & K); [|exact A|apply (N k K)].
  intros j id I. specialize (R j id I).
  cbn in C. destruct C as [<-|[<-|[<-|[<-|[]]]]]; cbn in R;
    do 8 (destruct j as [|j]; [solve [reflexivity|exfalso; lia]|]); exfalso; lia.
Qed.
Print Assumptions C79_handler_data_freed.
Example handler_data_case :
  let s := hrun can_class (hinit can_class) [HAdd 0 true; HAdd 0 true; HAdd 2 true; HAdd 1 false; HRemove 0 0; HEvent 0] in
  contexts s 0 = [1]%nat /\ contexts s 2 = [2]%nat /\ map (alive s) [0; 1; 2; 3]%nat = [false; true; true; false].
Proof. vm_compute. repeat split. Qed.

(** ** A LIN controller: as long as no handler of slave configurations is removed *)
Theorem C79_lin_handler_data_partial : forall os,
  (forall j id, In (HRemove j id) os -> (j < 4)%nat) ->
  let s := hrun lin_class (hinit lin_class) os in
  forall d, alive s d = true <-> exists k, In d (contexts s k).
Proof.
  intros os R. cbv zeta. intros d.
  assert (O : removes_own lin_class os).
  { intros j id I. specialize (R j id I). do 4 (destruct j as [|j]; [reflexivity|]). exfalso. lia. }
  split.
  - apply alive_contexts. exact O.
  - intros (k & K). apply (contexts_alive _ _ k); [|exact K]. intros j id I. left. apply (O j id I).
Qed.
Print Assumptions C79_lin_handler_data_partial.
(** ** Removing one frees the data of a wakeup handler that is still called, and keeps its own *)
Theorem C79_lin_slave_handler_refuted :
  ~ (forall os k d, let s := hrun lin_class (hinit lin_class) os in In d (contexts s k) -> alive s d = true) /\
  (let s := hrun lin_class (hinit lin_class) [HAdd 2 true; HAdd 4 true; HRemove 4 0] in
   contexts s 2 = [0]%nat /\ alive s 0 = false /\ contexts s 4 = [] /\ alive s 1 = true).
Proof.
  split; [|vm_compute; repeat split].
  intros H. specialize (H [HAdd 2 true; HAdd 4 true; HRemove 4 0] 2%nat 0%nat). vm_compute in H.
  specialize (H (or_introl eq_refl)). discriminate.
Qed.
Print Assumptions C79_lin_slave_handler_refuted.
(** ** The handler of completed steps is never freed *)
Theorem C79_completed_steps_handler_refuted :
  ~ (forall os d, let s := hrun timesync_class (hinit timesync_class) os in alive s d = true -> exists k, In d (contexts s k)) /\
  (forall os k d, alive (hrun timesync_class (hinit timesync_class) os) d = true ->
     forall id, alive (hrun timesync_class (hinit timesync_class) (os ++ [HRemove k id])) d = true).
Proof.
  split.
  - intros H. destruct (H [HAdd 0 true; HRemove 0 0] 0%nat eq_refl) as ([|[|k]] & K); vm_compute in K; exact K.
  - intros os k d A id. unfold hrun in *. rewrite fold_left_app. cbn [fold_left].
    set (s := fold_left (hstep timesync_class) os (hinit timesync_class)) in *. clearbody s.
    apply alive_iff in A. destruct A as (j & l & J & I). apply alive_iff. cbn [hstep].
    replace (match nth_error timesync_class k with Some (Some m) => upd _ m _ | _ => _ end)
      with (upd (hs_lists s) k (fun l => {| hl_inner := nerase id (hl_inner l); hl_next := hl_next l; hl_owned := hl_owned l |}))
      by (destruct k as [|[|k]]; reflexivity).
    exists j. cbn [hs_lists]. rewrite nth_upd, J. destruct (Nat.eqb k j); eexists; (split; [reflexivity|exact I]).
Qed.
Print Assumptions C79_completed_steps_handler_refuted.

(** ** Handlers that are set: each call uses the data of the last handler that was set *)
Theorem C79_set_handler : forall os, scall (srun false os) <> Some None /\
  scall (srun false (os ++ [SSet true])) = Some (Some (ss_fresh (srun false os))) /\
  scall (srun false (os ++ [SSet false])) = scall (srun false os).
Proof.
  intros os. pose proof (srun_inv os) as H. cbv zeta in H. split; [|split].
  - unfold scall. destruct (ss_context (srun false os)) as [[d|]|]; [|destruct H|discriminate].
    rewrite H, Nat.eqb_refl. discriminate.
  - rewrite srun_app. cbn. unfold scall. cbn. rewrite Nat.eqb_refl. reflexivity.
  - rewrite srun_app. reflexivity.
Qed.
Print Assumptions C79_set_handler.
(** ** The call handler of an RPC server, once it was set: a call uses the server as if it were the data *)
Theorem C79_rpc_call_handler_refuted : forall os, scall (srun true (os ++ [SSet true])) = Some None /\
  scall (srun true [SConstruct]) = Some (Some 0%nat).
Proof. intros os. rewrite srun_app. split; reflexivity. Qed.
Print Assumptions C79_rpc_call_handler_refuted.
