From Coq Require Import List Arith ZArith Bool Lia.
From Verif Require Import RpcModel RpcSpec RpcProofs RpcServerProofs.
Import ListNotations.
Open Scope Z_scope.

(** * C30: results of calls *)
Fixpoint countedb (n : Z) (evs : list event) : bool :=
  (0 <=? n) && (n <? 2147483648) &&
  match evs with
  | [] => true
  | Discovered true :: r => countedb (n + 1) r
  | Departed true :: r => countedb (n - 1) r
  | _ :: r => countedb n r
  end.
Lemma countedb_ok : forall evs n, countedb n evs = true -> forall p q, evs = p ++ q -> 0 <= n + servers p < 2147483648.
Proof.
  induction evs as [|e r IH]; intros n H p q E.
  - destruct p; [|discriminate]. cbn in *. lia.
  - cbn [countedb] in H. apply andb_prop in H. destruct H as [H0 H]. destruct p as [|e' p]; [cbn; lia|]. cbn [app] in E. injection E as <- E.
    cbn [servers fold_right]. fold (servers p).
    destruct e as [| | | |[]|[]|]; specialize (IH _ H p q E); lia.
Qed.
Lemma counted_ok : forall evs, countedb 0 evs = true -> counted evs.
Proof. intros evs H p q E. apply (countedb_ok evs 0 H p q E). Qed.

Ltac handled_tac := intros X; cbn in X; intuition discriminate.
Definition before : list event := [Discovered true; Discovered false; Call 5 None; Discovered true; Begin 9 WSuccess; End 9].
Definition after : list event :=
  [Begin 1 WSuccess; End 1; Departed true; Call 6 (Some 100); Begin 0 WInternalError; End 0; Begin 1 WInternalError; End 1; Begin 1 WSuccess; End 1].
Definition parallel : list event := [Begin 1 WInternalError; Begin 0 WSuccess; Begin 1 WSuccess; End 1; Tick 0 10; End 0; End 1].

(** A call made while n > 0 servers were known is answered with one result per response, up to n of them, in the order of
    the responses, with the context of the call, whatever else happens before and after. Nothing is delivered for it
    before it is made and after it is completed. The handling of responses does not overlap here. *)
Theorem C30_results_partial : forall t1 ctx t2, counted t1 -> 0 < servers t1 -> handled (t1 ++ Call ctx None :: t2) -> sequential t2 ->
  let u := sent (fst (run t1 (client0 true))) in
  results u (fst (run (t1 ++ Call ctx None :: t2) (client0 true))) =
  map (fun st => (ctx, to_call_status st)) (firstn (Z.to_nat (servers t1)) (responses u t2)).
Proof. exact results_sequential. Qed.
Print Assumptions C30_results_partial.
Example C30_results_ex : counted before /\ servers before = 2 /\ handled (before ++ Call 7 None :: after) /\ sequential after /\
  results (sent (fst (run before (client0 true)))) (fst (run (before ++ Call 7 None :: after) (client0 true))) =
  [(7%nat, Success); (7%nat, InternalServerError)].
Proof. split; [apply counted_ok; reflexivity|]. split; [reflexivity|]. split; [handled_tac|]. split; [cbn; tauto|]. vm_compute. reflexivity. Qed.

(** The same when the handling of responses overlaps in any way, as long as there are no more responses than servers. *)
Theorem C30_overlapping : forall t1 ctx t2, counted t1 -> 0 < servers t1 -> handled (t1 ++ Call ctx None :: t2) ->
  let u := sent (fst (run t1 (client0 true))) in
  (forall p q, t2 = p ++ q -> (ends u p <= begins u p)%nat) -> Z.of_nat (List.length (responses u t2)) <= servers t1 ->
  results u (fst (run (t1 ++ Call ctx None :: t2) (client0 true))) = map (fun st => (ctx, to_call_status st)) (responses u t2).
Proof. exact results_overlap. Qed.
Print Assumptions C30_overlapping.
Fixpoint prefixb (u n : nat) (l : list event) : bool :=
  match l with
  | [] => true
  | Begin v _ :: r => if Nat.eqb v u then prefixb u (S n) r else prefixb u n r
  | End v :: r => if Nat.eqb v u then match n with O => false | S m => prefixb u m r end else prefixb u n r
  | _ :: r => prefixb u n r
  end.
Lemma prefix_check : forall u t2 k, prefixb u k t2 = true -> forall p q, t2 = p ++ q -> (ends u p <= k + begins u p)%nat.
Proof.
  intros u. induction t2 as [|e r IH]; intros k H p q E.
  - destruct p; [cbn; lia|discriminate].
  - destruct p as [|e' p]; [cbn; lia|]. cbn [app] in E. injection E as <- E.
    destruct e as [cx t|v st|v|now dur|m|m|h]; cbn [prefixb] in H; try exact (IH k H p q E).
    + unfold begins, responses. cbn [flat_map]. fold (responses u p). change (ends u (Begin v st :: p)) with (ends u p).
      destruct (Nat.eqb v u); specialize (IH _ H p q E); unfold begins in IH; cbn [app List.length]; lia.
    + change (begins u (End v :: p)) with (begins u p). unfold ends. cbn [filter]. fold (ends u p).
      destruct (Nat.eqb v u).
      * destruct k as [|k]; [discriminate|]. specialize (IH _ H p q E). unfold ends in *. cbn [List.length]. lia.
      * specialize (IH _ H p q E). exact IH.
Qed.
Example C30_overlapping_ex : (forall p q, parallel = p ++ q -> (ends 1 p <= begins 1 p)%nat) /\ List.length (responses 1 parallel) = 2%nat /\
  sent (fst (run before (client0 true))) = 1%nat /\
  results 1 (fst (run (before ++ Call 7 None :: parallel) (client0 true))) = [(7%nat, InternalServerError); (7%nat, Success)].
Proof. split; [intros p q; apply (prefix_check 1 parallel 0); reflexivity|]. vm_compute. auto. Qed.

(** No result event for a call that was never made. *)
Theorem C30_unknown : forall h evs u, (sent (fst (run evs (client0 h))) <= u)%nat -> results u (fst (run evs (client0 h))) = [].
Proof. exact unknown_results. Qed.
Print Assumptions C30_unknown.
Example C30_unknown_ex : sent (fst (run before (client0 true))) = 1%nat /\ responses 9 before = [WSuccess].
Proof. vm_compute. auto. Qed.

(** A call made while no server is known gets exactly one "server not reachable"; every other call is sent. *)
Theorem C30_not_reachable : forall evs, counted evs -> handled evs ->
  unreachable (fst (run evs (client0 true))) = without_server 0 evs /\
  (sent (fst (run evs (client0 true))) + List.length (without_server 0 evs))%nat = calls evs.
Proof. exact without_all. Qed.
Print Assumptions C30_not_reachable.
Definition comes_and_goes : list event := [Call 1 None; Discovered true; Call 2 None; Departed true; Call 3 (Some 5)].
Example C30_not_reachable_ex : counted comes_and_goes /\ handled comes_and_goes /\
  unreachable (fst (run comes_and_goes (client0 true))) = [1; 3]%nat /\ calls comes_and_goes = 3%nat.
Proof. split; [apply counted_ok; reflexivity|]. split; [handled_tac|]. vm_compute. auto. Qed.

(** Responses beyond the number of servers are not all rejected when their handling overlaps, and the bookkeeping of the
    second one goes through an invalid iterator. *)
Theorem C30_surplus_refuted : exists t1 ctx t2, counted t1 /\ servers t1 = 1 /\ handled (t1 ++ Call ctx None :: t2) /\ matched (t1 ++ Call ctx None :: t2) /\
  List.length (results 0 (fst (run (t1 ++ Call ctx None :: t2) (client0 true)))) = 2%nat /\
  undefined (fst (run (t1 ++ Call ctx None :: t2) (client0 true))).
Proof.
  exists [Discovered true], 7%nat, [Begin 0 WSuccess; Begin 0 WSuccess; End 0; End 0].
  split; [apply counted_ok; reflexivity|]. split; [reflexivity|]. split; [handled_tac|]. split; [|split; [vm_compute; reflexivity|]].
  - intros u p q E. refine (prefix_check u _ 0 _ p q E). destruct u; reflexivity.
  - exists 0%nat. vm_compute. auto.
Qed.
Print Assumptions C30_surplus_refuted.

(** The claim fails when a server leaves: a call without timeout that was sent to it is never answered, since a departure
    completes no call. *)
Theorem C30_departed_refuted : exists t1 ctx, counted t1 /\ servers t1 = 1 /\
  forall t2, (forall u st, ~ In (Begin u st) t2) -> sequential t2 -> handled t2 ->
    results 0 (fst (run (t1 ++ Call ctx None :: Departed true :: t2) (client0 true))) = [].
Proof.
  exists [Discovered true], 7%nat. split; [apply counted_ok; reflexivity|]. split; [reflexivity|]. intros t2 NB S H.
  pose proof (results_sequential [Discovered true] 7 (Departed true :: t2)) as R. cbn zeta in R.
  change (sent (fst (run [Discovered true] (client0 true)))) with 0%nat in R. rewrite R.
  - replace (responses 0 (Departed true :: t2)) with (@nil wire_status); [reflexivity|]. symmetry. unfold responses. cbn [flat_map app].
    clear - NB. induction t2 as [|e r IH]; [reflexivity|]. cbn [flat_map]. rewrite IH; [|intros u st X; apply (NB u st); right; exact X].
    destruct e as [|v st| | | | |]; try reflexivity. elim (NB v st). left. reflexivity.
  - apply counted_ok. reflexivity.
  - reflexivity.
  - intros X. cbn in X. destruct X as [X|[X|[X|X]]]; try discriminate. exact (H X).
  - exact S.
Qed.
Print Assumptions C30_departed_refuted.

(** * C31: timeouts *)

(** The first tick at which the time reported since the call reaches the timeout delivers exactly one Timeout if the call is
    not completely answered by then, and nothing is delivered for the call afterwards; a call that is completely answered
    by then gets no Timeout. Missing for the full statement: executions with undefined behaviour, handling of responses that
    overlaps with ticks, and the exact time in a simulation with varying step sizes; see below. *)
Theorem C31_timeout_partial : forall t1 ctx d a now dur b, counted t1 -> 0 < servers t1 ->
  handled (t1 ++ Call ctx (Some d) :: a ++ Tick now dur :: b) -> sequential (a ++ Tick now dur :: b) ->
  ~ expired d a -> d <= elapsed a + dur ->
  let u := sent (fst (run t1 (client0 true))) in
  results u (fst (run (t1 ++ Call ctx (Some d) :: a ++ Tick now dur :: b) (client0 true))) =
  map (fun st => (ctx, to_call_status st)) (firstn (Z.to_nat (servers t1)) (responses u a)) ++
  (if Z.of_nat (List.length (responses u a)) <? servers t1 then [(ctx, Timeout)] else []).
Proof. exact timeout_results. Qed.
Print Assumptions C31_timeout_partial.

(** As long as no tick has reached the timeout the call behaves like one without. *)
Theorem C31_no_timeout : forall t1 ctx d t2, counted t1 -> 0 < servers t1 ->
  handled (t1 ++ Call ctx (Some d) :: t2) -> sequential t2 -> ~ expired d t2 ->
  let u := sent (fst (run t1 (client0 true))) in
  results u (fst (run (t1 ++ Call ctx (Some d) :: t2) (client0 true))) =
  map (fun st => (ctx, to_call_status st)) (firstn (Z.to_nat (servers t1)) (responses u t2)).
Proof. exact no_timeout_results. Qed.
Print Assumptions C31_no_timeout.
Fixpoint expiredb (d : Z) (evs : list event) : bool :=
  match evs with [] => false | Tick _ x :: r => (d <=? x) || expiredb (d - x) r | _ :: r => expiredb d r end.
Lemma expiredb_ok : forall evs d, expiredb d evs = false -> ~ expired d evs.
Proof.
  induction evs as [|e r IH]; intros d H (p & now & dur & q & E & L); [destruct p; discriminate|].
  destruct p as [|e' p]; cbn [app] in E.
  - injection E as -> E. cbn in H, L. apply orb_false_iff in H. destruct H as [H _]. apply Z.leb_gt in H. lia.
  - injection E as <- E. destruct e as [cx t|v st|v|now' dur'|m|m|h]; try (apply (IH d H); exists p, now, dur, q; split; [exact E|exact L]).
    cbn in H. apply orb_false_iff in H. destruct H as [_ H]. apply (IH _ H). exists p, now, dur, q. split; [exact E|].
    cbn [elapsed fold_right] in L. fold (elapsed p) in L. lia.
Qed.
Definition waiting : list event := [Tick 10 10; Begin 1 WSuccess; End 1; Tick 20 10].
Definition late : list event := [Begin 1 WSuccess; End 1; Tick 40 10].
Example C31_ex : counted before /\ 0 < servers before /\ handled (before ++ Call 7 (Some 25) :: waiting ++ Tick 30 10 :: late) /\
  sequential (waiting ++ Tick 30 10 :: late) /\ ~ expired 25 waiting /\ 25 <= elapsed waiting + 10 /\
  results 1 (fst (run (before ++ Call 7 (Some 25) :: waiting ++ Tick 30 10 :: late) (client0 true))) = [(7%nat, Success); (7%nat, Timeout)].
Proof.
  split; [apply counted_ok; reflexivity|]. split; [reflexivity|]. split; [handled_tac|]. split; [cbn; tauto|].
  split; [apply expiredb_ok; reflexivity|]. split; [cbn; lia|]. vm_compute. reflexivity.
Qed.

(** With a constant step size the timeout is exact in virtual time: it is reported in the first step whose time is at
    least the timeout later than the step in which the call was made. *)
Theorem C31_virtual_time : forall t1 ctx d a now dur b t0 size, counted t1 -> 0 < servers t1 ->
  handled (t1 ++ Call ctx (Some d) :: a ++ Tick now dur :: b) -> sequential (a ++ Tick now dur :: b) ->
  steady t0 size (a ++ Tick now dur :: b) ->
  (forall now' dur', In (Tick now' dur') a -> now' - t0 < d) -> d <= now - t0 ->
  let u := sent (fst (run t1 (client0 true))) in
  results u (fst (run (t1 ++ Call ctx (Some d) :: a ++ Tick now dur :: b) (client0 true))) =
  map (fun st => (ctx, to_call_status st)) (firstn (Z.to_nat (servers t1)) (responses u a)) ++
  (if Z.of_nat (List.length (responses u a)) <? servers t1 then [(ctx, Timeout)] else []).
Proof.
  intros t1 ctx d a now dur b t0 size C P H S ST B L. apply timeout_results; auto.
  - intros X. assert (SA : steady t0 size a).
    { clear - ST. revert t0 ST. induction a as [|e r IH]; intros t0 ST; [exact I|]. destruct e; cbn [app steady] in *; try (apply IH; exact ST).
      destruct ST as (A & B & ST). auto. }
    apply (steady_expired size d t0 a SA) in X. destruct X as (n & x & I & Y). specialize (B n x I). lia.
  - apply steady_elapsed in ST. lia.
Qed.
Print Assumptions C31_virtual_time.
Example C31_virtual_ex : steady 0 10 (waiting ++ Tick 30 10 :: late) /\ 25 <= 30 - 0.
Proof. cbn. lia. Qed.

(** With varying step sizes it is not: the duration of the step that is just beginning is subtracted. Here the timeout of 5
    is reported after 1. *)
Theorem C31_varying_steps_refuted : exists t1 ctx d a now dur t0, counted t1 /\ servers t1 = 1 /\ sequential (a ++ [Tick now dur]) /\
  chained t0 1 (a ++ [Tick now dur]) /\ now - t0 < d /\
  results 0 (fst (run (t1 ++ Call ctx (Some d) :: a ++ [Tick now dur]) (client0 true))) = [(ctx, Timeout)].
Proof.
  exists [Discovered true], 7%nat, 5, [], 1, 10, 0. split; [apply counted_ok; reflexivity|]. split; [reflexivity|]. split; [cbn; tauto|].
  split; [cbn; lia|]. split; [lia|]. vm_compute. reflexivity.
Qed.
Print Assumptions C31_varying_steps_refuted.

(** A call that is answered in time still has its timeout entry. When that expires, the end iterator is dereferenced:
    undefined behaviour in an ordinary sequential execution. *)
Theorem C31_answered_refuted : exists evs, counted evs /\ handled evs /\ sequential evs /\
  results 0 (fst (run evs (client0 true))) = [(7%nat, Success)] /\ undefined (fst (run evs (client0 true))).
Proof.
  exists [Discovered true; Call 7 (Some 25); Tick 10 10; Begin 0 WSuccess; End 0; Tick 20 10; Tick 30 10].
  split; [apply counted_ok; reflexivity|]. split; [handled_tac|]. split; [cbn; tauto|]. split; [vm_compute; reflexivity|].
  exists 0%nat. vm_compute. auto.
Qed.
Print Assumptions C31_answered_refuted.

(** Without calls with timeouts there is no undefined behaviour in sequential executions. *)
Theorem C31_no_undefined_partial : forall evs h, (forall ctx d, ~ In (Call ctx (Some d)) evs) -> sequential evs ->
  ~ undefined (fst (run evs (client0 h))).
Proof. intros evs h N S (u & I). exact (no_timeouts_run evs (client0 h) N eq_refl eq_refl S u I). Qed.
Print Assumptions C31_no_undefined_partial.
Example C31_no_undefined_ex : (forall ctx d, ~ In (Call ctx (Some d)) (before ++ Call 7 None :: waiting)) /\ sequential (before ++ Call 7 None :: waiting).
Proof. split; [intros ctx d X; cbn in X; intuition discriminate|cbn; tauto]. Qed.

(** A tick between the two halves of the handling of a response: use after erase, and the call that was answered gets a
    Timeout as well. *)
Theorem C31_race_refuted : exists evs, counted evs /\ handled evs /\ matched evs /\ servers evs = 1 /\
  results 0 (fst (run evs (client0 true))) = [(7%nat, Success); (7%nat, Timeout)] /\ undefined (fst (run evs (client0 true))).
Proof.
  exists [Discovered true; Call 7 (Some 25); Tick 20 20; Begin 0 WSuccess; Tick 30 10; End 0].
  split; [apply counted_ok; reflexivity|]. split; [handled_tac|]. split.
  - intros u p q E. refine (prefix_check u _ 0 _ p q E). destruct u; reflexivity.
  - split; [reflexivity|]. split; [vm_compute; reflexivity|]. exists 0%nat. vm_compute. auto.
Qed.
Print Assumptions C31_race_refuted.

(** Without result handler a timeout throws, and the other calls that expired in the same tick are never reported. *)
Theorem C31_no_handler_refuted : exists evs, counted evs /\ sequential evs /\
  In Threw (fst (run evs (client0 false))) /\ results 0 (fst (run evs (client0 false))) = [] /\ results 1 (fst (run evs (client0 false))) = [] /\
  c_handler (snd (run evs (client0 false))) = true.
Proof.
  exists [Discovered true; Call 7 (Some 5); Call 8 (Some 5); Tick 10 10; SetHandler true; Tick 20 10; Tick 30 10].
  split; [apply counted_ok; reflexivity|]. split; [cbn; tauto|]. vm_compute. intuition.
Qed.
Print Assumptions C31_no_handler_refuted.

(** * C32: the server *)
Open Scope nat_scope.
Definition two_clients : list sevent := [Arrive 1 true; Arrive 2 true; Arrive 3 false; Receive 1 10; Return 0; Receive 2 11].
Definition good : list sevent := two_clients ++ [Submit (Some 1) [1; 2]; Submit (Some 1) [1; 2]; Return 1; Submit (Some 0) [2; 1]].
Ltac sane_tac :=
  split; [|split];
  [intros p h order q E; repeat (destruct p as [|? p]; cbn [app] in E; [try discriminate|first [discriminate|injection E as <- E]]); try discriminate;
   injection E; intros; subst; (split; [eexists; eexists; vm_compute; eauto 12|split;
     [repeat constructor; cbn; intuition discriminate|intros c; cbn; split; [intros [<-|[<-|[]]]; auto 12|intuition congruence]]])
  |intros p h q E; repeat (destruct p as [|? p]; cbn [app] in E; [try discriminate|first [discriminate|injection E as <- E]]); try discriminate;
   injection E; intros; subst; eexists; eexists; vm_compute; eauto 12
  |cbn; intuition discriminate].
Lemma good_sane : sane good.
Proof. sane_tac. Qed.
Lemma good_distinct : distinct_uuids good.
Proof. repeat constructor; cbn; intuition discriminate. Qed.

(** Every call of a client that has been discovered is passed to the call handler exactly once. *)
Theorem C32_called_once : forall p c u q, sane (p ++ Receive c u :: q) -> distinct_uuids (p ++ Receive c u :: q) -> In (Arrive c true) p ->
  exists h, fst (sstep (Receive c u) (st p)) = [Called c u h] /\ called c u (outs (p ++ Receive c u :: q)) = [h].
Proof. exact called_once. Qed.
Print Assumptions C32_called_once.
Example C32_called_ex : sane good /\ distinct_uuids good /\
  outs good = [Called 1 10 0; Called 2 11 1; Response 2 11 WSuccess; StateError; Response 1 10 WSuccess].
Proof. split; [exact good_sane|]. split; [exact good_distinct|]. vm_compute. reflexivity. Qed.

(** Without assumptions on uuids and handlers: the call is passed on or refused with an internal error, never both. *)
Theorem C32_called_or_refused : forall p c u b, In (Arrive c true) p ->
  (exists h, fst (sstep (Receive c u) (snd (srun p (server0 b)))) = [Called c u h]) \/
  fst (sstep (Receive c u) (snd (srun p (server0 b)))) = [Response c u WInternalError].
Proof. exact received_answer. Qed.
Print Assumptions C32_called_or_refused.
Example C32_refused_ex : fst (sstep (Receive 1 10) (snd (srun [Arrive 1 true] (server0 false)))) = [Response 1 10 WInternalError] /\
  fst (sstep (Receive 1 10) (snd (srun two_clients (server0 true)))) = [Response 1 10 WInternalError].
Proof. vm_compute. auto. Qed.

(** The first submission for a handle sends exactly one response, to the client that made the call, if the call handler is
    still running or the iteration reaches that client last. Missing for the full statement: see [C32_freed_refuted]. *)
Theorem C32_submit_partial : forall p h order q c u, sane (p ++ Submit (Some h) order :: q) -> distinct_uuids (p ++ Submit (Some h) order :: q) ->
  In (Called c u h) (outs p) -> ~ submitted h p -> ~ In (Return h) p \/ (exists a, order = a ++ [c]) ->
  fst (sstep (Submit (Some h) order) (st p)) = [Response c u WSuccess].
Proof.
  intros p h order q c u S D C N R. destruct (first_submit p h order q c u S D C N) as (rest & E & _ & X). rewrite E, (X R). reflexivity.
Qed.
Print Assumptions C32_submit_partial.
(** In any case the response is sent and nothing else is. *)
Theorem C32_submit_sent : forall p h order q c u, sane (p ++ Submit (Some h) order :: q) -> distinct_uuids (p ++ Submit (Some h) order :: q) ->
  In (Called c u h) (outs p) -> ~ submitted h p ->
  fst (sstep (Submit (Some h) order) (st p)) = [Response c u WSuccess] \/
  fst (sstep (Submit (Some h) order) (st p)) = [Response c u WSuccess; SUndefined].
Proof.
  intros p h order q c u S D C N. destruct (first_submit p h order q c u S D C N) as (rest & E & [-> | ->] & _); rewrite E; auto.
Qed.
Print Assumptions C32_submit_sent.
Example C32_submit_ex : good = two_clients ++ Submit (Some 1) [1; 2] :: [Submit (Some 1) [1; 2]; Return 1; Submit (Some 0) [2; 1]] /\
  In (Called 2 11 1) (outs two_clients) /\ ~ submitted 1 two_clients /\ ~ In (Return 1) two_clients.
Proof.
  split; [reflexivity|]. split; [vm_compute; auto|]. split; [intros (x & I); cbn in I; intuition discriminate|]. cbn. intuition discriminate.
Qed.

(** Over whole executions a call is answered with success at most once, and it is if a result was submitted for it. *)
Theorem C32_answered_once : forall evs c u, sane evs -> distinct_uuids evs ->
  (answered c u (outs evs) <= 1) /\ (answered c u (outs evs) = 1 <-> exists h, In (Called c u h) (outs evs) /\ submitted h evs).
Proof.
  intros evs c u S D. destruct (answered_inv evs c u S D) as [[A B]|[A B]]; rewrite A; (split; [lia|]); split; auto; try discriminate.
  intros (h & C & X). elim (B h C X).
Qed.
Print Assumptions C32_answered_once.

(** Any further submission while the call handler runs is an error and sends nothing. After the handler has returned the handle
    does not exist any more and the behaviour is undefined; nothing is sent by the part that is defined. *)
Theorem C32_again_partial : forall p h order q c u, sane (p ++ Submit (Some h) order :: q) -> distinct_uuids (p ++ Submit (Some h) order :: q) ->
  In (Called c u h) (outs p) -> submitted h p ->
  fst (sstep (Submit (Some h) order) (st p)) = [StateError] /\ ~ In (Return h) p \/
  fst (sstep (Submit (Some h) order) (st p)) = [SUndefined] /\ In (Return h) p.
Proof. exact again_submit. Qed.
Print Assumptions C32_again_partial.
Example C32_again_ex : good = (two_clients ++ [Submit (Some 1) [1; 2]]) ++ Submit (Some 1) [1; 2] :: [Return 1; Submit (Some 0) [2; 1]] /\
  In (Called 2 11 1) (outs (two_clients ++ [Submit (Some 1) [1; 2]])) /\ submitted 1 (two_clients ++ [Submit (Some 1) [1; 2]]).
Proof. split; [reflexivity|]. split; [vm_compute; auto|]. exists [1; 2]. cbn. tauto. Qed.

(** A null handle is rejected and nothing is sent. *)
Theorem C32_null : forall order s, sstep (Submit None order) s = ([StateError], s).
Proof. reflexivity. Qed.
Print Assumptions C32_null.

(** Submitting a result after the call handler has returned, which the interface allows, accesses the handle after it has been
    destroyed if the server has another client that comes later in the iteration order. *)
Theorem C32_freed_refuted : exists p h order c u, sane (p ++ [Submit (Some h) order]) /\ distinct_uuids (p ++ [Submit (Some h) order]) /\
  In (Called c u h) (outs p) /\ ~ submitted h p /\ fst (sstep (Submit (Some h) order) (st p)) = [Response c u WSuccess; SUndefined].
Proof.
  exists two_clients, 0, [1; 2], 1, 10. split; [sane_tac|]. split; [repeat constructor; cbn; intuition discriminate|].
  split; [vm_compute; auto|]. split; [intros (x & I); cbn in I; intuition discriminate|]. vm_compute. reflexivity.
Qed.
Print Assumptions C32_freed_refuted.
(** A second submission after the handler has returned is not reported as an error but undefined. *)
Theorem C32_again_refuted : exists p h order c u, sane (p ++ [Submit (Some h) order]) /\ distinct_uuids (p ++ [Submit (Some h) order]) /\
  In (Called c u h) (outs p) /\ submitted h p /\ fst (sstep (Submit (Some h) order) (st p)) = [SUndefined].
Proof.
  exists [Arrive 1 true; Receive 1 10; Submit (Some 0) [1]; Return 0], 0, [1], 1, 10. split.
  - split; [|split].
    + intros p h order q E; repeat (destruct p as [|? p]; cbn [app] in E; [try discriminate|first [discriminate|injection E as <- E]]); try discriminate;
        injection E; intros; subst; (split; [eexists; eexists; vm_compute; eauto 12|split;
        [repeat constructor; cbn; intuition discriminate|intros c; cbn; split; [intros [<-|[]]; auto 12|intuition congruence]]]).
    + intros p h q E; repeat (destruct p as [|? p]; cbn [app] in E; [try discriminate|first [discriminate|injection E as <- E]]); try discriminate;
        injection E; intros; subst; eexists; eexists; vm_compute; eauto 12.
    + cbn; intuition discriminate.
  - split; [repeat constructor; cbn; intuition discriminate|]. split; [vm_compute; auto|]. split; [exists [1]; cbn; auto|]. vm_compute. reflexivity.
Qed.
Print Assumptions C32_again_refuted.
