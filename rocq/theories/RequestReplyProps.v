From Coq Require Import List Arith Bool Lia.
From Verif Require Import RequestReplyModel RequestReplySpec RequestReplyProofs.
Import ListNotations.

(** * C28: the barrier of CallAfterAllParticipantsReplied *)
(** Three peers, two requests: one peer answers, one leaves, one answers; a peer that joins later is not waited for. *)
Definition barrier_run : list ev :=
  [EConnect 1; EConnect 2; EConnect 3; ERequest; EDeferred; EReturn 2 0 Success; EConnect 4; EDisconnect 1; EReturn 3 0 Success; ERequest; EDeferred;
   EReturn 4 1 Success; EReturn 2 1 Success; EDisconnect 2; EReturn 3 1 Success].

(** A completion function is called only after every participant connected at the time of the (deferred) call has answered
    that very call or has disconnected. *)
Theorem C28_only_after : forall evs c, In (Completed c) (fst (run evs)) ->
  exists e1 e2 o, evs = e1 ++ EDeferred :: e2 /\ fst (run (e1 ++ [EDeferred])) = fst (run e1) ++ Started c (connected e1) :: o /\
    forall p, In p (connected e1) -> exists u e, In (SentCall u ft_replies (connected e1)) o /\ In e e2 /\ settles p u e.
Proof. exact only_after. Qed.
Print Assumptions C28_only_after.
Example C28_only_after_ex : In (Completed 0) (fst (run barrier_run)) /\ In (Completed 1) (fst (run barrier_run)).
Proof. vm_compute. auto 20. Qed.

(** It is never called twice, and a call that was dropped is never made. *)
Theorem C28_at_most_once : forall evs c, completed c (fst (run evs)) + dropped c (fst (run evs)) <= 1.
Proof. exact at_most_once. Qed.
Print Assumptions C28_at_most_once.

(** Exactly once, when all deferred functions have run and no connected peer still owes an answer. Missing for the full statement:
    the requests that are dropped, see below. *)
Theorem C28_exactly_once_partial : forall evs c, c < requests evs -> w_queue (snd (run evs)) = [] -> w_owed (snd (run evs)) = [] ->
  completed c (fst (run evs)) + dropped c (fst (run evs)) = 1.
Proof. exact exactly_once. Qed.
Print Assumptions C28_exactly_once_partial.
Example C28_exactly_once_ex : requests barrier_run = 2 /\ w_queue (snd (run barrier_run)) = [] /\ w_owed (snd (run barrier_run)) = [] /\
  completed 0 (fst (run barrier_run)) = 1 /\ completed 1 (fst (run barrier_run)) = 1 /\ w_owed (snd (run (firstn 7 barrier_run))) = [(1, 0); (3, 0)].
Proof. vm_compute. auto 10. Qed.

(** A request is dropped only while an earlier one has started and not completed. *)
Theorem C28_dropped_only_while_waiting : forall evs c a b, fst (run evs) = a ++ Dropped c :: b ->
  exists d R, In (Started d R) a /\ ~ In (Completed d) a.
Proof. exact dropped_only. Qed.
Print Assumptions C28_dropped_only_while_waiting.

(** Two overlapping requests: the second completion function is never called, although all participants answered. *)
Theorem C28_dropped_refuted : exists evs c, c < requests evs /\ w_queue (snd (run evs)) = [] /\ w_owed (snd (run evs)) = [] /\
  completed c (fst (run evs)) = 0.
Proof. exists [EConnect 1; ERequest; ERequest; EDeferred; EDeferred; EReturn 1 0 Success], 1. vm_compute. auto. Qed.
Print Assumptions C28_dropped_refuted.
Example C28_dropped_ex : fst (run [EConnect 1; ERequest; ERequest; EDeferred; EDeferred; EReturn 1 0 Success]) =
  [Started 0 [1]; SentCall 0 1 [1]] ++ Dropped 1 :: [Forwarded 1 0 Success; Completed 0].
Proof. reflexivity. Qed.

(** * C29: one return per call and participant *)
(** For all calls made by the barrier, the only user of the service: at most one return from each participant; a participant the call was
    (Missing for the full statement: several outstanding calls made by other users, see C29_overlapping_refuted.) A participant the call was
    sent to either still owes its answer, or is gone or has answered, and then there is exactly one; no return from anybody else. *)
Theorem C29_exactly_one_partial : forall evs p u,
  returns p u (fst (run evs)) <= 1 /\
  ((exists ft R, In (SentCall u ft R) (fst (run evs)) /\ In p R) ->
     In (p, u) (w_owed (snd (run evs))) /\ returns p u (fst (run evs)) = 0 \/ ~ In (p, u) (w_owed (snd (run evs))) /\ returns p u (fst (run evs)) = 1) /\
  (~ (exists ft R, In (SentCall u ft R) (fst (run evs)) /\ In p R) -> returns p u (fst (run evs)) = 0).
Proof.
  intros evs p u. destruct (returned_once evs) as (_ & A & B & C & _). split; [apply A|]. split; [apply B|apply C].
Qed.
Print Assumptions C29_exactly_one_partial.
Example C29_ex : returns 1 0 (fst (run barrier_run)) = 1 /\ returns 2 0 (fst (run barrier_run)) = 1 /\ returns 2 1 (fst (run barrier_run)) = 1 /\
  returns 4 0 (fst (run barrier_run)) = 0 /\ In (Forwarded 1 0 RecipientDisconnected) (fst (run barrier_run)) /\ In (SentCall 0 1 [1; 2; 3]) (fst (run barrier_run)).
Proof. vm_compute. auto 20. Qed.

(** The service used in any other way (several calls outstanding): still at least one return for each addressed participant that answers or leaves. *)
Theorem C29_at_least_one : forall evs1 evs2 p u,
  (forall ft v, In (SCall ft v) (evs1 ++ evs2) -> ft = ft_replies) -> (forall q v ft st, In (SReturn q v ft st) (evs1 ++ evs2) -> ft = ft_replies) ->
  (exists ft R, In (SentCall u ft R) (fst (srun evs1)) /\ In p R) ->
  (In (SRemoved p) evs2 \/ exists ft st, In (SReturn p u ft st) evs2) -> returns p u (fst (srun (evs1 ++ evs2))) > 0.
Proof. exact at_least_once. Qed.
Print Assumptions C29_at_least_one.
Definition overlapping : list sev := [SConnect 1; SCall 1 0; SCall 1 1; SReturn 1 0 1 Success; SRemoved 1].
Example C29_at_least_ex : In (SentCall 0 1 [1]) (fst (srun (firstn 3 overlapping))) /\ In (SRemoved 1) (skipn 3 overlapping).
Proof. vm_compute. auto. Qed.

(** But with two calls outstanding the caller gets two returns for one call: the answer, and RecipientDisconnected when the participant
    leaves later (RemovePartcipantFromDisconnectLookup works on a copy of the map). *)
Theorem C29_overlapping_refuted : exists evs p u, returns p u (fst (srun evs)) = 2 /\
  (exists R, In (SentCall u ft_replies R) (fst (srun evs)) /\ In p R) /\
  In (Forwarded p u Success) (fst (srun evs)) /\ In (Forwarded p u RecipientDisconnected) (fst (srun evs)).
Proof. exists overlapping, 1, 0. vm_compute. split; [reflexivity|]. split; [exists [1]; auto|]. auto 20. Qed.
Print Assumptions C29_overlapping_refuted.

(** The called side: the first call with a uuid is answered at once, to the caller and with the right status; never twice. *)
Theorem C29_answered : forall evs p u ft, (forall q f, ~ In (ECall q u f) evs) -> In p (connected evs) -> ft <> 0 ->
  fst (run (evs ++ [ECall p u ft])) = fst (run evs) ++ [SentReturn p u ft (if Nat.eqb ft 1 then Success else UnknownFunctionType)].
Proof. exact answered. Qed.
Print Assumptions C29_answered.
Theorem C29_answered_once : forall evs u, answers u (fst (run evs)) <= 1.
Proof. exact answered_once. Qed.
Print Assumptions C29_answered_once.
Example C29_answered_ex : fst (run [EConnect 5; ECall 5 70 1; ECall 5 71 9; ECall 5 70 1; ECall 5 72 0]) =
  [SentReturn 5 70 1 Success; SentReturn 5 71 9 UnknownFunctionType; Threw; Threw].
Proof. reflexivity. Qed.
