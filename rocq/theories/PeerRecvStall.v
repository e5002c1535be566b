(** A message for which the listener throws is the last one that is received. *)
From Coq Require Import List NArith Arith Bool Lia.
From Verif Require Import Base MessageBufferModel RingBufferModel PeerRecvModel RingBufferSpec PeerRecvSpec PeerRecvProofs.
Import ListNotations.

(** No message so far made the listener throw. *)
Definition calm (hd : listener) (out : list (list N)) : Prop :=
  forall ms m ms', out = ms ++ m :: ms' -> hd ms m <> VThrow.
(** Only the last one may have, and then no read is outstanding. *)
Definition halted (hd : listener) (s : rx) : Prop :=
  forall ms m ms', rx_out s = ms ++ m :: ms' -> hd ms m = VThrow -> ms' = [] /\ rx_reading s = false.

Lemma calm_halted : forall hd s, calm hd (rx_out s) -> halted hd s.
Proof. intros hd s C ms m ms' E T. exfalso. exact (C ms m ms' E T). Qed.
Lemma snoc_split : forall (A : Type) (l : list A) x ms m ms', l ++ [x] = ms ++ m :: ms' ->
  (ms' = [] /\ ms = l /\ m = x) \/ exists ms'', l = ms ++ m :: ms''.
Proof.
  intros A l x ms m ms' E. destruct (exists_last (l := m :: ms') ltac:(discriminate)) as (l0 & y & Hy).
  rewrite Hy in E. rewrite app_assoc in E. apply app_inj_tail in E. destruct E as [E ->].
  destruct l0 as [|a l0].
  - cbn in Hy. injection Hy as -> ->. left. rewrite app_nil_r in E. subst. auto.
  - cbn in Hy. injection Hy as -> ->. right. exists l0. exact E.
Qed.
Lemma calm_snoc : forall hd l x, calm hd l -> hd l x <> VThrow -> calm hd (l ++ [x]).
Proof.
  intros hd l x C H ms m ms' E. destruct (snoc_split _ _ _ _ _ _ E) as [(-> & -> & ->)|(ms'' & E')]; [exact H|].
  exact (C ms m ms'' E').
Qed.
Lemma halted_snoc : forall hd l x s, calm hd l -> rx_out s = l ++ [x] -> rx_reading s = false -> halted hd s.
Proof.
  intros hd l x s C E R ms m ms' E' T. rewrite E in E'.
  destruct (snoc_split _ _ _ _ _ _ E') as [(-> & -> & ->)|(ms'' & E'')]; [auto|].
  exfalso. exact (C ms m ms'' E'' T).
Qed.

Lemma read_some_out : forall s s', read_some s = Ok s' -> rx_out s' = rx_out s.
Proof.
  intros s s'. unfold read_some. destruct (_ =? 0); [discriminate|].
  destruct (rx_pending s); [intro H; injection H as <-; reflexivity|].
  destruct (rx_reading s); [discriminate|]. intro H; injection H as <-; reflexivity.
Qed.

Lemma sized_halted : forall hd s s' b, calm hd (rx_out s) -> rx_reading s = false -> dispatch_sized hd s = Ok (s', b) ->
  if b then calm hd (rx_out s') /\ rx_reading s' = false else halted hd s'.
Proof.
  intros hd s s' b C R. unfold dispatch_sized.
  destruct (_ || _).
  { intro H; injection H as <- <-. apply calm_halted. exact C. }
  destruct (N.ltb _ _).
  { destruct (if N.ltb _ _ then _ else _) as [rb| |]; cbn [bind]; try discriminate.
    destruct (read_some _) as [s1| |] eqn:E; cbn [bind]; try discriminate. intro H; injection H as <- <-.
    apply calm_halted. rewrite (read_some_out _ _ E). exact C. }
  destruct (read _ _) as [[[m|] rb]| |]; cbn [bind fst snd]; try discriminate.
  destruct (hd (rx_out s) m) eqn:V; intro H; injection H as <- <-; cbn [rx_out rx_reading rx_shutdown].
  - split; [|exact R]. apply calm_snoc; [exact C|]. rewrite V. discriminate.
  - eapply halted_snoc; [exact C|reflexivity|exact R].
  - split; [|exact R]. apply calm_snoc; [exact C|]. rewrite V. discriminate.
Qed.
Lemma once_halted : forall hd s s' b, calm hd (rx_out s) -> rx_reading s = false -> dispatch_once hd s = Ok (s', b) ->
  if b then calm hd (rx_out s') /\ rx_reading s' = false else halted hd s'.
Proof.
  intros hd s s' b C R. unfold dispatch_once.
  destruct (N.eqb _ _); [|apply sized_halted; assumption].
  destruct (rx_down s); [intro H; injection H as <- <-; apply calm_halted, C|].
  destruct (4 <=? _).
  - destruct (peek 4 _) as [[bs|]| |]; cbn [bind]; try discriminate. apply sized_halted; assumption.
  - destruct (read_some s) as [s1| |] eqn:E; cbn [bind]; try discriminate. intro H; injection H as <- <-.
    apply calm_halted. rewrite (read_some_out _ _ E). exact C.
Qed.
Lemma dispatch_halted : forall hd f s s', calm hd (rx_out s) -> rx_reading s = false ->
  dispatch f hd s = Ok (Some s') -> halted hd s'.
Proof.
  intros hd f. induction f as [|f IH]; intros s s' C R; cbn [dispatch]; [discriminate|].
  destruct (dispatch_once hd s) as [[s1 b]| |] eqn:E; cbn [bind fst snd]; try discriminate.
  pose proof (once_halted hd s s1 b C R E) as H. destruct b.
  - destruct H as [C1 R1]. apply IH; assumption.
  - intro X; injection X as <-. exact H.
Qed.
Lemma step_halted : forall hd e s rest s' rest', halted hd s -> rx_step hd e s rest = Ok (Some (s', rest')) -> halted hd s'.
Proof.
  intros hd e s rest s' rest' H. destruct e as [k| |]; cbn [rx_step].
  - destruct (rx_reading s) eqn:R; cbn [negb]; [|intro X; injection X as <- _; exact H].
    assert (C : calm hd (rx_out s)).
    { intros ms m ms' E T. destruct (H ms m ms' E T) as [_ F]. rewrite R in F. discriminate F. }
    destruct (rx_pending s).
    { intro X; injection X as <- _. apply calm_halted. exact C. }
    destruct (length _ =? 0); [intro X; injection X as <- _; exact H|].
    destruct (socket_fill _ _) as [rb| |]; cbn [bind]; try discriminate.
    destruct (dispatch _ _ _) as [[s1|]| |] eqn:D; cbn [bind]; try discriminate.
    intro X; injection X as <- _. eapply dispatch_halted; [| |exact D]; [exact C|reflexivity].
  - intro X; injection X as <- _. intros ms m ms' E T. exact (H ms m ms' E T).
  - intro X; injection X as <- _. intros ms m ms' E T. destruct (H ms m ms' E T) as [F _]. split; [exact F|reflexivity].
Qed.
Lemma run_halted : forall hd l s rest s' rest', halted hd s -> rx_run hd l s rest = Ok (Some (s', rest')) -> halted hd s'.
Proof.
  intros hd l. induction l as [|e l IH]; intros s rest s' rest' H; cbn [rx_run].
  - intro X; injection X as <- _. exact H.
  - destruct (rx_step hd e s rest) as [[[s1 r1]|]| |] eqn:E; cbn [bind]; try discriminate.
    apply IH. eapply step_halted; eassumption.
Qed.
Lemma conn_halted : forall hd cap l stream s rest, rx_conn hd cap l stream = Ok (Some (s, rest)) -> halted hd s.
Proof.
  intros hd cap l stream s rest. unfold rx_conn, rx_start.
  destruct (read_some _) as [s0| |] eqn:E; cbn [bind]; try discriminate. apply run_halted.
  apply calm_halted. rewrite (read_some_out _ _ E). intros ms m ms' X. destruct ms; discriminate X.
Qed.
