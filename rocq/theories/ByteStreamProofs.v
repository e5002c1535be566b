From Coq Require Import List Arith Bool Lia.
From Verif Require Import Base ByteStreamModel.
Import ListNotations.

Definition shutdowns (s : bs) : nat := length (filter (fun c => match c with CShutdown => true | _ => false end) (s_calls s)).
Definition outstanding (s : bs) : nat := s_aread s + s_awrite s.

Record BInv (s : bs) : Prop := {
  b_r : s_aread s = if s_reading s then 1 else 0;
  b_w : s_awrite s = if s_writing s then 1 else 0;
  b_cnt : shutdowns s = if s_posted s then 1 else 0;
  b_post : s_posted s = (s_pending s && negb (s_reading s) && negb (s_writing s));
  b_first : s_posted s = true -> exists r, s_calls s = CShutdown :: r;
  b_closed : s_closed s = s_pending s }.

Lemma binv_new : BInv bs_new.
Proof. constructor; cbn; auto. discriminate. Qed.

Ltac bstep := repeat match goal with
  | |- context [if ?b then _ else _] => destruct b eqn:?; cbn in *
  | H : context [if ?b then _ else _] |- _ => destruct b eqn:?; cbn in *
  end.

Lemma bstep_inv : forall e s, BInv s ->
  match bs_step e s with
  | Ok s' => BInv s' /\ (s_pending s = true -> s_pending s' = true /\
                          (s_calls s' = s_calls s \/ s_calls s' = CShutdown :: s_calls s) /\
                          outstanding s' <= outstanding s) /\
             (e = BShutdown -> s_pending s' = true)
  | Exn => e = BRead \/ e = BWrite
  | UB => False
  end.
Proof.
  intros e [rd wr pe po cl ar aw ca] [H1 H2 H3 H4 H5 H6]. unfold shutdowns in *. cbn in *. subst ar aw po cl.
  destruct e as [| | |r|r]; cbn; unfold async_read, async_write, read_done, write_done, handle_shutdown; cbn;
    try destruct r as [|[]|]; destruct pe, rd, wr; cbn in *; auto;
    (split; [constructor; cbn in *; auto; try discriminate; try (intros; eexists; reflexivity); unfold shutdowns; cbn; auto|]);
    unfold outstanding; cbn; repeat split; auto; try discriminate; lia.
Qed.

Lemma brun_inv : forall l s, BInv s ->
  exists s', bs_run l s = Ok s' /\ BInv s' /\
    (s_pending s = true -> s_pending s' = true /\ outstanding s' <= outstanding s /\
        (s_calls s' = s_calls s \/ s_calls s' = CShutdown :: s_calls s)) /\
    (In BShutdown l -> s_pending s' = true).
Proof.
  induction l as [|e l IH]; intros s H; cbn [bs_run].
  - exists s. split; [reflexivity|]. split; [exact H|]. split; [auto|]. intros [].
  - pose proof (bstep_inv e s H) as HS. destruct (bs_step e s) as [s1| |] eqn:E.
    + destruct HS as (HS & HP & HD). destruct (IH s1 HS) as (s' & F1 & F2 & F3 & F4).
      exists s'. split; [destruct e; exact F1|]. split; [exact F2|]. split.
      * intro Hp. destruct (HP Hp) as (A1 & A2 & A3). destruct (F3 A1) as (B1 & B2 & B3). split; [exact B1|]. split; [lia|].
        assert (Hlim : shutdowns s' <= 1). { destruct F2. rewrite b_cnt0. destruct (s_posted s'); lia. }
        destruct A2 as [A2|A2], B3 as [B3|B3]; rewrite ?A2 in B3; auto.
        exfalso. unfold shutdowns in Hlim. rewrite B3 in Hlim. cbn in Hlim. lia.
      * intros [Hd|Hd]; [apply F3; apply HD; auto|auto].
    + destruct (IH s H) as (s' & F1 & F2 & F3 & F4). exists s'.
      split; [destruct HS; subst; exact F1|]. split; [exact F2|]. split; [exact F3|].
      intros [Hd|Hd]; [destruct HS; subst; discriminate|auto].
    + contradiction.
Qed.

Lemma stream_shutdown : forall l, exists s, bs_run l bs_new = Ok s /\
  shutdowns s <= 1 /\
  (shutdowns s = 1 -> outstanding s = 0 /\ s_pending s = true /\ s_closed s = true /\
     forall l', exists s', bs_run l' s = Ok s' /\ outstanding s' = 0 /\ s_calls s' = s_calls s) /\
  (In BShutdown l -> outstanding s = 0 -> shutdowns s = 1).
Proof.
  intro l. destruct (brun_inv l bs_new binv_new) as (s & E1 & E2 & _ & E3). exists s. split; [exact E1|].
  pose proof E2 as [H1 H2 H3 H4 H5 H6].
  split; [rewrite H3; destruct (s_posted s); lia|]. split.
  - intro Hs. rewrite H3 in Hs. destruct (s_posted s) eqn:Ep; [|discriminate].
    symmetry in H4. apply andb_true_iff in H4. destruct H4 as [H4 Hw]. apply andb_true_iff in H4. destruct H4 as [Hp Hr].
    apply negb_true_iff in Hw. apply negb_true_iff in Hr.
    assert (Ho : outstanding s = 0) by (unfold outstanding; rewrite H1, H2, Hw, Hr; reflexivity).
    split; [exact Ho|]. split; [exact Hp|]. split; [congruence|].
    intro l'. destruct (brun_inv l' s E2) as (s' & F1 & F2 & F3 & _). destruct (F3 Hp) as (G1 & G2 & G3).
    exists s'. split; [exact F1|]. split; [lia|]. destruct G3 as [G3|G3]; [exact G3|]. exfalso.
    destruct F2. unfold shutdowns in *. rewrite G3 in b_cnt0. cbn in b_cnt0. destruct (s_posted s'); lia.
  - intros Hin Ho. rewrite H3, H4, (E3 Hin). unfold outstanding in Ho.
    destruct (s_reading s), (s_writing s); cbn; lia.
Qed.
