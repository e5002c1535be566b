From Coq Require Import String List Arith Bool Lia.
Import ListNotations.
From Verif Require Import Base NetModel NetSpec NetProofs NetOrder NetRecv.
Open Scope nat_scope.
Open Scope list_scope.

(** Where messages come from, and that subscriptions reach every connected participant *)

Lemma was_sent_app : forall a k m t u, was_sent a k m t -> was_sent a k m (t ++ u).
Proof. intros a k m t u [H|[c H]]; [left|right; exists c]; apply in_or_app; now left. Qed.

Record src (n : net) : Prop := {
  sr_last : forall a k m, l_last (links n a k) = Some m -> was_sent a k m (n_trace n);
  sr_chan : forall a b i t m, In (WData i t m) (n_chan n a b) -> exists x, nth_error (rcvs n b) i = Some x /\ was_sent a (t, snd x) m (n_trace n);
  sr_in : forall b k a m, In (EIn b k a m) (n_trace n) -> was_sent a k m (n_trace n);
  sr_mis : forall b k a t m, In (EMisread b k a t m) (n_trace n) -> t <> fst k /\ serdes_name t = serdes_name (fst k) /\ was_sent a (t, snd k) m (n_trace n);
  sr_ign : forall b a, ~ In (EIgnored b a) (n_trace n);
  sr_sub : forall a b i k, In (b, i) (remote n a k) -> In (ESub a b k) (n_trace n);
  sr_join : forall a b, In (EJoined a b) (n_trace n) -> met n a b
}.

(** events that say nothing about arrivals *)
Definition plain (e : event) : Prop := match e with EIn _ _ _ _ | EMisread _ _ _ _ _ | EIgnored _ _ | EJoined _ _ => False | _ => True end.
Lemma src_ext : forall n n' es, src n -> n_trace n' = n_trace n ++ es -> Forall plain es ->
  (forall a b, met n a b -> met n' a b) -> (forall x, exists r, rcvs n' x = rcvs n x ++ r) ->
  (forall a k m, l_last (links n' a k) = Some m -> l_last (links n a k) = Some m \/ was_sent a k m (n_trace n')) ->
  (forall a b i k, In (b, i) (remote n' a k) -> In (b, i) (remote n a k) \/ In (ESub a b k) (n_trace n')) ->
  (forall a b i t m, In (WData i t m) (n_chan n' a b) -> In (WData i t m) (n_chan n a b) \/ exists x, nth_error (rcvs n' b) i = Some x /\ was_sent a (t, snd x) m (n_trace n')) ->
  src n'.
Proof.
  intros n n' es S ET F EM ER EL ES EC. rewrite Forall_forall in F. destruct S. split.
  - intros a k m H. apply EL in H as [H|H]; [|exact H]. rewrite ET. apply was_sent_app. now apply sr_last0.
  - intros a b i t m H. apply EC in H as [H|H]; [|exact H]. destruct (sr_chan0 a b i t m H) as (x & Ex & Wx). exists x. destruct (ER b) as [r ->]. split; [now apply nth_error_ext|]. rewrite ET. now apply was_sent_app.
  - intros b k a m. rewrite ET, in_app_iff. intros [H|H]; [apply was_sent_app; eapply sr_in0, H|]. destruct (F _ H).
  - intros b k a t m. rewrite ET, in_app_iff. intros [H|H]; [|destruct (F _ H)]. destruct (sr_mis0 _ _ _ _ _ H) as (A & B & C). split; [exact A|]. split; [exact B|now apply was_sent_app].
  - intros b a. rewrite ET, in_app_iff. intros [H|H]; [now apply sr_ign0 in H|]. destruct (F _ H).
  - intros a b i k H. apply ES in H as [H|H]; [|exact H]. rewrite ET. apply in_or_app. left. eapply sr_sub0, H.
  - intros a b. rewrite ET, in_app_iff. intros [H|H]; [apply EM, sr_join0, H|]. destruct (F _ H).
Qed.
Lemma plain_recvs : forall es, recvs_only es -> Forall plain es.
Proof. intros es R. apply Forall_forall. intros e I. destruct (R e I) as (? & ? & ? & ? & ? & ? & ->). exact Logic.I. Qed.
Lemma src_emit : forall es n, src n -> Forall plain es -> src (emit es n).
Proof. intros es n S F. apply (src_ext n _ es S); auto. intros x. exists []. now rewrite emit_rcvs, app_nil_r. Qed.
Lemma src_post : forall a b w n, src n -> (match w with WData _ _ _ => False | _ => True end) -> src (post a b w n).
Proof.
  intros a b w n S H. apply (src_ext n _ [] S); auto; [now rewrite app_nil_r| |].
  - intros x. exists []. now rewrite app_nil_r.
  - intros c d i t m. rewrite post_chan, in_app_iff. intros [I|I]; [now left|]. destruct (_ && _); [|destruct I]. destruct I as [->|[]]. destruct H.
Qed.

Lemma src_add_one : forall a b idx k n, src n -> (exists x, nth_error (rcvs n b) idx = Some x /\ same_id x k = true) -> src (add_one a b idx k n).
Proof.
  intros a b idx k n S (x & Ex & Sx). destruct (existsb (rr_eqb (b, idx)) (remote n a k)) eqn:E.
  - apply existsb_rr in E. rewrite ao_old by exact E. set (n' := set_part _ _ _). assert (EL : forall x k', links n' x k' = links n x k').
    { intros y k'. unfold n'. rewrite links_set. destruct (Nat.eqb_spec y a) as [->|]; cbn [andb]; [|reflexivity]. destruct (key_eqb k' k) eqn:Ek; [|reflexivity]. now apply key_eqb_iff in Ek as ->. }
    apply (src_ext n n' [] S); [now rewrite app_nil_r|constructor|auto| | | |auto].
    + intros y. exists []. unfold n'. now rewrite same_rcvs, app_nil_r.
    + intros c k' m. rewrite EL. auto.
    + intros c d i k'. unfold remote. rewrite EL. auto.
  - apply not_true in E. rewrite existsb_rr in E. pose proof (ao_links a b idx k n E) as AL. pose proof (ao_trace a b idx k n E) as AT.
    apply (src_ext n _ _ S AT); [repeat constructor| | | | |].
    + intros c d. unfold met. now rewrite ao_met.
    + intros y. exists []. now rewrite ao_rcvs, app_nil_r.
    + intros c k' m. rewrite AL. destruct (Nat.eqb_spec c a) as [->|]; cbn [andb]; [|auto]. destruct (key_eqb k' k) eqn:Ek; [|auto]. apply key_eqb_iff in Ek as ->. auto.
    + intros c d i k'. unfold remote. rewrite AL. destruct (Nat.eqb_spec c a) as [->|]; cbn [andb]; [|auto]. destruct (key_eqb k' k) eqn:Ek; [|auto]. apply key_eqb_iff in Ek as ->. cbn [l_remote]. rewrite in_app_iff. intros [I|[I|[]]]; [now left|]. injection I as <- <-. right. rewrite AT. apply in_or_app. right. now left.
    + intros c d i t m. rewrite (ao_chan a b idx k n E), in_app_iff. intros [I|I]; [now left|]. right. destruct (Nat.eqb_spec c a) as [->|]; cbn [andb] in I; [|destruct I]. destruct (Nat.eqb_spec d b) as [->|]; [|destruct I].
      unfold notify in I. destruct (has_history _); [|destruct I]. destruct (l_last (links n a k)) as [m'|] eqn:L; [|destruct I]. destruct (l_hist _); [|destruct I]. destruct I as [I|[]]. injection I as <- <- <-.
      exists x. rewrite ao_rcvs. split; [exact Ex|]. apply same_id_iff in Sx as [_ Sx]. rewrite Sx, AT. apply was_sent_app. replace (fst k, snd k) with k by (destruct k; reflexivity). now apply (sr_last n S).
Qed.

Lemma rr_fields : forall a k c s k0 n, l_last (links (register_receiver c s k0 n) a k) = l_last (links n a k) /\
  l_hist (links (register_receiver c s k0 n) a k) = l_hist (links n a k) /\ remote (register_receiver c s k0 n) a k = remote n a k.
Proof.
  intros. unfold remote. rewrite rr_links. destruct (Nat.eqb_spec a c) as [->|]; cbn [andb]; [|auto]. destruct (key_eqb k k0) eqn:E; [|auto].
  apply key_eqb_iff in E as ->. now rewrite add_local_last, add_local_hist, add_local_remote.
Qed.
Section Steps.
Variable hash : nat -> nat.
Variable throws : handlers.
Lemma src_step : forall o n, wf n -> src n -> src (step hash throws o n).
Proof.
  intros o n W S. destruct o as [c d|c w ty rs ss|c k0 h|c s t v|c s t d v|c d|c d]; cbn [step].
  - destruct (_ || _) eqn:E; [exact S|]. set (n' := post _ _ _ _).
    assert (EL : forall x, links n' x = links n x).
    { intros x. unfold n', links, post, set_chan. cbn [n_part]. rewrite !set_part_part. destruct (Nat.eqb_spec x d) as [->|]; cbn [p_links]; destruct (Nat.eqb_spec d c) as [->|]; cbn [p_links]; try reflexivity; destruct (Nat.eqb_spec x c) as [->|]; reflexivity. }
    assert (ER : forall x, rcvs n' x = rcvs n x).
    { intros x. unfold n', rcvs, post, set_chan. cbn [n_part]. rewrite !set_part_part. destruct (Nat.eqb_spec x d) as [->|]; cbn [p_rcvs]; destruct (Nat.eqb_spec d c) as [->|]; cbn [p_rcvs]; try reflexivity; destruct (Nat.eqb_spec x c) as [->|]; reflexivity. }
    apply (src_ext n n' [] S); [now rewrite app_nil_r|constructor| | | | |].
    + intros x y [M|M]; [left|right]; right; exact M.
    + intros x. exists []. now rewrite ER, app_nil_r.
    + intros. rewrite EL in H. auto.
    + intros. unfold remote in *. rewrite EL in H. auto.
    + intros a b i t m. unfold n'. rewrite post_chan, in_app_iff. intros [I|I]; [now left|]. destruct (_ && _); [|destruct I]. destruct I as [I|[]]. discriminate.
  - apply (register_ind hash src); [exact S| | |].
    + intros n0 e S0 D. apply (src_ext n0 _ [] S0); auto; [now rewrite app_nil_r| | |]; unfold remote, rcvs, links; intros *; rewrite set_part_part; destruct (Nat.eqb_spec x c) as [->|] || destruct (Nat.eqb_spec a c) as [->|]; cbn [p_rcvs p_links]; auto; exists []; now rewrite app_nil_r.
    + intros n0 s t S0 L. eapply src_ext; [exact S0|apply rr_trace| | | | | |].
      * destruct (new_local _ _ _ _); repeat constructor.
      * intros x y. unfold met. now rewrite rr_met.
      * intros x. rewrite rr_rcvs. destruct (Nat.eqb_spec x c) as [->|]; cbn [andb]; [|exists []; now rewrite app_nil_r]. destruct (new_rcv _ _ _); [eexists; reflexivity|exists []; now rewrite app_nil_r].
      * intros x k m. rewrite (proj1 (rr_fields x k c s (t, w) n0)). auto.
      * intros x b i k. rewrite (proj2 (proj2 (rr_fields x k c s (t, w) n0))). auto.
      * intros a b i u m. rewrite rr_chan, in_app_iff. intros [I|I]; [now left|]. destruct (_ && _); [|destruct I]. apply in_sel, in_map_iff in I as (q & I & _). discriminate.
    + intros n0 t S0. unfold register_sender. apply (src_ext n0 _ [] S0); auto; [now rewrite app_nil_r| | |]; unfold remote, rcvs, links; intros *; rewrite set_part_part; destruct (Nat.eqb_spec x c) as [->|] || destruct (Nat.eqb_spec a c) as [->|]; cbn [p_rcvs p_links]; auto; exists []; now rewrite app_nil_r.
  - set (n' := emit _ _). assert (EL : forall x k', links n' x k' = if (x =? c) && key_eqb k' k0 then set_history (fst k0) h (links n c k0) else links n x k').
    { intros. unfold n', links at 1. cbn [emit n_part]. apply links_set. }
    assert (SH : forall l, l_last (set_history (fst k0) h l) = l_last l /\ l_remote (set_history (fst k0) h l) = l_remote l) by (intros; unfold set_history; destruct (has_history _); auto).
    apply (src_ext n n' [EHist c k0 h] S); [reflexivity|repeat constructor|auto| | | |auto].
    + intros x. exists []. unfold n'. now rewrite emit_rcvs, same_rcvs, app_nil_r.
    + intros a k m. rewrite EL. destruct (Nat.eqb_spec a c) as [->|]; cbn [andb]; [|auto]. destruct (key_eqb k k0) eqn:Ek; [|auto]. apply key_eqb_iff in Ek as ->. rewrite (proj1 (SH _)). auto.
    + intros a b i k. unfold remote. rewrite EL. destruct (Nat.eqb_spec a c) as [->|]; cbn [andb]; [|auto]. destruct (key_eqb k k0) eqn:Ek; [|auto]. apply key_eqb_iff in Ek as ->. rewrite (proj2 (SH _)). auto.
  - destruct (nth_error _ _) as [e|]; [|exact S]. destruct (existsb _ _); [|apply src_emit; [exact S|repeat constructor]]. set (k := (t, d_net e)). unfold distribute_local, transmit.
    apply src_emit; [|apply plain_recvs, recvs_self]. set (n1 := set_part _ _ _). set (n' := post_all _ _ _).
    assert (EL : forall x k', links n' x k' = if (x =? c) && key_eqb k' k then save (fst k) (s, v) (links n c k) else links n x k').
    { intros. unfold n', links at 1. rewrite post_all_part. unfold n1. rewrite set_emit. cbn [emit n_part]. apply links_set. }
    assert (ER : forall x, rcvs n' x = rcvs n x) by (intros; unfold n', rcvs; rewrite post_all_part; unfold n1; rewrite set_emit; cbn [emit n_part]; apply same_rcvs).
    destruct (save_fields (fst k) (s, v) (links n c k)) as (S1 & S2 & S3 & S4).
    assert (ET : n_trace n' = n_trace n ++ [EPub c k (s, v)]) by (unfold n'; now rewrite post_all_trace).
    assert (WS : was_sent c k (s, v) (n_trace n')) by (left; rewrite ET; apply in_or_app; right; now left).
    apply (src_ext n n' _ S ET); [repeat constructor| | | | |].
    + intros x y. unfold met, n'. now rewrite post_all_met.
    + intros x. exists []. now rewrite ER, app_nil_r.
    + intros a k' m. rewrite EL. destruct (Nat.eqb_spec a c) as [->|]; cbn [andb]; [|auto]. destruct (key_eqb k' k) eqn:Ek; [|auto]. apply key_eqb_iff in Ek as ->. rewrite S4. destruct (_ && _); [|auto]. intros H. injection H as <-. now right.
    + intros a b i k'. unfold remote. rewrite EL. destruct (Nat.eqb_spec a c) as [->|]; cbn [andb]; [|auto]. destruct (key_eqb k' k) eqn:Ek; [|auto]. apply key_eqb_iff in Ek as ->. rewrite S2. auto.
    + intros a b i u m. unfold n'. rewrite post_all_chan, in_app_iff. intros [I|I]; [now left|]. right. fold n'. destruct (Nat.eqb_spec a c) as [->|]; [|destruct I]. apply in_sel, in_map_iff in I as ([b' j] & E & I). injection E as <- <- <- <-.
      destruct (wf_remote n W c b' j k I) as (_ & x & Ex & Sx). exists x. rewrite ER. split; [exact Ex|]. apply same_id_iff in Sx as [_ ->]. exact WS.
  - destruct (nth_error _ _) as [e|]; [|exact S]. destruct (existsb _ _); [|apply src_emit; [exact S|repeat constructor]]. set (k := (t, d_net e)). destruct (Nat.eqb_spec c d) as [<-|N].
    + apply src_emit; [exact S|]. constructor; [exact I|]. apply plain_recvs, recvs_self.
    + unfold transmit_to. set (n1 := set_part _ _ _). destruct (save_fields (fst k) (s, v) (links n c k)) as (S1 & S2 & S3 & S4).
      assert (X : forall n', n_part n' = n_part n1 -> n_met n' = n_met n -> n_trace n' = n_trace n ++ [EPubTo c k d (s, v)] ->
        (forall a b i u m, In (WData i u m) (n_chan n' a b) -> In (WData i u m) (n_chan n a b) \/ a = c /\ In (b, i) (remote n c k) /\ u = t /\ m = (s, v)) -> src n').
      { intros n' EP EM ET EC.
        assert (EL : forall x k', links n' x k' = if (x =? c) && key_eqb k' k then save (fst k) (s, v) (links n c k) else links n x k').
        { intros. unfold links at 1. rewrite EP. unfold n1. rewrite set_emit. cbn [emit n_part]. apply links_set. }
        assert (ER : forall x, rcvs n' x = rcvs n x) by (intros; unfold rcvs; rewrite EP; unfold n1; rewrite set_emit; cbn [emit n_part]; apply same_rcvs).
        assert (WS : was_sent c k (s, v) (n_trace n')) by (right; exists d; rewrite ET; apply in_or_app; right; now left).
        apply (src_ext n n' _ S ET); [repeat constructor| | | | |].
        - intros x y. unfold met. now rewrite EM.
        - intros x. exists []. now rewrite ER, app_nil_r.
        - intros a k' m. rewrite EL. destruct (Nat.eqb_spec a c) as [->|]; cbn [andb]; [|auto]. destruct (key_eqb k' k) eqn:Ek; [|auto]. apply key_eqb_iff in Ek as ->. rewrite S4. destruct (_ && _); [|auto]. intros H. injection H as <-. now right.
        - intros a b i k'. unfold remote. rewrite EL. destruct (Nat.eqb_spec a c) as [->|]; cbn [andb]; [|auto]. destruct (key_eqb k' k) eqn:Ek; [|auto]. apply key_eqb_iff in Ek as ->. rewrite S2. auto.
        - intros a b i u m I. apply EC in I as [I|(-> & I & -> & ->)]; [now left|]. right. destruct (wf_remote n W c b i k I) as (_ & x & Ex & Sx). exists x. rewrite ER. split; [exact Ex|]. apply same_id_iff in Sx as [_ ->]. exact WS. }
      destruct (find _ _) as [[b' j]|] eqn:F; cbn [option_map].
      * apply find_some in F as [I _]. apply X; [now rewrite post_all_part|now rewrite post_all_met|now rewrite post_all_trace|]. intros a b i u m. rewrite post_all_chan, in_app_iff. intros [J|J]; [now left|]. right. destruct (Nat.eqb_spec a c) as [->|]; [|destruct J].
        apply in_sel in J as [J|[]]. injection J as <- <- <- <-. auto.
      * apply src_emit; [|repeat constructor]. apply X; auto.
  - unfold has_peer. destruct (existsb _ _) eqn:E; [|exact S]. apply existsb_eqb in E. destruct (n_chan n c d) as [|w ws] eqn:C; [exact S|].
    assert (S1 : src (set_chan c d ws n)).
    { apply (src_ext n _ [] S); auto; [now rewrite app_nil_r|intros x; exists []; now rewrite app_nil_r|]. intros a b i t m. cbn [set_chan n_chan]. destruct (Nat.eqb_spec a c) as [->|]; cbn [andb]; [|auto]. destruct (Nat.eqb_spec b d) as [->|]; [|auto]. intros I. left. rewrite C. now right. }
    pose proof (wf_pop c d w ws n W C) as W'. destruct (wf_chan n W c d w) as [K M]; [rewrite C; now left|]. set (n1 := set_chan c d ws n) in *.
    destruct w; cbn [receive].
    + now apply src_post.
    + assert (X := reply_inv (fun n => wf n /\ src n) d c subs n1 (conj W' S1) E K). assert (R : wf (fold_left (fun n x => try_add d c (fst x) (snd x) n) subs n1) /\ src (fold_left (fun n x => try_add d c (fst x) (snd x) n) subs n1)).
      { apply X. intros n0 i t k' [W0 O0] [Q1 Q2] Et. assert (X' : exists x, nth_error (rcvs n0 c) i = Some x /\ same_id x (t, snd k') = true) by (exists k'; split; [exact Q2|apply same_id_iff; auto]).
        split; [now apply wf_add_one|now apply src_add_one]. }
      destruct R as [_ R]. assert (EM : forall x y, met (fold_left (fun n x => try_add d c (fst x) (snd x) n) subs n1) x y <-> met n x y) by (intros; unfold met; rewrite (reply_met d c subs n1); reflexivity).
      destruct R. split; try assumption; cbn [emit n_trace].
      * intros. apply was_sent_app. now apply sr_last0.
      * intros a b i t m I. destruct (sr_chan0 a b i t m I) as (x & Ex & Wx). exists x. split; [exact Ex|now apply was_sent_app].
      * intros b k a m. rewrite in_app_iff. intros [I|[I|[]]]; [|discriminate]. apply was_sent_app. eapply sr_in0, I.
      * intros b k a t m. rewrite in_app_iff. intros [I|[I|[]]]; [|discriminate]. destruct (sr_mis0 _ _ _ _ _ I) as (A & B & D). split; [exact A|]. split; [exact B|now apply was_sent_app].
      * intros b a. rewrite in_app_iff. intros [I|[I|[]]]; [|discriminate]. now apply sr_ign0 in I.
      * intros a b i k I. apply in_or_app. left. eapply sr_sub0, I.
      * intros a b. rewrite in_app_iff. intros [I|[I|[]]]; [exact (sr_join0 a b I)|]. injection I as <- <-. apply EM. destruct M as [M|M]; [now right|now left].
    + destruct (try_add_inv (fun n => wf n /\ src n) d c idx k n1 (conj W' S1)) as [[_ R] _]; [split; [exact E|exact K]| |now apply src_post].
      intros n0 t [W0 O0] [Q1 Q2] Et. assert (X' : exists x, nth_error (rcvs n0 c) idx = Some x /\ same_id x (t, snd k) = true) by (exists k; split; [exact Q2|apply same_id_iff; auto]).
      split; [now apply wf_add_one|now apply src_add_one].
    + apply src_emit; [exact S1|repeat constructor].
    + destruct K as (x & Ex & Sx). change (p_rcvs (n_part n1 d)) with (rcvs n d). rewrite Ex.
      destruct (sr_chan n S c d idx t m) as (y & Ey & Wy); [rewrite C; now left|]. assert (y = x) by congruence. subst y.
      destruct (mtype_beq (fst x) t) eqn:B.
      * apply internal_mtype_dec_bl in B. subst t. replace (fst x, snd x) with x in Wy by (destruct x; reflexivity).
        assert (PR := plain_recvs _ (recvs_remote throws d x c m (p_links (n_part n1 d) x))). rewrite Forall_forall in PR.
        destruct S1. split; try assumption; cbn [emit n_trace].
        -- intros. apply was_sent_app. now apply sr_last0.
        -- intros a b i t m' I. destruct (sr_chan0 a b i t m' I) as (z & Ez & Wz). exists z. split; [exact Ez|now apply was_sent_app].
        -- intros b k a m'. rewrite in_app_iff. intros [I|[I|I]]; [apply was_sent_app; eapply sr_in0, I| |destruct (PR _ I)]. injection I as <- <- <- <-. now apply was_sent_app.
        -- intros b k a t m'. rewrite in_app_iff. intros [I|[I|I]]; [|discriminate|destruct (PR _ I)]. destruct (sr_mis0 _ _ _ _ _ I) as (A & B & D). split; [exact A|]. split; [exact B|now apply was_sent_app].
        -- intros b a. rewrite in_app_iff. intros [I|[I|I]]; [now apply sr_ign0 in I|discriminate|destruct (PR _ I)].
        -- intros a b i k I. apply in_or_app. left. eapply sr_sub0, I.
        -- intros a b. rewrite in_app_iff. intros [I|[I|I]]; [exact (sr_join0 a b I)|discriminate|destruct (PR _ I)].
      * assert (NT : t <> fst x) by (intros ->; rewrite (internal_mtype_dec_lb (fst x) (fst x) eq_refl) in B; discriminate).
        destruct S1. split; try assumption; cbn [emit n_trace].
        -- intros. apply was_sent_app. now apply sr_last0.
        -- intros a b i u m' I. destruct (sr_chan0 a b i u m' I) as (z & Ez & Wz). exists z. split; [exact Ez|now apply was_sent_app].
        -- intros b k a m'. rewrite in_app_iff. intros [I|[I|[]]]; [|discriminate]. apply was_sent_app. eapply sr_in0, I.
        -- intros b k a u m'. rewrite in_app_iff. intros [I|[I|[]]].
           ++ destruct (sr_mis0 _ _ _ _ _ I) as (A & B' & D). split; [exact A|]. split; [exact B'|now apply was_sent_app].
           ++ injection I as <- <- <- <- <-. split; [exact NT|]. split; [now symmetry|now apply was_sent_app].
        -- intros b a. rewrite in_app_iff. intros [I|[I|[]]]; [|discriminate]. now apply sr_ign0 in I.
        -- intros a b i k I. apply in_or_app. left. eapply sr_sub0, I.
        -- intros a b. rewrite in_app_iff. intros [I|[I|[]]]; [exact (sr_join0 a b I)|discriminate].
  - unfold has_peer. destruct (existsb _ _) eqn:E; [|exact S]. set (n' := emit _ _).
    assert (EL : forall x k', links n' x k' = if x =? d then remove_remote hash c (links n d k') else links n x k').
    { intros. unfold n', links, emit. cbn [n_part]. rewrite set_part_part. destruct (Nat.eqb_spec x d) as [->|]; reflexivity. }
    assert (ER : forall x, rcvs n' x = rcvs n x) by (intros x; unfold n', rcvs, emit; cbn [n_part]; rewrite set_part_part; destruct (Nat.eqb_spec x d) as [->|]; reflexivity).
    apply (src_ext n n' [ELeft d c] S); [reflexivity|repeat constructor|auto| | | |auto].
    + intros x. exists []. now rewrite ER, app_nil_r.
    + intros a k m. rewrite EL. destruct (Nat.eqb_spec a d) as [->|]; auto.
    + intros a b i k. unfold remote. rewrite EL. destruct (Nat.eqb_spec a d) as [->|]; [|auto]. cbn [remove_remote l_remote]. intros I. left. eapply erase_first_in, I.
Qed.
End Steps.

(** ** Subscriptions reach every connected participant *)
Definition reach (n : net) (a b i : nat) (x : key) (t : mtype) : Prop :=
  In (b, i) (remote n a (t, snd x)) \/ In (WSub i x) (n_chan n b a) \/ (exists subs, In (WReply subs) (n_chan n b a) /\ In (i, x) subs) \/ In WAnnounce (n_chan n a b).
Record conn (n : net) : Prop := {
  cn_sub : forall a b i x t, In b (peers n a) -> In a (peers n b) -> nth_error (rcvs n b) i = Some x -> serdes_name t = serdes_name (fst x) -> reach n a b i x t;
  cn_peer : forall a b, met n a b -> In b (peers n a) \/ In (ELeft a b) (n_trace n)
}.

Lemma reach_mono : forall n n' a b i x t, (forall k r, In r (remote n a k) -> fst r = b -> In r (remote n' a k)) ->
  (forall w, In w (n_chan n b a) -> In w (n_chan n' b a)) -> (forall w, In w (n_chan n a b) -> In w (n_chan n' a b)) -> reach n a b i x t -> reach n' a b i x t.
Proof.
  intros n n' a b i x t H1 H2 H3 [H|[H|[(subs & H & H')|H]]]; unfold reach; [left; now apply H1|right; left; auto|right; right; left; exists subs; auto|right; right; right; auto].
Qed.
Lemma conn_mono : forall n n' es, conn n -> n_trace n' = n_trace n ++ es -> (forall x, peers n' x = peers n x) -> (forall x, rcvs n' x = rcvs n x) -> n_met n' = n_met n ->
  (forall a k r, In r (remote n a k) -> In r (remote n' a k)) -> (forall a b w, In w (n_chan n a b) -> In w (n_chan n' a b)) -> conn n'.
Proof.
  intros n n' es C ET EP ER EM H1 H2. destruct C. split.
  - intros a b i x t. rewrite !EP, ER. intros P1 P2 Ex Et. apply (reach_mono n); auto.
  - intros a b. unfold met. rewrite EM, EP, ET, in_app_iff. intros M. destruct (cn_peer0 a b M); auto.
Qed.
Lemma conn_emit : forall es n, conn n -> conn (emit es n).
Proof. intros es n C. apply (conn_mono n _ es C); auto. Qed.
Lemma conn_post : forall a b w n, conn n -> conn (post a b w n).
Proof. intros a b w n C. apply (conn_mono n _ [] C); auto; [now rewrite app_nil_r|]. intros c d v I. rewrite post_chan. apply in_or_app. now left. Qed.
Lemma conn_post_all : forall a l n, conn n -> conn (post_all a l n).
Proof.
  intros a l n C. apply (conn_mono n _ [] C); intros; unfold peers, rcvs, remote, links in *; rewrite ?post_all_part; auto; [now rewrite post_all_trace, app_nil_r|apply post_all_met|]. rewrite post_all_chan. apply in_or_app. now left.
Qed.

(** adding a subscription *)
Definition grows (n n' : net) : Prop :=
  (exists es, n_trace n' = n_trace n ++ es) /\ (forall x, peers n' x = peers n x) /\ (forall x, rcvs n' x = rcvs n x) /\ n_met n' = n_met n /\
  (forall a k r, In r (remote n a k) -> In r (remote n' a k)) /\ (forall a b w, In w (n_chan n a b) -> In w (n_chan n' a b)).
Lemma grows_refl : forall n, grows n n.
Proof. intros n. split; [exists []; now rewrite app_nil_r|]. repeat split; auto. Qed.
Lemma grows_trans : forall x y z, grows x y -> grows y z -> grows x z.
Proof.
  intros x y z ((e1 & A1) & A2 & A3 & A4 & A5 & A6) ((e2 & B1) & B2 & B3 & B4 & B5 & B6). split; [exists (e1 ++ e2); now rewrite B1, A1, app_assoc|].
  repeat split; intros; [now rewrite B2, A2|now rewrite B3, A3|now rewrite B4, A4|auto|auto].
Qed.
Lemma grows_conn : forall n n', grows n n' -> conn n -> conn n'.
Proof. intros n n' ((es & A1) & A2 & A3 & A4 & A5 & A6) C. apply (conn_mono n n' es C); auto. Qed.
Lemma ao_grows : forall a b idx k n, grows n (add_one a b idx k n) /\ In (b, idx) (remote (add_one a b idx k n) a k).
Proof.
  intros a b idx k n. destruct (existsb (rr_eqb (b, idx)) (remote n a k)) eqn:E.
  - apply existsb_rr in E. assert (EL : forall y k', links (add_one a b idx k n) y k' = links n y k').
    { intros y k'. rewrite ao_old by exact E. rewrite links_set. destruct (Nat.eqb_spec y a) as [->|]; cbn [andb]; [|reflexivity]. destruct (key_eqb k' k) eqn:Ek; [|reflexivity]. now apply key_eqb_iff in Ek as ->. }
    split; [|unfold remote; rewrite EL; exact E]. split; [exists []; rewrite ao_old, app_nil_r by exact E; reflexivity|]. split; [apply ao_peers|]. split; [apply ao_rcvs|]. split; [apply ao_met|].
    split; [intros; unfold remote; now rewrite EL|]. intros c d w I. rewrite ao_old by exact E. exact I.
  - apply not_true in E. rewrite existsb_rr in E. pose proof (ao_links a b idx k n E) as AL. pose proof (ao_trace a b idx k n E) as AT.
    split; [|unfold remote; rewrite AL, Nat.eqb_refl, key_eqb_refl; cbn [andb l_remote]; apply in_or_app; right; now left].
    split; [eexists; exact AT|]. split; [apply ao_peers|]. split; [apply ao_rcvs|]. split; [apply ao_met|]. split.
    + intros c k' r. unfold remote at 2. rewrite AL. destruct (Nat.eqb_spec c a) as [->|]; cbn [andb]; [|auto]. destruct (key_eqb k' k) eqn:Ek; [|auto]. apply key_eqb_iff in Ek as ->. cbn [l_remote]. intros I. apply in_or_app. now left.
    + intros c d w I. rewrite (ao_chan a b idx k n E). apply in_or_app. now left.
Qed.
Lemma all_types_all : forall t, In t all_types.
Proof. intros t. destruct t; cbn; tauto. Qed.
Transparent try_add.
Lemma try_add_fold : forall a b idx k n, try_add a b idx k n = fold_left (fun n t => if same_serdes t (fst k) then add_one a b idx (t, snd k) n else n) all_types n.
Proof. reflexivity. Qed.
#[global] Opaque try_add.
Lemma fold_grows : forall {A} (f : net -> A -> net), (forall n x, grows n (f n x)) -> forall l n, grows n (fold_left f l n).
Proof. intros A f H l. induction l as [|x l IH]; intros n; [apply grows_refl|]. cbn [fold_left]. eapply grows_trans; [apply H|apply IH]. Qed.
Lemma fold_once : forall {A} (f : net -> A -> net) (P : net -> Prop), (forall n x, P n -> P (f n x)) -> forall y, (forall n, P (f n y)) -> forall l n, In y l -> P (fold_left f l n).
Proof.
  intros A f P HP y Hy l. induction l as [|x l IH]; intros n I; [destruct I|]. cbn [fold_left]. destruct I as [->|I]; [|now apply IH].
  clear IH. generalize (Hy n). generalize (f n y). induction l as [|x l IH]; intros n' H; [exact H|]. cbn [fold_left]. apply IH, HP, H.
Qed.
Lemma ta_grows : forall a b idx k n, grows n (try_add a b idx k n).
Proof. intros. rewrite try_add_fold. apply fold_grows. intros n' t. destruct (same_serdes _ _); [apply ao_grows|apply grows_refl]. Qed.
Lemma ta_adds : forall a b idx k n t, serdes_name t = serdes_name (fst k) -> In (b, idx) (remote (try_add a b idx k n) a (t, snd k)).
Proof.
  intros a b idx k n t E. rewrite try_add_fold. apply (fold_once (fun n t => if same_serdes t (fst k) then add_one a b idx (t, snd k) n else n) (fun n => In (b, idx) (remote n a (t, snd k)))) with (y := t).
  - intros n' u I. destruct (same_serdes _ _); [|exact I]. apply (ao_grows a b idx (u, snd k) n'). exact I.
  - intros n'. unfold same_serdes. rewrite E, String.eqb_refl. apply ao_grows.
  - apply all_types_all.
Qed.
Lemma reply_grows : forall a b (subs : list (nat * key)) n, grows n (fold_left (fun n x => try_add a b (fst x) (snd x) n) subs n).
Proof. intros a b subs n. exact (fold_grows (fun n x => try_add a b (fst x) (snd x) n) (fun n x => ta_grows a b (fst x) (snd x) n) subs n). Qed.
Lemma reply_adds : forall a b (subs : list (nat * key)) n i x t, In (i, x) subs -> serdes_name t = serdes_name (fst x) ->
  In (b, i) (remote (fold_left (fun n x => try_add a b (fst x) (snd x) n) subs n) a (t, snd x)).
Proof.
  intros a b subs n i x t I E. refine (fold_once (fun n x => try_add a b (fst x) (snd x) n) (fun n => In (b, i) (remote n a (t, snd x))) _ (i, x) _ subs n I).
  - intros n' y H. destruct (ta_grows a b (fst y) (snd y) n') as (_ & _ & _ & _ & G & _). exact (G a (t, snd x) (b, i) H).
  - intros n'. exact (ta_adds a b i x n' t E).
Qed.
Lemma enumerate_in : forall ks i0 i k, nth_error ks i = Some k -> In (i0 + i, k) (enumerate i0 ks).
Proof.
  intros ks. induction ks as [|x ks IH]; intros i0 i k E; [destruct i; discriminate|]. cbn [enumerate]. destruct i as [|i]; cbn in E; [injection E as ->; left; f_equal; lia|]. right. replace (i0 + S i) with (S i0 + i) by lia. now apply IH.
Qed.

(** the first message of c to d is taken out of the channel and its effect covers what it announced *)
Lemma conn_pop : forall n n1 n' c d w ws, conn n -> n_chan n c d = w :: ws -> n1 = set_chan c d ws n -> grows n1 n' ->
  (match w with
   | WAnnounce => forall i x, nth_error (rcvs n d) i = Some x -> exists subs, In (WReply subs) (n_chan n' d c) /\ In (i, x) subs
   | WReply subs => forall i x t, In (i, x) subs -> serdes_name t = serdes_name (fst x) -> In (c, i) (remote n' d (t, snd x))
   | WSub i x => forall t, serdes_name t = serdes_name (fst x) -> In (c, i) (remote n' d (t, snd x))
   | _ => True end) -> conn n'.
Proof.
  intros n n1 n' c d w ws C E -> (G1 & G2 & G3 & G4 & G5 & G6) H. destruct C. split.
  2:{ intros a b. unfold met. rewrite G4, G2. cbn [set_chan n_met]. intros M. destruct G1 as [es ->]. rewrite in_app_iff. destruct (cn_peer0 a b M); auto. }
  assert (PC : forall a b v, In v (n_chan n a b) -> In v (n_chan n' a b) \/ (a = c /\ b = d /\ v = w)).
  { intros a b v I. destruct (Nat.eq_dec a c) as [->|Na]; [destruct (Nat.eq_dec b d) as [->|Nb]|].
    - rewrite E in I. destruct I as [<-|I]; [auto|]. left. apply G6. cbn [set_chan n_chan]. now rewrite !Nat.eqb_refl.
    - left. apply G6. cbn [set_chan n_chan]. rewrite (proj2 (Nat.eqb_neq b d)) by auto. now rewrite andb_false_r.
    - left. apply G6. cbn [set_chan n_chan]. now rewrite (proj2 (Nat.eqb_neq a c)) by auto. }
  intros a b i x t. rewrite !G2, G3. cbn [set_chan]. intros P1 P2 Ex Et. change (rcvs (set_chan c d ws n) b) with (rcvs n b) in Ex.
  destruct (cn_sub0 a b i x t P1 P2 Ex Et) as [R|[R|[(subs & R & R')|R]]]; unfold reach.
  - left. now apply G5.
  - apply PC in R as [R|(-> & -> & <-)]; [right; left; exact R|]. left. now apply H.
  - apply PC in R as [R|(-> & -> & <-)]; [right; right; left; exists subs; auto|]. left. now apply H.
  - apply PC in R as [R|(-> & -> & <-)]; [right; right; right; exact R|]. right. right. left. now apply H.
Qed.

Lemma remote_post : forall a b w n c k, remote (post a b w n) c k = remote n c k.
Proof. reflexivity. Qed.
Lemma remote_emit : forall es n c k, remote (emit es n) c k = remote n c k.
Proof. reflexivity. Qed.
Section Conn.
Variable hash : nat -> nat.
Variable throws : handlers.
Variable isname : nat -> Prop.
Hypothesis Hinj : inj_on isname hash.
Lemma conn_step : forall o n, wf n -> named isname n -> conn n -> conn (step hash throws o n).
Proof.
  intros o n W NM C. destruct o as [c d|c w ty rs ss|c k0 h|c s t v|c s t d v|c d|c d]; cbn [step].
  - destruct (_ || _) eqn:E; [exact C|]. rewrite !orb_false_iff in E. destruct E as [[[E1 E2] E3] E4]. apply Nat.eqb_neq in E1. set (n' := post _ _ _ _).
    assert (EL : forall x, links n' x = links n x).
    { intros x. unfold n', links, post, set_chan. cbn [n_part]. rewrite !set_part_part. destruct (Nat.eqb_spec x d) as [->|]; cbn [p_links]; destruct (Nat.eqb_spec d c) as [->|]; cbn [p_links]; try reflexivity; destruct (Nat.eqb_spec x c) as [->|]; reflexivity. }
    assert (ER : forall x, rcvs n' x = rcvs n x).
    { intros x. unfold n', rcvs, post, set_chan. cbn [n_part]. rewrite !set_part_part. destruct (Nat.eqb_spec x d) as [->|]; cbn [p_rcvs]; destruct (Nat.eqb_spec d c) as [->|]; cbn [p_rcvs]; try reflexivity; destruct (Nat.eqb_spec x c) as [->|]; reflexivity. }
    assert (EP : forall x, peers n' x = peers n x ++ (if x =? c then [d] else if x =? d then [c] else [])).
    { intros x. unfold n', peers, post, set_chan. cbn [n_part]. rewrite !set_part_part. destruct (Nat.eqb_spec x d) as [->|]; cbn [p_peers].
      - destruct (Nat.eqb_spec d c) as [->|]; [contradiction|]. reflexivity.
      - destruct (Nat.eqb_spec x c) as [->|]; cbn [p_peers]; [reflexivity|now rewrite app_nil_r]. }
    assert (EC : forall x y, n_chan n' x y = n_chan n x y ++ (if (x =? c) && (y =? d) then [WAnnounce] else [])) by (intros; unfold n'; rewrite post_chan; reflexivity).
    assert (R0 : rcvs n c = []) by (apply (wf_svc0 n W); unfold svcs; destruct (p_svcs (n_part n c)); [reflexivity|discriminate]).
    destruct C. split.
    + intros a b i x t. rewrite !EP, ER, !in_app_iff. intros P1 P2 Ex Et.
      assert (X : In b (peers n a) /\ In a (peers n b) \/ (a = c /\ b = d) \/ (a = d /\ b = c)).
      { destruct P1 as [P1|P1]; [destruct P2 as [P2|P2]; [now left|]|]; right.
        - destruct (Nat.eqb_spec b c) as [->|]; [destruct P2 as [<-|[]]; auto|]. destruct (Nat.eqb_spec b d) as [->|]; [destruct P2 as [<-|[]]; auto|destruct P2].
        - destruct (Nat.eqb_spec a c) as [->|]; [destruct P1 as [<-|[]]; auto|]. destruct (Nat.eqb_spec a d) as [->|]; [destruct P1 as [<-|[]]; auto|destruct P1]. }
      destruct X as [[X1 X2]|[[-> ->]|[-> ->]]].
      * apply (reach_mono n); [intros k r; unfold remote; rewrite EL; auto|intros v I; rewrite EC; apply in_or_app; now left|intros v I; rewrite EC; apply in_or_app; now left|auto].
      * right. right. right. rewrite EC, !Nat.eqb_refl. apply in_or_app. right. now left.
      * rewrite R0 in Ex. destruct i; discriminate.
    + intros a b M. rewrite EP, in_app_iff. assert (M' : met n a b \/ (a = c /\ b = d) \/ (a = d /\ b = c)).
      { unfold met, n', post, set_chan in M. cbn [n_met In] in M. unfold met. destruct M as [[M|M]|[M|M]]; try injection M as -> ->; auto. }
      destruct M' as [M'|[[-> ->]|[-> ->]]]; [destruct (cn_peer0 a b M'); [auto|right; assumption]| |]; left; right.
      * rewrite Nat.eqb_refl. now left.
      * rewrite (proj2 (Nat.eqb_neq d c)) by auto. rewrite Nat.eqb_refl. now left.
  - apply (register_ind hash conn); [exact C| | |].
    + intros n0 e C0 D. apply (conn_mono n0 _ [] C0); auto; [now rewrite app_nil_r| | |]; unfold remote, rcvs, peers, links; intros *; rewrite set_part_part; destruct (Nat.eqb_spec x c) as [->|] || destruct (Nat.eqb_spec a c) as [->|]; auto.
    + intros n0 s t C0 L. destruct C0. split.
      * intros a b i x u. rewrite !rr_peers. intros P1 P2 Ex Et.
        assert (OLD : nth_error (rcvs n0 b) i = Some x -> reach (register_receiver c s (t, w) n0) a b i x u).
        { intros Ex'. apply (reach_mono n0); [intros k r; now rewrite (proj2 (proj2 (rr_fields a k c s (t, w) n0)))|intros v I; rewrite rr_chan; apply in_or_app; now left|intros v I; rewrite rr_chan; apply in_or_app; now left|auto]. }
        rewrite rr_rcvs in Ex. destruct (Nat.eqb_spec b c) as [->|]; cbn [andb] in Ex; [|now apply OLD]. destruct (new_rcv n0 c (t, w)) eqn:NR; [|now apply OLD].
        rewrite nth_error_snoc in Ex. destruct (Nat.eqb_spec i (length (rcvs n0 c))) as [->|]; [|now apply OLD]. injection Ex as <-. right. left. rewrite rr_chan, NR, Nat.eqb_refl. cbn [andb]. apply in_or_app. right. apply in_sel, in_map_iff. exists a. split; [reflexivity|exact P2].
      * intros a b. unfold met. rewrite rr_met, rr_peers, rr_trace, in_app_iff. intros M. destruct (cn_peer0 a b M); auto.
    + intros n0 t C0. unfold register_sender. apply (conn_mono n0 _ [] C0); auto; [now rewrite app_nil_r| | |]; unfold remote, rcvs, peers, links; intros *; rewrite set_part_part; destruct (Nat.eqb_spec x c) as [->|] || destruct (Nat.eqb_spec a c) as [->|]; auto.
  - apply conn_emit. apply (conn_mono n _ [] C); auto; [now rewrite app_nil_r|intros; apply same_peers|intros; apply same_rcvs|]. intros a k r. unfold remote. rewrite links_set. destruct (Nat.eqb_spec a c) as [->|]; cbn [andb]; [|auto]. destruct (key_eqb k k0) eqn:Ek; [|auto]. apply key_eqb_iff in Ek as ->. unfold set_history. destruct (has_history _); auto.
  - destruct (nth_error _ _) as [e|]; [|exact C]. destruct (existsb _ _); [|now apply conn_emit]. set (k := (t, d_net e)). unfold distribute_local, transmit.
    apply conn_emit, conn_post_all. rewrite set_emit. apply conn_emit. apply (conn_mono n _ [] C); auto; [now rewrite app_nil_r|intros; apply same_peers|intros; apply same_rcvs|]. intros a k' r. unfold remote. rewrite links_set. destruct (Nat.eqb_spec a c) as [->|]; cbn [andb]; [|auto]. destruct (key_eqb k' k) eqn:Ek; [|auto]. apply key_eqb_iff in Ek as ->. rewrite (proj1 (proj2 (save_fields _ _ _))). auto.
  - destruct (nth_error _ _) as [e|]; [|exact C]. destruct (existsb _ _); [|now apply conn_emit]. set (k := (t, d_net e)). destruct (c =? d); [now apply conn_emit|]. unfold transmit_to. set (n1 := set_part _ _ _). assert (C1 : conn n1).
    { unfold n1. rewrite set_emit. apply conn_emit. apply (conn_mono n _ [] C); auto; [now rewrite app_nil_r|intros; apply same_peers|intros; apply same_rcvs|]. intros a k' r. unfold remote. rewrite links_set. destruct (Nat.eqb_spec a c) as [->|]; cbn [andb]; [|auto]. destruct (key_eqb k' k) eqn:Ek; [|auto]. apply key_eqb_iff in Ek as ->. rewrite (proj1 (proj2 (save_fields _ _ _))). auto. }
    destruct (option_map _ _); [now apply conn_post_all|now apply conn_emit].
  - unfold has_peer. destruct (existsb _ _) eqn:E; [|exact C]. apply existsb_eqb in E. destruct (n_chan n c d) as [|w ws] eqn:CH; [exact C|].
    set (n1 := set_chan c d ws n). assert (GE : forall es n', grows n1 n' -> grows n1 (emit es n')).
    { intros es n' G. eapply grows_trans; [exact G|]. split; [now exists es|]. repeat split; auto. }
    assert (GP : forall v n', grows n1 n' -> grows n1 (post d c v n')).
    { intros v n' G. eapply grows_trans; [exact G|]. split; [exists []; now rewrite app_nil_r|]. repeat split; auto. intros x y u I. rewrite post_chan. apply in_or_app. now left. }
    destruct w; cbn [receive].
    + eapply conn_pop; [exact C|exact CH|reflexivity|apply GP, grows_refl|]. intros i x Ex. exists (enumerate 0 (rcvs n d)). split; [|now apply (enumerate_in _ 0)]. rewrite post_chan, !Nat.eqb_refl. apply in_or_app. right. now left.
    + eapply conn_pop; [exact C|exact CH|reflexivity|apply GE, reply_grows|]. intros i x t I Et. rewrite remote_emit. exact (reply_adds d c subs n1 i x t I Et).
    + eapply conn_pop; [exact C|exact CH|reflexivity|apply GP, ta_grows|]. intros t Et. rewrite remote_post. exact (ta_adds d c idx k n1 t Et).
    + eapply conn_pop; [exact C|exact CH|reflexivity|apply GE, grows_refl|exact I].
    + destruct (nth_error _ _); [destruct (mtype_beq _ _)|]; (eapply conn_pop; [exact C|exact CH|reflexivity|apply GE, grows_refl|exact I]).
  - unfold has_peer. destruct (existsb _ _) eqn:E; [|exact C]. apply existsb_eqb in E. set (n' := emit _ _).
    assert (EL : forall x k', links n' x k' = if x =? d then remove_remote hash c (links n d k') else links n x k').
    { intros. unfold n', links, emit. cbn [n_part]. rewrite set_part_part. destruct (Nat.eqb_spec x d) as [->|]; reflexivity. }
    assert (ER : forall x, rcvs n' x = rcvs n x) by (intros x; unfold n', rcvs, emit; cbn [n_part]; rewrite set_part_part; destruct (Nat.eqb_spec x d) as [->|]; reflexivity).
    assert (EP : forall x, peers n' x = if x =? d then filter (fun q => negb (q =? c)) (peers n d) else peers n x) by (intros x; unfold n', peers, emit; cbn [n_part]; rewrite set_part_part; destruct (Nat.eqb_spec x d) as [->|]; reflexivity).
    assert (PS : forall x y, In y (peers n' x) -> In y (peers n x) /\ (x = d -> y <> c)).
    { intros x y. rewrite EP. destruct (Nat.eqb_spec x d) as [->|]; [|auto]. rewrite filter_In. intros [I Q]. split; [exact I|]. intros _ ->. now rewrite Nat.eqb_refl in Q. }
    destruct C. split.
    + intros a b i x t P1 P2. rewrite ER. intros Ex Et. apply PS in P1 as [P1 Q1]. apply PS in P2 as [P2 Q2]. apply (reach_mono n); auto. intros k r I Er. unfold remote. rewrite EL. destruct (Nat.eqb_spec a d) as [->|]; [|exact I]. cbn [remove_remote l_remote].
      destruct r as [r j]. cbn [fst] in Er. subst r. apply (erase_first_keep hash isname Hinj); auto; [apply (NM d c), (wf_peers n W d c E)|apply (NM d b), (wf_peers n W d b P1)].
    + intros a b M. rewrite EP. unfold n', emit. cbn [n_trace set_part]. rewrite in_app_iff. destruct (cn_peer0 a b M) as [P|P]; [|auto]. destruct (Nat.eqb_spec a d) as [->|]; [|auto]. destruct (Nat.eq_dec b c) as [->|Nb]; [right; right; now left|]. left. apply filter_In. split; [exact P|]. now rewrite (proj2 (Nat.eqb_neq b c)).
Qed.

Theorem reach_run : forall ops, named_ops isname ops -> conn (run hash throws ops) /\ src (run hash throws ops).
Proof.
  intros ops. induction ops as [|o ops IH] using rev_ind; intros NO.
  - split; split; cbn; try tauto; try discriminate; try (intros ? ? [[]|[]]).
  - apply named_ops_app in NO as [N1 N2]. destruct (wf_run hash throws isname Hinj ops N1) as [W NM]. destruct (IH N1) as [C S]. rewrite run_snoc. split; [now apply conn_step|now apply src_step].
Qed.
End Conn.
