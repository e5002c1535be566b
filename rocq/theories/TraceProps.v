From Coq Require Import ZArith NArith List Arith Bool Lia Sorted.
From Verif Require Import Base MessageBufferModel MessageBufferSpec MessageBufferProofs TraceModel TraceProofs.
Import ListNotations.
Open Scope N_scope.

Definition file_of (l : list (bool * frame)) : option (list N) := s_file (traces l (fst (open_sink PcapFile false sink0))).
Definition pipe_of (l : list (bool * frame)) : option (list N) := s_pipe (traces l (fst (open_sink PcapNamedPipe false sink0))).
Lemma storable_nonempty : forall l, Forall (fun x => fst x = true -> storable (snd x)) l -> Forall (fun x => fst x = true -> f_raw (snd x) <> []) l.
Proof. intros l. apply Forall_impl. intros [e f] H E. destruct (H E) as (_ & L & _). cbn in *. destruct (f_raw f); [cbn in L; lia|discriminate]. Qed.
Lemma storable_frames : forall l, Forall (fun x => fst x = true -> storable (snd x)) l -> Forall storable (ok_frames l).
Proof. intros l H. apply Forall_forall. intros f I. apply in_map_iff in I as (x & <- & I). apply filter_In in I as [I E]. rewrite Forall_forall in H. now apply H. Qed.

(** ** C49: what the sink wrote is read back *)
Theorem C49_written_file_is_read_back : forall l, Forall (fun x => fst x = true -> storable (snd x)) l ->
  exists bs r, file_of l = Some bs /\ open_reader bs 0 = Ok r /\
    yields read seek1 r (map (fun f => mkFrame (f_time f / 1000 * 1000) (f_raw f)) (map snd (filter fst l))).
Proof.
  intros l F. unfold file_of. exists (global_header ++ concat (map packet (ok_frames l))).
  destruct (header_open (concat (map packet (ok_frames l))) 0) as (r & O). exists r. split; [|split; [exact O|]].
  - apply traces_file with (h := false); [now apply storable_nonempty|reflexivity|reflexivity|reflexivity].
  - apply (open_yields _ _ _ _ O). rewrite drop_app by reflexivity. pose proof (packets_written (ok_frames l) [] [] (storable_frames l F)) as P. rewrite !app_nil_r in P. apply P. now constructor.
Qed.
Print Assumptions C49_written_file_is_read_back.
Definition fr (t : Z) (n : N) : frame := mkFrame t (repeat n 60).
Lemma fr_storable : forall t n, (0 <= t < 2 ^ 32 * 1000000000)%Z -> storable (fr t n).
Proof. intros t n T. split; [exact T|]. split; [cbn; lia|reflexivity]. Qed.
Example C49_read_back_example : Forall (fun x : bool * frame => fst x = true -> storable (snd x)) [(true, fr 1234567 1); (false, fr 2 2); (true, fr 5000000123 3)] /\
  exists bs r, file_of [(true, fr 1234567 1); (false, fr 2 2); (true, fr 5000000123 3)] = Some bs /\ open_reader bs 0 = Ok r /\ read r = Some (fr 1234000 1) /\ read (fst (seek1 r)) = Some (fr 5000000000 3) /\ snd (seek1 (fst (seek1 r))) = false.
Proof. split; [repeat constructor; cbn; intros E; try discriminate; apply fr_storable; lia|]. eexists _, _. split; [vm_compute; reflexivity|]. split; [vm_compute; reflexivity|]. vm_compute. auto. Qed.

(** A named pipe gets the same bytes as a file, once a frame is written *)
Theorem C49_pipe_has_the_same_contents : forall l, Forall (fun x => fst x = true -> storable (snd x)) l ->
  (map snd (filter fst l) = [] -> pipe_of l = Some []) /\ (map snd (filter fst l) <> [] -> pipe_of l = file_of l).
Proof.
  intros l F. unfold pipe_of, file_of. rewrite traces_pipe0; [|now apply storable_nonempty|reflexivity|reflexivity|reflexivity].
  rewrite (traces_file l global_header _ false); [|now apply storable_nonempty|reflexivity|reflexivity|reflexivity]. fold (ok_frames l). split; [intros ->; reflexivity|]. destruct (ok_frames l); [congruence|reflexivity].
Qed.
Print Assumptions C49_pipe_has_the_same_contents.
Example C49_pipe_example : pipe_of [(false, fr 1 1)] = Some [] /\ pipe_of [(true, fr 1 1)] = file_of [(true, fr 1 1)].
Proof. vm_compute. auto. Qed.

(** A file that was cut off yields exactly the frames that are complete *)
Theorem C49_truncated_file_yields_a_prefix : forall l bs n, Forall (fun x => fst x = true -> storable (snd x)) l -> file_of l = Some bs ->
  ((n < 24)%nat -> open_reader (firstn n bs) 0 = Exn) /\
  ((24 <= n)%nat -> exists r a b, open_reader (firstn n bs) 0 = Ok r /\ map snd (filter fst l) = a ++ b /\ yields read seek1 r (map (fun f => mkFrame (f_time f / 1000 * 1000) (f_raw f)) a) /\
     (24 + list_sum (map (fun f => 16 + length (f_raw f)) a) <= n)%nat /\
     (b = [] \/ exists f b', b = f :: b' /\ (n < 24 + list_sum (map (fun f => 16 + length (f_raw f)) (a ++ [f])))%nat)).
Proof.
  intros l bs n F E. unfold file_of in E. rewrite (traces_file l global_header _ false) in E; [|now apply storable_nonempty|reflexivity|reflexivity|reflexivity]. assert (EB : bs = global_header ++ concat (map packet (ok_frames l))) by congruence. clear E. rewrite EB. clear EB. split.
  - intros L. rewrite firstn_app. change (length global_header) with 24%nat. replace (n - 24)%nat with 0%nat by lia. cbn [firstn]. rewrite app_nil_r.
    unfold open_reader, read_global_header, sread. cbn [st_good st_rest negb]. rewrite firstn_length. change (length global_header) with 24%nat. destruct (N.leb_spec 24 (N.of_nat (Nat.min n 24))); [lia|reflexivity].
  - intros L. rewrite firstn_app, (firstn_all2 global_header) by exact L. change (length global_header) with 24%nat.
    assert (PL : forall fs, length (concat (map packet fs)) = list_sum (map (fun f => 16 + length (f_raw f))%nat fs)). { induction fs as [|f fs IH]; [reflexivity|]. cbn [map concat]. rewrite app_length, IH. unfold packet. rewrite app_length, packet_header_len. reflexivity. }
    destruct (packets_cut (ok_frames l) (n - 24) (storable_frames l F)) as (a & b & E & P & A & B). destruct (header_open (firstn (n - 24) (concat (map packet (ok_frames l)))) 0) as (r & O). exists r, a, b. split; [exact O|]. split; [exact E|]. split.
    + apply (open_yields _ _ _ _ O). rewrite drop_app by reflexivity. exact P.
    + rewrite PL in A. split; [lia|]. destruct b as [|f b]; [now left|right]. exists f, b. split; [reflexivity|]. rewrite PL in B. lia.
Qed.
Print Assumptions C49_truncated_file_yields_a_prefix.
Example C49_truncated_example : exists bs r, file_of [(true, fr 1000 1); (true, fr 2000 2)] = Some bs /\ length bs = 176%nat /\ open_reader (firstn 175 bs) 0 = Ok r /\ read r = Some (fr 1000 1) /\ snd (seek1 r) = false.
Proof. eexists _, _. split; [vm_compute; reflexivity|]. split; [vm_compute; reflexivity|]. split; [vm_compute; reflexivity|]. vm_compute. auto. Qed.

(** For any file, also one written by somebody else: every reader stops, and cutting off the end removes frames only at the end. *)
Theorem C49_any_truncated_file_yields_a_prefix : forall bs n r l r' l', open_reader bs 0 = Ok r -> open_reader (firstn n bs) 0 = Ok r' ->
  yields read seek1 r l -> yields read seek1 r' l' -> exists t, l = l' ++ t.
Proof.
  intros bs n r l r' l' O O' Y Y'. destruct (packets_total (skipn 24 bs)) as (a & A). destruct (packets_total (skipn 24 (firstn n bs))) as (b & B).
  rewrite (yields_det _ _ _ _ _ _ Y a (open_yields _ _ _ _ O A)), (yields_det _ _ _ _ _ _ Y' b (open_yields _ _ _ _ O' B)). rewrite skipn_firstn in B. exact (packets_firstn _ _ A _ _ B).
Qed.
Print Assumptions C49_any_truncated_file_yields_a_prefix.
Theorem C49_every_file_can_be_read : forall bs r, open_reader bs 0 = Ok r -> exists l, yields read seek1 r l.
Proof. intros bs r O. destruct (packets_total (skipn 24 bs)) as (l & L). exists l. exact (open_yields _ _ _ _ O L). Qed.
Print Assumptions C49_every_file_can_be_read.
Example C49_garbage_example : exists r, open_reader (global_header ++ [1; 2; 3]) 0 = Ok r /\ read r = None /\ open_reader [1; 2; 3] 0 = Exn.
Proof. eexists. split; [vm_compute; reflexivity|]. vm_compute. auto. Qed.

(** Seeking over several messages at once *)
Theorem C49_seek_skips_exactly_that_many : forall r l n, yields read seek1 r l ->
  ((n < length l)%nat -> exists r', seek n r = (r', true) /\ read r' = nth_error l n /\ yields read seek1 r' (skipn n l)) /\
  (l <> [] -> (length l <= n)%nat -> snd (seek n r) = false).
Proof.
  intros r l n Y. revert n. induction Y as [r E|r m r' E K|r m r' l E K N Y IH]; intros n.
  - split; [cbn; lia | congruence].
  - split.
    + cbn [length]. intros L. replace n with 0%nat by lia. exists r. cbn. split; [auto|split; auto]. eapply y_last; eauto.
    + cbn [length]. intros _ L. destruct n as [|n]; [lia|]. cbn [seek]. now rewrite K.
  - split.
    + intros L. destruct n as [|n]; [exists r; cbn; split; [auto|split; auto]; eapply y_next; eauto|]. cbn [seek]. rewrite K. apply IH. cbn in L. lia.
    + intros _ L. destruct n as [|n]; [cbn in L; lia|]. cbn [seek]. rewrite K. apply IH; [|cbn in L; lia].
      intros ->. inversion Y. congruence.
Qed.
Print Assumptions C49_seek_skips_exactly_that_many.
Example C49_seek_example : exists bs r, file_of [(true, fr 1000 1); (true, fr 2000 2); (true, fr 3000 3)] = Some bs /\ open_reader bs 0 = Ok r /\
  read (fst (seek 2 r)) = Some (fr 3000 3) /\ snd (seek 2 r) = true /\ snd (seek 3 r) = false.
Proof. eexists _, _. split; [vm_compute; reflexivity|]. split; [vm_compute; reflexivity|]. vm_compute. auto. Qed.

(** A copy of the reader starts again at the first frame *)
Theorem C49_copied_reader_starts_again : forall bs r l, open_reader bs 0 = Ok r -> yields read seek1 r l ->
  exists r', copy_reader r = Ok r' /\ yields read seek1 r' l.
Proof.
  intros bs r l O Y. assert (A : r_all r = bs). { unfold open_reader in O. destruct (read_global_header (mkStream bs true)) as [s| |] eqn:H; try discriminate. cbn [bind] in O. injection O as <-. unfold seek1. cbn [r_stream]. destruct (sread 16 s) as [s' [h|]]; [destruct (sread (field 8 4 h) s') as [s'' [raw|]]|]; reflexivity. }
  unfold copy_reader. rewrite A. destruct (packets_total (skipn 24 bs)) as (a & P). rewrite (yields_det _ _ _ _ _ _ Y a (open_yields _ _ _ _ O P)).
  assert (E : exists r', open_reader bs (r_num r) = Ok r'). { unfold open_reader in *. destruct (read_global_header (mkStream bs true)); try discriminate. cbn [bind]. eauto. }
  destruct E as (r' & E). exists r'. split; [exact E|]. exact (open_yields _ _ _ _ E P).
Qed.
Print Assumptions C49_copied_reader_starts_again.

(** *** Findings *)
(** The header announces timestamps in nanoseconds (magic a1b23c4d of the PCAP format), but microseconds are written: a reader following
    the format's definition sees other timestamps. *)
Definition standard_time (magic sec frac : N) : option N :=
  if magic =? 2712847316 (* a1b2c3d4: microseconds *) then Some (sec * 1000000000 + frac * 1000)
  else if magic =? 2712812621 (* a1b23c4d: nanoseconds *) then Some (sec * 1000000000 + frac) else None.
Theorem C49_standard_timestamps_refuted : exists f, storable f /\
  standard_time (field 0 4 global_header) (field 0 4 (packet_header f)) (field 4 4 (packet_header f)) = Some 1234 /\ f_time f = 1234000%Z.
Proof. exists (fr 1234000 1). split; [apply fr_storable; lia|]. vm_compute. auto. Qed.
Print Assumptions C49_standard_timestamps_refuted.

(** std::unique_lock is default constructed and locks nothing: two threads tracing at the same time can mix header and payload. The file
    content below is one interleaving of the two writes of each call; neither frame is read back. *)
Inductive interleaved {A} : list A -> list A -> list A -> Prop :=
| il_nil : interleaved [] [] []
| il_left : forall x a b c, interleaved a b c -> interleaved (x :: a) b (x :: c)
| il_right : forall x a b c, interleaved a b c -> interleaved a (x :: b) (x :: c).
Theorem C49_concurrent_traces_refuted : exists f g chunks r l, storable f /\ storable g /\
  interleaved [packet_header f; f_raw f] [packet_header g; f_raw g] chunks /\ open_reader (global_header ++ concat chunks) 0 = Ok r /\ yields read seek1 r l /\
  ~ In (micro f) l /\ ~ In (micro g) l.
Proof.
  exists (mkFrame 1000 (repeat 1 60)), (mkFrame 2000 (repeat 2 100)), [packet_header (mkFrame 1000 (repeat 1 60)); packet_header (mkFrame 2000 (repeat 2 100)); repeat 2 100; repeat 1 60].
  pose proof (packets_total (skipn 24 (global_header ++ concat [packet_header (mkFrame 1000 (repeat 1 60)); packet_header (mkFrame 2000 (repeat 2 100)); repeat 2 100; repeat 1 60]))) as (l & P).
  destruct (header_open (concat [packet_header (mkFrame 1000 (repeat 1 60)); packet_header (mkFrame 2000 (repeat 2 100)); repeat 2 100; repeat 1 60]) 0) as (r & O). exists r, l.
  split; [split; [cbn; lia|split; [cbn; lia|reflexivity]]|]. split; [split; [cbn; lia|split; [cbn; lia|reflexivity]]|].
  split; [repeat constructor|]. split; [exact O|]. split; [exact (open_yields _ _ _ _ O P)|].
  inversion P as [? E|? f0 r0 l0 E P0]; subst; vm_compute in E; try discriminate. injection E as <- <-. inversion P0 as [? E|? f1 r1 l1 E P1]; subst; vm_compute in E; try discriminate.
  split; vm_compute; intros [H|[]]; discriminate.
Qed.
Print Assumptions C49_concurrent_traces_refuted.

(** The version check accepts every file of which one of the two version numbers is right *)
Theorem C49_other_versions_are_rejected_refuted : exists r, open_reader (le_bytes 4 native_magic ++ le_bytes 2 99 ++ le_bytes 2 4 ++ repeat 0 16) 0 = Ok r.
Proof. eexists. vm_compute. reflexivity. Qed.
Print Assumptions C49_other_versions_are_rejected_refuted.

(** The number of messages of a copied reader starts at that of the original *)
Theorem C49_number_of_messages_refuted : exists bs r r', file_of [(true, fr 1000 1)] = Some bs /\ open_reader bs 0 = Ok r /\ r_num r = 1 /\ copy_reader r = Ok r' /\ r_num r' = 2.
Proof. eexists _, _, _. split; [vm_compute; reflexivity|]. split; [vm_compute; reflexivity|]. split; [vm_compute; reflexivity|]. split; vm_compute; reflexivity. Qed.
Print Assumptions C49_number_of_messages_refuted.

(** A frame without payload makes Trace throw, after it wrote the packet header; the following frames are read back nevertheless *)
Theorem C49_empty_frame_throws : forall t c h, snd (trace true (mkFrame t []) (mkSink (Some c) None h)) = Exn /\ s_file (fst (trace true (mkFrame t []) (mkSink (Some c) None h))) = Some (c ++ packet_header (mkFrame t [])).
Proof. intros. split; reflexivity. Qed.
Print Assumptions C49_empty_frame_throws.

(** ** C45: replay *)
Section Replay.
  Variables R M : Type.
  Variable rd : R -> option M.
  Variable sk : R -> R * bool.
  Variable time : M -> Z.
  (** the i-th task of each step *)
  Definition given (i : nat) (os : list (res (list (list M)))) : list (list M) := map (fun o => match o with Ok ls => nth i ls [] | _ => [] end) os.
  Lemma given_expected : forall start steps bs i, given i (map Ok (expected time start steps bs)) = map (fun ls => nth i ls []) (expected time start steps bs).
  Proof. intros. unfold given. rewrite map_map. reflexivity. Qed.
  Lemma expected_nth : forall steps start bs i b, nth_error bs i = Some b -> map (fun ls => nth i ls []) (expected time start steps bs) = map (fun ls => nth 0 ls []) (expected time start steps [b]) /\ nth_error (left_over time start steps bs) i = nth_error (left_over time start steps [b]) 0.
  Proof.
    induction steps as [|[now d] steps IH]; intros start bs i b E; cbn [expected left_over map]; [split; [reflexivity|now rewrite E]|].
    destruct (IH start (map (dropw time (now - start + d)) bs) i (dropw time (now - start + d) b)) as [A B]; [now apply map_nth_error|]. split; [|exact B]. cbn [nth]. f_equal; [|exact A].
    assert (X : nth_error (map (takew time (now - start + d)) bs) i = Some (takew time (now - start + d) b)) by now apply map_nth_error. exact (nth_error_nth _ _ _ X).
  Qed.
  Lemma expected_concat : forall steps start b, exists t, left_over time start steps [b] = [t] /\ concat (map (fun ls => nth 0 ls []) (expected time start steps [b])) ++ t = b.
  Proof.
    induction steps as [|[now d] steps IH]; intros start b; cbn [expected left_over map concat nth]; [exists b; split; reflexivity|].
    destruct (IH start (dropw time (now - start + d) b)) as (t & L & E). exists t. split; [exact L|]. rewrite <- app_assoc, E. apply take_drop.
  Qed.
  (** Every message is replayed at most once, in the order of the file, whatever the timestamps and steps are; a task has nothing left to
      replay only if all its messages were given to its controller. The scheduler always terminates. *)
  Theorem C45_once_and_in_order : forall ts bs fuel steps, Forall2 (holds rd sk) ts bs -> (forall b, In b bs -> (length b < fuel)%nat) ->
    match steps with [] => True | (start, _) :: _ => forall p, In p steps -> (start <= fst p)%Z end ->
    exists s' os, run_steps rd sk time fuel steps (mkSched None ts) = Some (s', os) /\ Forall (fun o => exists ls, o = Ok ls) os /\
      forall i b, nth_error bs i = Some b -> exists rest, concat (given i os) ++ rest = b /\ exists t, nth_error (c_tasks s') i = Some t /\ holds rd sk t rest.
  Proof.
    intros ts bs fuel steps F L P.
    assert (X : exists s' start, run_steps rd sk time fuel steps (mkSched None ts) = Some (s', map Ok (expected time start steps bs)) /\ Forall2 (holds rd sk) (c_tasks s') (left_over time start steps bs)).
    { destruct steps as [|[start d] steps]; [exists (mkSched None ts), 0%Z; split; [reflexivity|exact F]|]. pose proof (run_steps_first R M rd sk time ((start, d) :: steps) ts fuel) as RF. cbn beta iota in RF. rewrite RF.
      destruct (run_steps_ok R M rd sk time ((start, d) :: steps) start ts bs fuel F L P) as (s' & E & _ & F'). exists s', start. split; [exact E|exact F']. }
    destruct X as (s' & start & E & F'). exists s', (map Ok (expected time start steps bs)). split; [exact E|]. split; [apply Forall_forall; intros o I; apply in_map_iff in I as (ls & <- & _); eauto|].
    intros i b B. destruct (expected_nth steps start bs i b B) as [A C]. destruct (expected_concat steps start b) as (t & T1 & T2). exists t. split; [now rewrite given_expected, A|].
    rewrite T1 in C. cbn in C. clear - F' C. revert i C. induction F' as [|x y xs ys H F' IH]; intros [|i] C; cbn in *; try discriminate; [injection C as ->; eauto|now apply IH].
  Qed.
  (** No message is replayed before the step that contains its timestamp *)
  Theorem C45_never_early : forall ts bs fuel start steps s' os, Forall2 (holds rd sk) ts bs -> (forall b, In b bs -> (length b < fuel)%nat) -> (forall p, In p steps -> (start <= fst p)%Z) ->
    run_steps rd sk time fuel steps (mkSched (Some start) ts) = Some (s', os) ->
    forall k now d i m, nth_error steps k = Some (now, d) -> (i < length bs)%nat -> In m (nth k (given i os) []) -> (time m < now + d - start)%Z.
  Proof.
    intros ts bs fuel start steps s' os F L P E. destruct (run_steps_ok R M rd sk time steps start ts bs fuel F L P) as (s2 & E2 & _ & _). rewrite E2 in E. injection E as <- <-. clear.
    intros k now d i m K I. rewrite given_expected. revert k bs K I. induction steps as [|[now' d'] steps IH]; intros k bs K I; [now destruct k|]. destruct k as [|k]; cbn [expected map nth nth_error] in *.
    - injection K as -> ->. intros J. destruct (nth_error bs i) as [b|] eqn:B; [|apply nth_error_None in B; lia]. assert (X : nth_error (map (takew time (now - start + d)) bs) i = Some (takew time (now - start + d) b)) by now apply map_nth_error. rewrite (nth_error_nth _ _ _ X) in J. apply takew_early in J. lia.
    - apply (IH k _ K). now rewrite map_length.
  Qed.
  (** With timestamps in ascending order and steps that follow each other, each step gets exactly the messages of its interval *)
  Definition during (lo hi : Z) (b : list M) : list M := filter (fun m => (lo <=? time m) && (time m <? hi))%Z b.
  Fixpoint consecutive (steps : list (Z * Z)) : Prop :=
    match steps with (n, d) :: (((n', _) :: _) as r) => n' = (n + d)%Z /\ (0 <= d)%Z /\ consecutive r | [(_, d)] => (0 <= d)%Z | [] => True end.
  Lemma sorted_take : forall b lo hi, StronglySorted (fun x y => time x <= time y)%Z b -> (forall m, In m b -> lo <= time m)%Z -> takew time hi b = during lo hi b.
  Proof.
    induction b as [|x b IH]; intros lo hi S Lo; [reflexivity|]. inversion S as [|? ? S' A]; subst. unfold during in *. cbn [takew filter]. pose proof (Lo x (or_introl eq_refl)). destruct (Z.leb_spec hi (time x)).
    - destruct (Z.leb_spec lo (time x)); [|lia]. destruct (Z.ltb_spec (time x) hi); [lia|]. cbn [andb]. symmetry. rewrite Forall_forall in A. pose proof (IH lo hi S' (fun m J => Lo m (or_intror J))) as T.
      rewrite <- T. destruct b as [|y b]; [reflexivity|]. cbn [takew]. destruct (Z.leb_spec hi (time y)); [reflexivity|]. pose proof (A y (or_introl eq_refl)). lia.
    - destruct (Z.leb_spec lo (time x)); [|lia]. destruct (Z.ltb_spec (time x) hi); [|lia]. cbn [andb]. f_equal. apply IH; [exact S'|intros m J; apply Lo; now right].
  Qed.
  Lemma sorted_drop : forall b hi, StronglySorted (fun x y => time x <= time y)%Z b -> StronglySorted (fun x y => time x <= time y)%Z (dropw time hi b) /\ (forall m, In m (dropw time hi b) -> hi <= time m)%Z /\ forall lo' hi', (hi <= lo')%Z -> during lo' hi' (dropw time hi b) = during lo' hi' b.
  Proof.
    induction b as [|x b IH]; intros hi S; [split; [constructor|]; split; [intros m []|reflexivity]|]. inversion S as [|? ? S' A]; subst. cbn [dropw]. destruct (Z.leb_spec hi (time x)).
    - split; [exact S|]. split; [|reflexivity]. intros m [<-|J]; [assumption|]. rewrite Forall_forall in A. pose proof (A m J). lia.
    - destruct (IH hi S') as (B & C & D). split; [exact B|]. split; [exact C|]. intros lo' hi' L. rewrite D by exact L. unfold during. cbn [filter]. destruct (Z.leb_spec lo' (time x)); [lia|reflexivity].
  Qed.
  Theorem C45_in_its_step : forall ts bs fuel start steps s' os, Forall2 (holds rd sk) ts bs -> (forall b, In b bs -> (length b < fuel)%nat) ->
    consecutive steps -> match steps with [] => True | (n, _) :: _ => start = n end ->
    run_steps rd sk time fuel steps (mkSched (Some start) ts) = Some (s', os) ->
    forall i b, nth_error bs i = Some b -> StronglySorted (fun x y => time x <= time y)%Z b -> (forall m, In m b -> 0 <= time m)%Z ->
    given i os = map (fun p => during (fst p - start) (fst p - start + snd p) b) steps.
  Proof.
    intros ts bs fuel start steps s' os F L C S0 E i b B S P.
    assert (Q : forall p, In p steps -> (start <= fst p)%Z). { clear - C S0. destruct steps as [|[n d] steps]; [intros p []|]. subst n. assert (G : forall l n d, consecutive ((n, d) :: l) -> (start <= n)%Z -> forall p, In p ((n, d) :: l) -> (start <= fst p)%Z). { induction l as [|[n' d'] l IH]; intros n d0 C0 G p [<-|J]; try exact G; [destruct J|]. destruct C0 as (-> & D & C0). apply (IH (n + d0)%Z d' C0); [lia|exact J]. } now apply (G steps start d). }
    destruct (run_steps_ok R M rd sk time steps start ts bs fuel F L Q) as (s2 & E2 & _ & _). rewrite E2 in E. injection E as <- <-. rewrite given_expected. destruct (expected_nth steps start bs i b B) as [-> _].
    assert (G : forall l lo b0, consecutive l -> match l with [] => True | (n, _) :: _ => (lo = n - start)%Z end -> StronglySorted (fun x y => time x <= time y)%Z b0 -> (forall m, In m b0 -> lo <= time m)%Z ->
      map (fun ls => nth 0 ls []) (expected time start l [b0]) = map (fun p => during (fst p - start) (fst p - start + snd p) b0) l).
    { induction l as [|[n d] l IH]; intros lo b0 C0 LO S1 P1; [reflexivity|]. subst lo. cbn [expected map nth fst snd]. rewrite (sorted_take b0 (n - start)) by assumption. f_equal.
      destruct (sorted_drop b0 (n - start + d) S1) as (S2 & P2 & D2). rewrite (IH (n - start + d)%Z); [| |destruct l as [|[n' d'] l]; [exact I|destruct C0; lia]|exact S2|exact P2].
      - apply map_ext_in. intros [n' d'] J. apply D2. cbn [fst]. clear - C0 J. revert C0 J. assert (G : forall q n d, consecutive ((n, d) :: q) -> forall p, In p q -> (n + d <= fst p)%Z). { clear. induction q as [|[a e] q IH]; intros n0 d0 C p K; [destruct K|].
 destruct C as (-> & D & C).
 destruct K as [<-|K]; [cbn; lia|]. pose proof (IH _ _ C p K). pose proof C as C'. destruct q as [|[x y] q]; [destruct K|]. destruct C' as (_ & C' & _). lia. }
        intros C0 J. pose proof (G l n d C0 _ J) as G'. cbn in G'. lia.
      - destruct l as [|[n' d'] l]; [exact I|]. now destruct C0 as (_ & _ & C0). }
    apply (G steps 0%Z b C); [destruct steps as [|[n d] r]; [exact I|subst; lia]|exact S|exact P].
  Qed.
  (** Before virtual time is synchronized nothing is replayed *)
  Theorem C45_not_before_time_synchronization : forall fuel tnow now d s, replay_messages R M rd sk time fuel false tnow now d s = Some (s, Ok []).
  Proof. reflexivity. Qed.
End Replay.
Print Assumptions C45_once_and_in_order.
Print Assumptions C45_never_early.
Print Assumptions C45_in_its_step.
Print Assumptions C45_not_before_time_synchronization.

(** From the sink through a file to the controller: frames traced in ascending order are replayed in the step that contains their
    timestamp, truncated to microseconds. *)
Theorem C45_traced_frames_are_replayed : forall l steps fuel, Forall (fun x => fst x = true -> storable (snd x)) l -> StronglySorted (fun x y => f_time x <= f_time y)%Z (map snd (filter fst l)) ->
  (length (map snd (filter fst l)) < fuel)%nat -> consecutive steps ->
  exists bs r, file_of l = Some bs /\ open_reader bs 0 = Ok r /\
    match steps with
    | [] => True
    | (start, _) :: _ => exists s' os, run_steps read seek1 f_time fuel steps (mkSched None [mkTask r false]) = Some (s', os) /\
        given frame 0 os = map (fun p => filter (fun f => (fst p - start <=? f_time f) && (f_time f <? fst p - start + snd p))%Z (map micro (map snd (filter fst l)))) steps
    end.
Proof.
  intros l steps fuel F S L C. destruct (C49_written_file_is_read_back l F) as (bs & r & E & O & Y). exists bs, r. split; [exact E|]. split; [exact O|]. destruct steps as [|[start d] steps]; [exact I|].
  pose proof (run_steps_first reader frame read seek1 f_time ((start, d) :: steps) [mkTask r false] fuel) as RF. cbn beta iota in RF. rewrite RF.
  assert (H : Forall2 (holds read seek1) [mkTask r false] [map micro (map snd (filter fst l))]) by (constructor; [right; split; [reflexivity|exact Y]|constructor]).
  assert (LL : forall b, In b [map micro (map snd (filter fst l))] -> (length b < fuel)%nat) by (intros b [<-|[]]; now rewrite map_length).
  assert (Q : forall p, In p ((start, d) :: steps) -> (start <= fst p)%Z). { clear - C. assert (G : forall l n d, consecutive ((n, d) :: l) -> (start <= n)%Z -> forall p, In p ((n, d) :: l) -> (start <= fst p)%Z). { induction l as [|[n' d'] l IH]; intros n d0 C0 G p [<-|J]; try exact G; [destruct J|]. destruct C0 as (-> & D & C0). apply (IH (n + d0)%Z d' C0); [lia|exact J]. } apply (G steps start d C). lia. }
  destruct (run_steps_ok reader frame read seek1 f_time ((start, d) :: steps) start _ _ fuel H LL Q) as (s' & R & _ & _). exists s', (map Ok (expected f_time start ((start, d) :: steps) [map micro (map snd (filter fst l))])). split; [exact R|].
  refine (C45_in_its_step reader frame read seek1 f_time _ _ fuel start ((start, d) :: steps) s' _ H LL C eq_refl R 0 _ eq_refl _ _).
  - apply StronglySorted_Sorted in S. apply Sorted_StronglySorted; [intros x y z; lia|]. clear - S. induction S as [|x m S IH HR]; [constructor|]. cbn [map]. constructor; [exact IH|]. destruct HR as [|y m HR]; [constructor|]. constructor. cbn. pose proof (Z.div_le_mono (f_time x) (f_time y) 1000). lia.
  - intros m I. apply in_map_iff in I as (x & <- & I). pose proof (storable_frames l F) as SF. rewrite Forall_forall in SF. destruct (SF x I) as ((T & _) & _). cbn. pose proof (Z.div_pos (f_time x) 1000). lia.
Qed.
Print Assumptions C45_traced_frames_are_replayed.
Example C45_replay_example : exists bs r s os, file_of [(true, fr 500000 1); (true, fr 1000000 2); (true, fr 1500999 3)] = Some bs /\ open_reader bs 0 = Ok r /\
  run_steps read seek1 f_time 4 [(7000000, 1000000); (8000000, 1000000); (9000000, 1000000)]%Z (mkSched None [mkTask r false]) = Some (s, os) /\ given frame 0 os = [[fr 500000 1]; [fr 1000000 2; fr 1500000 3]; []].
Proof. eexists _, _, _, _. split; [vm_compute; reflexivity|]. split; [vm_compute; reflexivity|]. split; vm_compute; reflexivity. Qed.

(** *** Findings *)
(** Messages whose timestamps are not in ascending order are replayed late: here the second message belongs to the first step. *)
Theorem C45_unordered_file_is_replayed_in_its_step_refuted : exists bs r s os, file_of [(true, fr 1500000 1); (true, fr 500000 2)] = Some bs /\ open_reader bs 0 = Ok r /\
  run_steps read seek1 f_time 3 [(0, 1000000); (1000000, 1000000)]%Z (mkSched None [mkTask r false]) = Some (s, os) /\ given frame 0 os = [[]; [fr 1500000 1; fr 500000 2]].
Proof. eexists _, _, _, _. split; [vm_compute; reflexivity|]. split; [vm_compute; reflexivity|]. split; vm_compute; reflexivity. Qed.
Print Assumptions C45_unordered_file_is_replayed_in_its_step_refuted.
(** Timestamps are not taken relative to the start of the recording (task.initialTime is never read): a recording with wall-clock
    timestamps, here 1000 seconds after the epoch, is not replayed at all during the first hundred seconds. *)
Theorem C45_recording_is_relative_to_its_start_refuted : exists bs r s os, file_of [(true, fr 1000000000000 1)] = Some bs /\ open_reader bs 0 = Ok r /\
  run_steps read seek1 f_time 3 [(0, 100000000000)]%Z (mkSched None [mkTask r false]) = Some (s, os) /\ given frame 0 os = [[]].
Proof. eexists _, _, _, _. split; [vm_compute; reflexivity|]. split; [vm_compute; reflexivity|]. split; vm_compute; reflexivity. Qed.
Print Assumptions C45_recording_is_relative_to_its_start_refuted.
(** Messages of a PCAP file are always "sent" ones: a controller that replays in direction Receive gets none of them. *)
Theorem C45_replayed_in_the_configured_direction_refuted : on_replay RReceive true TX = Ok [] /\ on_replay RSend true TX = Ok [Send] /\ on_replay RReceive true RX = Ok [Receive].
Proof. repeat split. Qed.
Print Assumptions C45_replayed_in_the_configured_direction_refuted.
