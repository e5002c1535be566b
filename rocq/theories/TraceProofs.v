From Coq Require Import ZArith NArith List Arith Bool Lia.
From Verif Require Import Base MessageBufferModel MessageBufferSpec MessageBufferProofs TraceModel.
Import ListNotations.
Open Scope N_scope.

(** ** Any reader *)
Section Yields.
  Variables R M : Type.
  Variable rd : R -> option M.
  Variable sk : R -> R * bool.
  (** the messages a loop of Read and Seek(1) sees *)
  Inductive yields : R -> list M -> Prop :=
  | y_none : forall r, rd r = None -> yields r []
  | y_last : forall r m r', rd r = Some m -> sk r = (r', false) -> yields r [m]
  | y_next : forall r m r' l, rd r = Some m -> sk r = (r', true) -> rd r' <> None -> yields r' l -> yields r (m :: l).
  Lemma yields_det : forall r l, yields r l -> forall l', yields r l' -> l = l'.
  Proof. induction 1; intros l' Y; inversion Y; subst; try congruence; try reflexivity. replace m0 with m in * by congruence. f_equal. apply IHyields. congruence. Qed.

  Variable time : M -> Z.
  Fixpoint takew (till : Z) (l : list M) : list M := match l with [] => [] | m :: l => if (till <=? time m)%Z then [] else m :: takew till l end.
  Fixpoint dropw (till : Z) (l : list M) : list M := match l with [] => [] | m :: r => if (till <=? time m)%Z then l else dropw till r end.
  Lemma take_drop : forall till l, takew till l ++ dropw till l = l.
  Proof. induction l as [|m l IH]; [reflexivity|]. cbn. destruct (till <=? time m)%Z; [reflexivity|]. cbn. now rewrite IH. Qed.
  Lemma takew_early : forall till l m, In m (takew till l) -> (time m < till)%Z.
  Proof. induction l as [|x l IH]; intros m I; [destruct I|]. cbn in I. destruct (Z.leb_spec till (time x)); [destruct I|]. destruct I as [<-|I]; [lia|now apply IH]. Qed.

  (** [b]: what is left to be replayed *)
  Definition holds (t : task R) (b : list M) : Prop := (t_done t = true /\ b = []) \/ (t_done t = false /\ yields (t_reader t) b).
  Lemma replay_task_ok : forall b till fuel r, yields r b -> (length b < fuel)%nat ->
    exists t', replay_task R M rd sk time fuel till (mkTask r false) = Some (t', takew till b) /\ holds t' (dropw till b).
  Proof.
    intros b till fuel r Y. revert fuel. induction Y as [r N|r m r' E S|r m r' l E S NN Y IH]; intros [|fuel] L; try (cbn in L; lia); cbn [replay_task t_reader t_done].
    - rewrite N. eexists. split; [reflexivity|]. left. auto.
    - rewrite E. cbn [takew dropw]. destruct (till <=? time m)%Z eqn:B.
      + eexists. split; [reflexivity|]. right. split; [reflexivity|]. now apply (y_last r m r').
      + rewrite S. eexists. split; [reflexivity|]. left. auto.
    - rewrite E. cbn [takew dropw]. destruct (till <=? time m)%Z eqn:B.
      + eexists. split; [reflexivity|]. right. split; [reflexivity|]. now apply (y_next r m r').
      + rewrite S. destruct (IH fuel) as (t' & T & H); [cbn in L; lia|]. rewrite T. eexists. split; [reflexivity|exact H].
  Qed.
  Lemma replay_tasks_ok : forall ts bs till fuel, Forall2 holds ts bs -> (forall b, In b bs -> (length b < fuel)%nat) ->
    exists ts', replay_tasks R M rd sk time fuel till ts = Some (ts', map (takew till) bs) /\ Forall2 holds ts' (map (dropw till) bs).
  Proof.
    intros ts bs till fuel F. induction F as [|t b ts bs H F IH]; intros L; cbn [replay_tasks map]; [eexists; split; [reflexivity|constructor]|].
    destruct IH as (ts' & E & F'); [intros x I; apply L; now right|]. rewrite E. destruct t as [r d]. destruct H as [[D ->]|[D Y]]; cbn in D; subst d; cbn [t_done].
    - eexists. split; [reflexivity|]. constructor; [left; auto|exact F'].
    - destruct (replay_task_ok b till fuel r Y (L b (or_introl eq_refl))) as (t' & T & H). rewrite T. eexists. split; [reflexivity|]. constructor; assumption.
  Qed.

  (** a sequence of steps: (now, duration) pairs, with virtual time; [None] only if out of fuel *)
  Fixpoint run_steps (fuel : nat) (steps : list (Z * Z)) (s : sched R) : option (sched R * list (res (list (list M)))) :=
    match steps with
    | [] => Some (s, [])
    | (now, d) :: steps =>
        match replay_messages R M rd sk time fuel true now now d s with
        | Some (s, o) => match run_steps fuel steps s with Some (s, os) => Some (s, o :: os) | None => None end
        | None => None
        end
    end.
  (** what the property says each step gives to the tasks *)
  Fixpoint expected (start : Z) (steps : list (Z * Z)) (bs : list (list M)) : list (list (list M)) :=
    match steps with
    | [] => []
    | (now, d) :: steps => map (takew (now - start + d)) bs :: expected start steps (map (dropw (now - start + d)) bs)
    end.
  Fixpoint left_over (start : Z) (steps : list (Z * Z)) (bs : list (list M)) : list (list M) :=
    match steps with [] => bs | (now, d) :: steps => left_over start steps (map (dropw (now - start + d)) bs) end.
  Lemma dropw_len : forall till l, (length (dropw till l) <= length l)%nat.
  Proof. induction l as [|m l IH]; cbn; [lia|]. destruct (till <=? time m)%Z; cbn; lia. Qed.
  Lemma run_steps_ok : forall steps start ts bs fuel, Forall2 holds ts bs -> (forall b, In b bs -> (length b < fuel)%nat) -> (forall p, In p steps -> (start <= fst p)%Z) ->
    exists s', run_steps fuel steps (mkSched (Some start) ts) = Some (s', map Ok (expected start steps bs)) /\ c_start s' = Some start /\ Forall2 holds (c_tasks s') (left_over start steps bs).
  Proof.
    induction steps as [|[now d] steps IH]; intros start ts bs fuel F L P; cbn [run_steps expected left_over map].
    - eexists. split; [reflexivity|]. auto.
    - unfold replay_messages. cbn [negb c_start c_tasks]. pose proof (P _ (or_introl eq_refl)) as P0. cbn in P0. destruct (Z.ltb_spec (now - start) 0) as [B|B]; [lia|].
      destruct (replay_tasks_ok ts bs (now - start + d) fuel F L) as (ts' & E & F'). rewrite E.
      destruct (IH start ts' (map (dropw (now - start + d)) bs) fuel F') as (s' & E' & S' & F'').
      + intros b I. apply in_map_iff in I as (x & <- & I). pose proof (dropw_len (now - start + d) x). pose proof (L x I). lia.
      + intros p I. apply P. now right.
      + rewrite E'. eexists. split; [reflexivity|]. auto.
  Qed.
  Lemma run_steps_first : forall steps ts fuel, match steps with [] => True | (now, _) :: _ => run_steps fuel steps (mkSched None ts) = run_steps fuel steps (mkSched (Some now) ts) end.
  Proof. intros [|[now d] steps] ts fuel; [exact I|]. cbn [run_steps]. unfold replay_messages. cbn [negb c_start c_tasks]. reflexivity. Qed.
End Yields.
Arguments yields {R M}. Arguments holds {R M}. Arguments takew {M}. Arguments dropw {M}. Arguments expected {M}. Arguments left_over {M}. Arguments run_steps {R M}.

(** ** PCAP: one packet *)
Definition parse1 (bs : list N) : option (frame * list N) :=
  if 16 <=? N.of_nat (length bs) then
    let h := firstn 16 bs in let b := skipn 16 bs in let n := field 8 4 h in
    if n <=? N.of_nat (length b) then Some (mkFrame (Z.of_N (field 0 4 h * 1000000000 + field 4 4 h * 1000)) (firstn (N.to_nat n) b), skipn (N.to_nat n) b) else None
  else None.
Lemma seek1_parse : forall all bs c k, seek1 (mkReader all (mkStream bs true) c k) =
  match parse1 bs with
  | Some (f, r) => (mkReader all (mkStream r true) (Some f) (k + 1), true)
  | None => (mkReader all (mkStream [] false) c k, false)
  end.
Proof.
  intros all bs c k. unfold seek1, parse1, sread at 1. cbn [r_stream r_all r_cur r_num st_good st_rest negb]. destruct (16 <=? N.of_nat (length bs)) eqn:A; [|reflexivity].
  change (N.to_nat 16) with 16%nat. unfold sread. cbn [st_good st_rest negb]. destruct (field 8 4 (firstn 16 bs) <=? N.of_nat (length (skipn 16 bs))) eqn:B; reflexivity.
Qed.
Inductive packets : list N -> list frame -> Prop :=
| pk_end : forall bs, parse1 bs = None -> packets bs []
| pk_next : forall bs f r l, parse1 bs = Some (f, r) -> packets r l -> packets bs (f :: l).
Lemma parse1_shorter : forall bs f r, parse1 bs = Some (f, r) -> (length r < length bs)%nat.
Proof.
  intros bs f r H. unfold parse1 in H. destruct (N.leb_spec 16 (N.of_nat (length bs))) as [A|A]; [|discriminate]. pose proof (skipn_length 16 bs) as L. cbv zeta in H. revert H L. generalize (skipn 16 bs) (firstn 16 bs). intros b h H L. destruct (_ <=? _); [|discriminate]. injection H as <- <-. rewrite skipn_length. lia.
Qed.
Lemma packets_total : forall bs, exists l, packets bs l.
Proof.
  intros bs. remember (length bs) as n eqn:E. revert bs E. induction n as [n IH] using lt_wf_ind. intros bs E. destruct (parse1 bs) as [[f r]|] eqn:P; [|exists []; now constructor].
  destruct (IH (length r)) with (bs := r) as (l & L); [apply parse1_shorter in P; lia|reflexivity|]. exists (f :: l). now apply (pk_next _ f r).
Qed.
Lemma packets_det : forall bs l, packets bs l -> forall l', packets bs l' -> l = l'.
Proof. induction 1; intros l' P; inversion P; subst; try congruence; try reflexivity. rewrite H in H1. injection H1 as <- <-. f_equal. auto. Qed.
Lemma packets_yields : forall bs l, packets bs l -> forall all f k, yields read seek1 (mkReader all (mkStream bs true) (Some f) k) (f :: l).
Proof.
  induction 1 as [bs P|bs g r l P H IH]; intros all f k.
  - eapply y_last; [reflexivity|]. rewrite seek1_parse, P. reflexivity.
  - eapply y_next; [reflexivity|rewrite seek1_parse, P; reflexivity|discriminate|]. apply IH.
Qed.
(** an opened file: the reader yields its packets *)
Lemma open_yields : forall bs k r l, open_reader bs k = Ok r -> packets (skipn 24 bs) l -> yields read seek1 r l.
Proof.
  intros bs k r l O P. unfold open_reader, read_global_header, sread in O. cbn [st_good st_rest negb] in O. destruct (24 <=? N.of_nat (length bs)); [|discriminate]. destruct (negb _); [discriminate|]. destruct (_ && _); [discriminate|]. cbn [bind] in O. change (N.to_nat 24) with 24%nat in O. rewrite seek1_parse in O.
  revert O P. generalize (skipn 24 bs). intros rest O P. destruct P as [rest E|rest f r' l E P]; rewrite E in O; cbn [fst] in O; injection O as <-.
  - apply y_none. reflexivity.
  - now apply packets_yields.
Qed.

(** cutting off the end *)
Lemma skipn_firstn : forall A n k (l : list A), skipn k (firstn n l) = firstn (n - k) (skipn k l).
Proof. intros A n k. revert n. induction k as [|k IH]; intros [|n] [|x l]; cbn; try reflexivity; [now rewrite firstn_nil|apply IH]. Qed.
Lemma parse1_firstn : forall n bs f r, parse1 (firstn n bs) = Some (f, r) -> exists r' k, parse1 bs = Some (f, r') /\ r = firstn k r'.
Proof.
  intros n bs f r H. unfold parse1 in *. rewrite firstn_length in H. destruct (N.leb_spec 16 (N.of_nat (Nat.min n (length bs)))) as [A|A]; [|discriminate].
  destruct (N.leb_spec 16 (N.of_nat (length bs))) as [B|B]; [|lia]. rewrite firstn_firstn in H. replace (Nat.min 16 n) with 16%nat in H by lia. rewrite skipn_firstn in H.
  set (b := skipn 16 bs) in *. set (m := field 8 4 (firstn 16 bs)) in *. destruct (N.leb_spec m (N.of_nat (length (firstn (n - 16) b)))) as [C|C]; [|discriminate]. rewrite firstn_length in C.
  destruct (N.leb_spec m (N.of_nat (length b))) as [D|D]; [|lia]. rewrite firstn_firstn, skipn_firstn in H. replace (Nat.min (N.to_nat m) (n - 16)) with (N.to_nat m) in H by lia.
  injection H as <- <-. eexists _, _. split; reflexivity.
Qed.
Lemma packets_firstn : forall bs l, packets bs l -> forall n l', packets (firstn n bs) l' -> exists t, l = l' ++ t.
Proof.
  induction 1 as [bs P|bs f r l P H IH]; intros n l' Q.
  - inversion Q as [? E|? g r' l0 E Q']; subst; [exists []; reflexivity|]. apply parse1_firstn in E as (r1 & k & E & _). congruence.
  - inversion Q as [? E|? g r' l0 E Q']; subst; [exists (f :: l); reflexivity|]. apply parse1_firstn in E as (r1 & k & E & ->). replace r1 with r in * by congruence. replace g with f in * by congruence. destruct (IH _ _ Q') as (t & ->). now exists t.
Qed.

(** writing one packet and reading it back *)
Definition storable (f : frame) : Prop := (0 <= f_time f < 2 ^ 32 * 1000000000)%Z /\ (0 < length (f_raw f))%nat /\ N.of_nat (length (f_raw f)) < 2 ^ 32.
Definition micro (f : frame) : frame := mkFrame (f_time f / 1000 * 1000) (f_raw f).
Definition packet (f : frame) : list N := packet_header f ++ f_raw f.
Lemma packet_header_len : forall f, length (packet_header f) = 16%nat.
Proof. intros f. unfold packet_header. rewrite !app_length, !le_bytes_length. reflexivity. Qed.
Lemma take_app : forall A n (a b : list A), length a = n -> firstn n (a ++ b) = a.
Proof. intros A n a b <-. rewrite firstn_app, firstn_all, Nat.sub_diag. cbn. apply app_nil_r. Qed.
Lemma drop_app : forall A n (a b : list A), length a = n -> skipn n (a ++ b) = b.
Proof. intros A n a b <-. rewrite skipn_app, skipn_all, Nat.sub_diag. reflexivity. Qed.
Lemma header_fields : forall a b c d, is_u 4 a -> is_u 4 b -> is_u 4 c ->
  let h := le_bytes 4 a ++ le_bytes 4 b ++ le_bytes 4 c ++ le_bytes 4 d in field 0 4 h = a /\ field 4 4 h = b /\ field 8 4 h = c.
Proof.
  intros a b c d A B C h. unfold field, h. split; [|split].
  - cbn [skipn]. rewrite take_app by apply le_bytes_length. now apply of_le_bytes.
  - rewrite drop_app by apply le_bytes_length. rewrite take_app by apply le_bytes_length. now apply of_le_bytes.
  - rewrite (app_assoc (le_bytes 4 a)), drop_app by (rewrite app_length, !le_bytes_length; reflexivity). rewrite take_app by apply le_bytes_length. now apply of_le_bytes.
Qed.
Lemma u32_is : forall x, is_u 4 (u32 x).
Proof. intros x. apply is_u4. unfold u32. apply N.mod_upper_bound. discriminate. Qed.
Lemma usec_ok : forall f, storable f -> u32 (usec (f_time f) / 1000000) * 1000000000 + u32 (usec (f_time f) mod 1000000) * 1000 = Z.to_N (f_time f / 1000 * 1000).
Proof.
  intros f (T & _). unfold usec, u32. rewrite Z.quot_div_nonneg by lia. assert (B : (0 <= f_time f / 1000 < 2 ^ 32 * 1000000)%Z) by (split; [apply Z.div_pos; lia|apply Z.div_lt_upper_bound; lia]).
  rewrite (Z.mod_small (f_time f / 1000)) by lia. set (q := (f_time f / 1000)%Z) in *. clearbody q. assert (Q : exists n, q = Z.of_N n) by (exists (Z.to_N q); lia). destruct Q as [n ->]. rewrite N2Z.id. clear - B.
  assert (D : n / 1000000 < 2 ^ 32) by (apply N.div_lt_upper_bound; lia). rewrite (N.mod_small (n / 1000000)) by exact D. pose proof (N.mod_upper_bound n 1000000). rewrite (N.mod_small (n mod 1000000)) by lia.
  pose proof (N.div_mod n 1000000). lia.
Qed.
Lemma parse1_packet : forall f tl, storable f -> parse1 (packet f ++ tl) = Some (micro f, tl).
Proof.
  intros f tl S. unfold packet. rewrite <- app_assoc. unfold parse1. rewrite app_length, packet_header_len. destruct (N.leb_spec 16 (N.of_nat (16 + length (f_raw f ++ tl)))) as [_|B]; [|lia].
  rewrite take_app, drop_app by apply packet_header_len. pose proof S as (_ & _ & L).
  destruct (header_fields (u32 (usec (f_time f) / 1000000)) (u32 (usec (f_time f) mod 1000000)) (u32 (N.of_nat (length (f_raw f)))) (u32 (N.of_nat (length (f_raw f))))) as (F1 & F2 & F3); try apply u32_is.
  fold (packet_header f) in F1, F2, F3. rewrite F1, F2, F3. assert (E : u32 (N.of_nat (length (f_raw f))) = N.of_nat (length (f_raw f))) by (unfold u32; apply N.mod_small; exact L). rewrite E.
  rewrite app_length. destruct (N.leb_spec (N.of_nat (length (f_raw f))) (N.of_nat (length (f_raw f) + length tl))) as [_|B]; [|lia]. rewrite Nat2N.id, take_app, drop_app by reflexivity.
  unfold micro. rewrite usec_ok by exact S. rewrite Z2N.id; [reflexivity|]. destruct S as ((S & _) & _). pose proof (Z.div_pos (f_time f) 1000). lia.
Qed.
Lemma packets_written : forall fs tl l, Forall storable fs -> packets tl l -> packets (concat (map packet fs) ++ tl) (map micro fs ++ l).
Proof. induction fs as [|f fs IH]; intros tl l F P; [exact P|]. inversion F; subst. cbn [map concat app]. rewrite <- app_assoc. apply (pk_next _ (micro f) (concat (map packet fs) ++ tl)); [now apply parse1_packet|now apply IH]. Qed.
(** an incomplete packet is not read *)
Lemma parse1_short : forall f n, storable f -> (n < length (packet f))%nat -> parse1 (firstn n (packet f)) = None.
Proof.
  intros f n S L. destruct (parse1 (firstn n (packet f))) as [[g r]|] eqn:P; [|reflexivity]. exfalso. unfold parse1 in P.
  rewrite firstn_length in P. destruct (N.leb_spec 16 (N.of_nat (Nat.min n (length (packet f))))) as [A|A]; [|discriminate]. unfold packet in P, L. rewrite app_length, packet_header_len in *.
  rewrite firstn_firstn in P. replace (Nat.min 16 n) with 16%nat in P by lia. rewrite take_app in P by apply packet_header_len. rewrite skipn_firstn, drop_app in P by apply packet_header_len.
  destruct (header_fields (u32 (usec (f_time f) / 1000000)) (u32 (usec (f_time f) mod 1000000)) (u32 (N.of_nat (length (f_raw f)))) (u32 (N.of_nat (length (f_raw f))))) as (F1 & F2 & F3); try apply u32_is.
  fold (packet_header f) in F3. rewrite F3 in P. pose proof S as (_ & _ & B). unfold u32 in P. rewrite (N.mod_small _ _ B) in P. rewrite firstn_length in P. destruct (N.leb_spec (N.of_nat (length (f_raw f))) (N.of_nat (Nat.min (n - 16) (length (f_raw f))))); [lia|discriminate].
Qed.
Lemma packets_cut : forall fs n, Forall storable fs -> exists a b, fs = a ++ b /\ packets (firstn n (concat (map packet fs))) (map micro a) /\
  (length (concat (map packet a)) <= n)%nat /\ match b with [] => True | f :: _ => (n < length (concat (map packet (a ++ [f]))))%nat end.
Proof.
  induction fs as [|f fs IH]; intros n F.
  - exists [], []. cbn. rewrite firstn_nil. split; [reflexivity|]. split; [constructor; reflexivity|]. split; [lia|exact I].
  - inversion F as [|? ? S F']; subst. cbn [map concat]. destruct (Nat.lt_ge_cases n (length (packet f))) as [L|L].
    + exists [], (f :: fs). split; [reflexivity|]. split; [|split; [cbn; lia|cbn; rewrite app_nil_r; exact L]]. rewrite firstn_app. replace (n - length (packet f))%nat with 0%nat by lia. cbn [firstn]. rewrite app_nil_r. constructor. now apply parse1_short.
    + destruct (IH (n - length (packet f))%nat F') as (a & b & -> & P & A & B). exists (f :: a), b. split; [reflexivity|]. split.
      * rewrite firstn_app, firstn_all2 by exact L. cbn [map]. apply (pk_next _ (micro f) (firstn (n - length (packet f)) (concat (map packet (a ++ b))))); [now apply parse1_packet|exact P].
      * split; [cbn [map concat]; rewrite app_length; lia|]. destruct b as [|g b]; [exact I|]. cbn [map concat app]. rewrite app_length. lia.
Qed.

(** ** The sink *)
Lemma header_open : forall bs k, exists r, open_reader (global_header ++ bs) k = Ok r.
Proof.
  intros bs k. unfold open_reader, read_global_header, sread. cbn [st_good st_rest negb]. rewrite app_length. change (length global_header) with 24%nat.
  destruct (N.leb_spec 24 (N.of_nat (24 + length bs))) as [_|B]; [|lia]. change (N.to_nat 24) with 24%nat. rewrite take_app, drop_app by reflexivity. change (field 0 4 global_header =? native_magic) with true. change (field 4 2 global_header =? 2) with true. cbn [negb andb bind]. eauto.
Qed.
Definition ok_frames (l : list (bool * frame)) : list frame := map snd (filter fst l).
Lemma traces_file : forall l c p h, Forall (fun x => fst x = true -> f_raw (snd x) <> []) l -> s_pipe p = None -> s_file p = Some c -> s_hdr p = h ->
  s_file (traces l p) = Some (c ++ concat (map packet (ok_frames l))).
Proof.
  induction l as [|[eth f] l IH]; intros c p h F P C H; cbn [traces]; [rewrite C; cbn; now rewrite app_nil_r|]. inversion F as [|? ? F0 F']; subst. cbn in F0. unfold trace. destruct eth; cbn [negb fst].
  - rewrite C, P. cbn [wr]. destruct (f_raw f) as [|x raw] eqn:E; [now destruct (F0 eq_refl)|]. cbn [fst]. rewrite (IH (c ++ packet_header f ++ x :: raw) _ (s_hdr p)); try assumption; try reflexivity. unfold ok_frames. cbn [filter fst map concat snd]. unfold packet at 2. rewrite E, <- !app_assoc. reflexivity.
  - unfold ok_frames in *. cbn [filter fst]. now apply (IH c p (s_hdr p)).
Qed.
Lemma traces_pipe : forall l c p, Forall (fun x => fst x = true -> f_raw (snd x) <> []) l -> s_file p = None -> s_pipe p = Some c -> s_hdr p = true ->
  s_pipe (traces l p) = Some (c ++ concat (map packet (ok_frames l))).
Proof.
  induction l as [|[eth f] l IH]; intros c p F P C H; cbn [traces]; [rewrite C; cbn; now rewrite app_nil_r|]. inversion F as [|? ? F0 F']; subst. cbn in F0. unfold trace. destruct eth; cbn [negb fst].
  - rewrite C, P, H. cbn [wr]. destruct (f_raw f) as [|x raw] eqn:E; [now destruct (F0 eq_refl)|]. cbn [fst]. rewrite (IH (c ++ packet_header f ++ x :: raw)); try assumption; try reflexivity. unfold ok_frames. cbn [filter fst map concat snd]. unfold packet at 2. rewrite E, <- !app_assoc. reflexivity.
  - unfold ok_frames in *. cbn [filter fst]. now apply (IH c p).
Qed.
Lemma traces_pipe0 : forall l p, Forall (fun x => fst x = true -> f_raw (snd x) <> []) l -> s_file p = None -> s_pipe p = Some [] -> s_hdr p = false ->
  s_pipe (traces l p) = Some (match ok_frames l with [] => [] | _ => global_header ++ concat (map packet (ok_frames l)) end).
Proof.
  induction l as [|[eth f] l IH]; intros p F P C H; cbn [traces]; [rewrite C; reflexivity|]. inversion F as [|? ? F0 F']; subst. cbn in F0. unfold trace. destruct eth; cbn [negb fst].
  - rewrite C, P, H. cbn [wr]. destruct (f_raw f) as [|x raw] eqn:E; [now destruct (F0 eq_refl)|]. cbn [fst app]. rewrite (traces_pipe l (global_header ++ packet_header f ++ x :: raw)); try assumption; try reflexivity. unfold ok_frames. cbn [filter fst map concat snd]. unfold packet at 2. rewrite E, <- !app_assoc. reflexivity.
  - unfold ok_frames in *. cbn [filter fst]. now apply (IH p).
Qed.
