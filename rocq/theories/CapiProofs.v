(** Proofs about the conversions of structs: conversions are run on symbols for the fields of the source,
    and the symbols are shown to stand for the values of every run. *)
From Coq Require Import String Ascii List ZArith NArith Bool Lia.
From Verif Require Import CapiModel CapiSpec.
Import ListNotations.
Open Scope string_scope. Open Scope Z_scope. Open Scope list_scope.

(* ------------------------------------------------------------------ *)
(** * Conversions of integers *)

Definition isint (t : cty) : bool := match t with TBool | TBytes | TArr8 => false | _ => true end.

Lemma width_pos : forall t, isint t = true -> 0 < width t.
Proof. destruct t; cbn; intros; try discriminate; lia. Qed.

Lemma wrap_int : forall t z, isint t = true ->
  wrap t z = let m := z mod 2 ^ width t in
             if signed t && (2 ^ (width t - 1) <=? m) then m - 2 ^ width t else m.
Proof. destruct t; cbn [isint]; intros; try discriminate; reflexivity. Qed.

Lemma lo_hi : forall t, isint t = true ->
  (signed t = true /\ lo t = - 2 ^ (width t - 1) /\ hi t = 2 ^ (width t - 1) - 1)
  \/ (signed t = false /\ lo t = 0 /\ hi t = 2 ^ width t - 1).
Proof. destruct t; cbn [isint]; intros H; try discriminate; cbn; auto. Qed.

Lemma pow_half : forall w, 0 < w -> 2 ^ w = 2 * 2 ^ (w - 1).
Proof. intros w H. replace w with (Z.succ (w - 1)) at 1 by lia. rewrite Z.pow_succ_r by lia. reflexivity. Qed.

Lemma wrap_range : forall t z, isint t = true -> lo t <= wrap t z <= hi t.
Proof.
  intros t z H. rewrite wrap_int by assumption. cbv zeta.
  pose proof (width_pos t H) as W. pose proof (pow_half _ W) as P.
  assert (Q : 0 < 2 ^ (width t - 1)) by (apply Z.pow_pos_nonneg; lia).
  pose proof (Z.mod_pos_bound z (2 ^ width t) ltac:(lia)) as B.
  destruct (lo_hi t H) as [(S & L & Hh)|(S & L & Hh)]; rewrite L, Hh, S; cbn [andb].
  - destruct (2 ^ (width t - 1) <=? z mod 2 ^ width t) eqn:E; lia.
  - lia.
Qed.

Lemma wrap_congr : forall t z, isint t = true -> exists k, wrap t z = z + k * 2 ^ width t.
Proof.
  intros t z H. rewrite wrap_int by assumption. cbv zeta.
  pose proof (width_pos t H) as W.
  assert (Q : 0 < 2 ^ width t) by (apply Z.pow_pos_nonneg; lia).
  pose proof (Z.div_mod z (2 ^ width t) ltac:(lia)) as D.
  destruct (signed t && _).
  - exists (- (z / 2 ^ width t) - 1). lia.
  - exists (- (z / 2 ^ width t)). lia.
Qed.

Lemma wrap_id : forall t z, isint t = true -> lo t <= z <= hi t -> wrap t z = z.
Proof.
  intros t z H R. rewrite wrap_int by assumption. cbv zeta.
  pose proof (width_pos t H) as W. pose proof (pow_half _ W) as P.
  assert (Q : 0 < 2 ^ (width t - 1)) by (apply Z.pow_pos_nonneg; lia).
  destruct (lo_hi t H) as [(S & L & Hh)|(S & L & Hh)]; rewrite L, Hh in R; rewrite S; cbn [andb].
  - destruct (Z_lt_le_dec z 0) as [N|N].
    + assert (E : z mod 2 ^ width t = z + 2 ^ width t).
      { rewrite <- (Z_mod_plus_full z 1 (2 ^ width t)). rewrite Z.mul_1_l. apply Z.mod_small. lia. }
      rewrite E. destruct (2 ^ (width t - 1) <=? z + 2 ^ width t) eqn:X; lia.
    + rewrite (Z.mod_small z) by lia. destruct (2 ^ (width t - 1) <=? z) eqn:X; lia.
  - apply Z.mod_small. lia.
Qed.

Lemma wrap_mod : forall t a b k, isint t = true -> b = a + k * 2 ^ width t -> wrap t a = wrap t b.
Proof.
  intros t a b k H ->. rewrite !wrap_int by assumption. cbv zeta.
  rewrite Z_mod_plus_full. reflexivity.
Qed.

Lemma wrap_wrap : forall t c z, isint t = true -> isint c = true -> width t <= width c ->
  wrap t (wrap c z) = wrap t z.
Proof.
  intros t c z H1 H2 W. destruct (wrap_congr c z H2) as [k K]. symmetry.
  apply (wrap_mod t z (wrap c z) (k * 2 ^ (width c - width t)) H1).
  rewrite K. pose proof (width_pos t H1).
  replace (width c) with (width c - width t + width t) at 1 by lia.
  rewrite Z.pow_add_r by lia. ring.
Qed.

Lemma wrap_as_type : forall t z, isint t = true -> as_type t z (wrap t z).
Proof.
  intros t z H. split; [apply wrap_range; assumption|].
  destruct (wrap_congr t z H) as [k K]. destruct t; try discriminate; exists k; exact K.
Qed.

Lemma as_type_id : forall t z, lo t <= z <= hi t -> as_type t z z.
Proof. intros t z H. split; [exact H|]. destruct t; try reflexivity; exists 0; lia. Qed.

(* ------------------------------------------------------------------ *)
(** * Running a conversion on symbols *)

(* SI f None: the number in field f of the source; SI f (Some c): that number as a c; SB f: the bytes in
   field f, with some pointer; SK v: a constant *)
Inductive sval := SI (f : string) (c : option cty) | SB (f : string) | SK (v : val).
Definition sstore := list (string * sval).

Definition isnum (t : cty) : bool := match t with TBytes | TArr8 => false | _ => true end.

Definition embeds (t c : cty) : bool :=
  isnum t && isnum c && (lo c <=? lo t) && (hi t <=? hi c).

Definition scast (t : cty) (cur : option cty) (c : cty) : option (option cty) :=
  match cur with
  | None => if embeds t c then Some None
            else if isint t && isint c && (width t <=? width c) then Some (Some c) else None
  | Some c0 =>
      if isint t && isint c0 && isint c && (width c <=? width c0) && (width t <=? width c) then
        if cty_eq_dec c t then Some None else Some (Some c)
      else None
  end.

Fixpoint scasts (t : cty) (cur : option cty) (cs : list cty) : option (option cty) :=
  match cs with
  | [] => Some cur
  | c :: r => match scast t cur c with Some n => scasts t n r | None => None end
  end.

Definition sym_guard (src : sstore) (g : guard) : option bool :=
  match g with
  | Always => Some true
  | VerGe h n => match get src h with Some (SK (VI z)) => Some (n <=? id_version z) | _ => None end
  | VerIn h l => match get src h with Some (SK (VI z)) => Some (existsb (Z.eqb (id_version z)) l) | _ => None end
  | NonZeroS _ => None
  end.

Definition sym_stmt (n : bool) (ol dl : layout) (src d : sstore) (s : stmt) : option sstore :=
  match s with
  | Asg dst casts f =>
      match get src f, get dl dst with
      | Some (SI g c), Some t =>
          match get ol g with
          | Some tg => match scasts tg c (casts ++ [t]) with
                       | Some c' => Some ((dst, SI g c') :: d)
                       | None => None
                       end
          | None => None
          end
      | Some (SK (VI z)), Some t => Some ((dst, SK (VI (wrap t (fold_left (fun x c => wrap c x) casts z)))) :: d)
      | _, _ => None
      end
  | AsgTrue dst f =>
      match get src f, get dl dst with
      | Some (SI g None), Some _ =>
          match get ol g with
          | Some TBool => Some ((dst, SI g None) :: d)
          | _ => None
          end
      | _, _ => None
      end
  | Cpy dst f | CpyE dst f =>
      match get src f, get dl dst with
      | Some (SB g), Some _ => Some ((dst, SB g) :: d)
      | _, _ => None
      end
  | CpyN dst f =>
      match get src f, get dl dst with
      | Some (SB g), Some _ => if n then Some ((dst, SB g) :: d) else None
      | _, _ => None
      end
  | ChkBool f =>
      match get src f with
      | Some (SI g None) => match get ol g with Some TBool => Some d | _ => None end
      | _ => None
      end
  | ChkPtr _ => None
  end.

Fixpoint sym_body (n : bool) (ol dl : layout) (src d : sstore) (b : list (guard * stmt)) : option sstore :=
  match b with
  | [] => Some d
  | (g, s) :: b' =>
      match sym_guard src g with
      | Some true => match sym_stmt n ol dl src d s with Some d' => sym_body n ol dl src d' b' | None => None end
      | Some false => sym_body n ol dl src d b'
      | None => None
      end
  end.

Definition consts (s : store) : sstore := map (fun x => (fst x, SK (snd x))) s.
Definition sym_conv (n : bool) (ol : layout) (c : conv) (src : sstore) : option sstore :=
  sym_body n ol (cv_dst c) src (consts (cv_init c)) (cv_body c).

(* the symbols of a struct *)
Definition symbols (l : layout) : sstore :=
  map (fun ft => (fst ft, if isnum (snd ft) then SI (fst ft) None else SB (fst ft))) l.

(* what symbols stand for *)
Definition denotes (ol : layout) (s : store) (x : sval) (v : val) : Prop :=
  match x with
  | SI f c =>
      exists t z, get ol f = Some t /\ isnum t = true /\ get s f = Some (VI z) /\
        match c with
        | None => v = VI z
        | Some k => isint t = true /\ isint k = true /\ width t <= width k /\ v = VI (wrap k z)
        end
  | SB f => exists nn nn' bs, get s f = Some (VB nn bs) /\ v = VB nn' bs
  | SK w => v = w
  end.
Definition stands (ol : layout) (s : store) (sym : sstore) (st : store) : Prop :=
  forall f x, get sym f = Some x -> exists v, get st f = Some v /\ denotes ol s x v.

Lemma get_In : forall A (l : list (string * A)) f x, get l f = Some x -> In (f, x) l.
Proof.
  induction l as [|[k v] r IH]; cbn; intros f x H; [discriminate|].
  destruct (String.eqb k f) eqn:E.
  - apply String.eqb_eq in E. left. congruence.
  - right. apply IH. exact H.
Qed.

Lemma get_map : forall A B (h : string * A -> B) (l : list (string * A)) f,
  get (map (fun x => (fst x, h x)) l) f = match get l f with Some v => Some (h (f, v)) | None => None end.
Proof.
  induction l as [|[k v] r IH]; cbn; intros f; [reflexivity|].
  destruct (String.eqb k f) eqn:E; [|apply IH].
  apply String.eqb_eq in E. subst. reflexivity.
Qed.

Lemma typed_get : forall l s f t, typed l s -> get l f = Some t -> exists v, get s f = Some v /\ has_ty t v.
Proof. intros l s f t T G. apply (T f t). apply get_In. exact G. Qed.

Lemma has_ty_num : forall t v, isnum t = true -> has_ty t v -> exists z, v = VI z /\ lo t <= z <= hi t.
Proof. destruct t; cbn [isnum]; intros v H; try discriminate; intros T; exact T. Qed.

Lemma has_ty_bytes : forall t v, isnum t = false -> has_ty t v -> exists nn bs, v = VB nn bs.
Proof.
  destruct t; cbn [isnum]; intros v H; try discriminate; cbn [has_ty]; intros T.
  - destruct T as (nn & bs & E & _). eauto.
  - destruct T as (bs & E & _). eauto.
Qed.

Lemma symbols_stand : forall ol s, typed ol s -> stands ol s (symbols ol) s.
Proof.
  intros ol s T f x H. unfold symbols in H.
  rewrite (get_map _ _ (fun ft => if isnum (snd ft) then SI (fst ft) None else SB (fst ft)) ol f) in H.
  destruct (get ol f) as [t|] eqn:G; [|discriminate]. cbn [fst snd] in H.
  destruct (typed_get _ _ _ _ T G) as (v & V & HT).
  destruct (isnum t) eqn:N; injection H as <-; exists v; (split; [exact V|]).
  - destruct (has_ty_num _ _ N HT) as (z & -> & R). exists t, z. auto.
  - destruct (has_ty_bytes _ _ N HT) as (nn & bs & ->). exists nn, nn, bs. auto.
Qed.

Lemma consts_stand : forall ol s d, stands ol s (consts d) d.
Proof.
  intros ol s d f x H. unfold consts in H.
  rewrite (get_map _ _ (fun x => SK (snd x)) d f) in H.
  destruct (get d f) as [v|]; [|discriminate]. injection H as <-. exists v. split; reflexivity.
Qed.

Lemma stands_cons : forall ol s sym st f x v, stands ol s sym st -> denotes ol s x v ->
  stands ol s ((f, x) :: sym) ((f, v) :: st).
Proof.
  intros ol s sym st f x v H D g y G. cbn in *. destruct (String.eqb f g).
  - injection G as <-. eauto.
  - apply H. exact G.
Qed.

Lemma isint_isnum : forall t, isint t = true -> isnum t = true.
Proof. destruct t; cbn; congruence. Qed.

(* a conversion of a number that the symbols allow *)
Lemma scast_ok : forall ol s f cur c n v t,
  typed ol s -> get ol f = Some t ->
  denotes ol s (SI f cur) (VI v) -> scast t cur c = Some n -> isnum c = true ->
  denotes ol s (SI f n) (VI (wrap c v)).
Proof.
  intros ol s f cur c n v t T G (t' & z & G' & N & Z & D) S NC.
  rewrite G in G'. injection G' as <-.
  destruct (typed_get _ _ _ _ T G) as (w & W & HT). rewrite Z in W. injection W as <-.
  destruct (has_ty_num _ _ N HT) as (z' & E & R). injection E as <-.
  exists t, z. split; [exact G|]. split; [exact N|]. split; [exact Z|].
  unfold scast in S. destruct cur as [c0|].
  - destruct D as (I1 & I2 & W12 & E). injection E as ->.
    destruct (isint t && isint c0 && isint c && (width c <=? width c0) && (width t <=? width c)) eqn:B; [|discriminate].
    assert (IC : isint c = true) by (apply andb_true_iff in B; destruct B as [B _]; apply andb_true_iff in B; destruct B as [B _];
      apply andb_true_iff in B; destruct B as [_ B]; exact B).
    assert (W1 : width c <= width c0 /\ width t <= width c) by (apply andb_true_iff in B; destruct B as [B B2];
      apply andb_true_iff in B; destruct B as [B B1]; lia).
    rewrite wrap_wrap by (try assumption; lia).
    destruct (cty_eq_dec c t) as [->|NE]; injection S as <-.
    + rewrite wrap_id by assumption. reflexivity.
    + split; [assumption|]. split; [assumption|]. split; [lia|]. reflexivity.
  - injection D as ->. destruct (embeds t c) eqn:B.
    + injection S as <-. unfold embeds in B.
      assert (B' : lo c <= lo t /\ hi t <= hi c).
      { apply andb_true_iff in B. destruct B as [B B2]. apply andb_true_iff in B. destruct B as [B B1]. lia. }
      destruct (isint c) eqn:IC.
      * rewrite wrap_id by (try assumption; lia). reflexivity.
      * destruct c; try discriminate. cbn [wrap]. cbn [lo hi] in B'.
        destruct (z =? 0) eqn:E0; f_equal; lia.
    + destruct (isint t && isint c && (width t <=? width c)) eqn:B2; [|discriminate]. injection S as <-.
      apply andb_true_iff in B2. destruct B2 as [B2 B3]. apply andb_true_iff in B2. destruct B2 as [B2 B4].
      split; [assumption|]. split; [assumption|]. split; [lia|]. reflexivity.
Qed.

Lemma scast_num : forall t cur c n, scast t cur c = Some n -> isnum c = true.
Proof.
  intros t cur c n H. unfold scast in H. destruct cur as [c0|].
  - destruct (isint t && isint c0 && isint c && _ && _) eqn:B; [|discriminate].
    apply andb_true_iff in B. destruct B as [B _]. apply andb_true_iff in B. destruct B as [B _].
    apply andb_true_iff in B. destruct B as [_ B]. apply isint_isnum. exact B.
  - destruct (embeds t c) eqn:E.
    + unfold embeds in E. apply andb_true_iff in E. destruct E as [E _]. apply andb_true_iff in E. destruct E as [E _].
      apply andb_true_iff in E. tauto.
    + destruct (isint t && isint c && _) eqn:B; [|discriminate].
      apply andb_true_iff in B. destruct B as [B _]. apply andb_true_iff in B. destruct B as [_ B].
      apply isint_isnum. exact B.
Qed.

Lemma scasts_ok : forall ol s f t cs cur n v,
  typed ol s -> get ol f = Some t ->
  denotes ol s (SI f cur) (VI v) -> scasts t cur cs = Some n ->
  denotes ol s (SI f n) (VI (fold_left (fun x c => wrap c x) cs v)).
Proof.
  induction cs as [|c r IH]; cbn [scasts fold_left]; intros cur n v T G D S.
  - injection S as <-. exact D.
  - destruct (scast t cur c) as [m|] eqn:E; [|discriminate].
    apply (IH m n (wrap c v) T G); [|exact S].
    apply (scast_ok ol s f cur c m v t T G D E). eapply scast_num. exact E.
Qed.

Lemma denotes_num : forall ol s f c v, denotes ol s (SI f c) v -> exists z, v = VI z.
Proof. intros ol s f c v (t & z & _ & _ & _ & D). destruct c; [destruct D as (_ & _ & _ & ->)|subst]; eauto. Qed.

Lemma fits_firstn : forall (bs : list N), Z.of_nat (length bs) < 2 ^ 32 ->
  firstn (Z.to_nat (Z.of_nat (length bs) mod 2 ^ 32)) bs = bs.
Proof.
  intros bs H. rewrite Z.mod_small by lia. rewrite Nat2Z.id. apply firstn_all.
Qed.

Lemma sym_stmt_ok : forall n ol dl s ssrc src sd d st sd',
  typed ol s -> (n = true -> sizes_fit s) -> stands ol s ssrc src -> stands ol s sd d ->
  sym_stmt n ol dl ssrc sd st = Some sd' ->
  exists d', run_stmt dl src d st = Done d' /\ stands ol s sd' d'.
Proof.
  intros n ol dl s ssrc src sd d st sd' T F HS HD H.
  destruct st as [dst casts f|dst f|dst f|dst f|dst f|f|f]; cbn [sym_stmt] in H; cbn [run_stmt].
  - destruct (get ssrc f) as [[g c|g|w]|] eqn:G; try discriminate.
    + destruct (get dl dst) as [t|]; [|discriminate].
      destruct (get ol g) as [tg|] eqn:GO; [|discriminate].
      destruct (scasts tg c (casts ++ [t])) as [c'|] eqn:C; [|discriminate]. injection H as <-.
      destruct (HS _ _ G) as (v & V & D). destruct (denotes_num _ _ _ _ _ D) as [z ->]. rewrite V.
      eexists. split; [reflexivity|]. apply stands_cons; [exact HD|].
      pose proof (scasts_ok ol s g tg _ c c' z T GO D C) as R.
      rewrite fold_left_app in R. exact R.
    + destruct w as [z|]; [|discriminate]. destruct (get dl dst) as [t|]; [|discriminate]. injection H as <-.
      destruct (HS _ _ G) as (v & V & D). cbn in D. subst v. rewrite V.
      eexists. split; [reflexivity|]. apply stands_cons; [exact HD|reflexivity].
  - destruct (get ssrc f) as [[g [c|]|g|w]|] eqn:G; try discriminate.
    destruct (get dl dst) as [t|]; [|discriminate].
    destruct (get ol g) as [[]|] eqn:GO; try discriminate. injection H as <-.
    destruct (HS _ _ G) as (v & V & D). destruct (denotes_num _ _ _ _ _ D) as [z ->]. rewrite V.
    eexists. split; [reflexivity|]. apply stands_cons; [exact HD|].
    destruct D as (t' & z' & G' & N & Z & E). injection E as ->.
    destruct (typed_get _ _ _ _ T GO) as (w & W & HT). rewrite Z in W. injection W as <-.
    destruct HT as (z0 & E & R). injection E as <-. cbn [lo hi] in R.
    exists TBool, z'. split; [exact GO|]. split; [reflexivity|]. split; [exact Z|].
    destruct (z' =? 1) eqn:E1; f_equal; lia.
  - destruct (get ssrc f) as [[g c|g|w]|] eqn:G; try discriminate.
    destruct (get dl dst) as [t|]; [|discriminate]. injection H as <-.
    destruct (HS _ _ G) as (v & V & nn & nn' & bs & Z & ->). rewrite V.
    eexists. split; [reflexivity|]. apply stands_cons; [exact HD|]. exists nn, nn', bs. auto.
  - destruct (get ssrc f) as [[g c|g|w]|] eqn:G; try discriminate.
    destruct (get dl dst) as [t|]; [|discriminate]. destruct n; [|discriminate]. injection H as <-.
    destruct (HS _ _ G) as (v & V & nn & nn' & bs & Z & ->). rewrite V.
    eexists. split; [reflexivity|]. apply stands_cons; [exact HD|]. exists nn, nn', bs. split; [exact Z|].
    rewrite fits_firstn; [reflexivity|]. eapply (F eq_refl). exact Z.
  - destruct (get ssrc f) as [[g c|g|w]|] eqn:G; try discriminate.
    destruct (get dl dst) as [t|]; [|discriminate]. injection H as <-.
    destruct (HS _ _ G) as (v & V & nn & nn' & bs & Z & ->). rewrite V.
    eexists. split; [reflexivity|]. apply stands_cons; [exact HD|]. eexists nn, _, bs. split; [exact Z|reflexivity].
  - destruct (get ssrc f) as [[g [c|]|g|w]|] eqn:G; try discriminate.
    destruct (get ol g) as [[]|] eqn:GO; try discriminate. injection H as <-.
    destruct (HS _ _ G) as (v & V & D). destruct D as (t' & z & G' & N & Z & ->). rewrite V.
    destruct (typed_get _ _ _ _ T GO) as (w & W & HT). rewrite Z in W. injection W as <-.
    destruct HT as (z0 & E & R). injection E as <-. cbn [lo hi] in R.
    replace ((z =? 0) || (z =? 1)) with true by lia. eauto.
  - discriminate.
Qed.

Lemma sym_guard_ok : forall ol s ssrc src g b, stands ol s ssrc src -> sym_guard ssrc g = Some b ->
  guard_holds src g = Some b.
Proof.
  intros ol s ssrc src g b HS H. destruct g as [|h n|h l|f]; cbn in *.
  - exact H.
  - destruct (get ssrc h) as [[? ?|?|[z|]]|] eqn:G; try discriminate.
    destruct (HS _ _ G) as (v & V & D). cbn in D. subst. rewrite V. exact H.
  - destruct (get ssrc h) as [[? ?|?|[z|]]|] eqn:G; try discriminate.
    destruct (HS _ _ G) as (v & V & D). cbn in D. subst. rewrite V. exact H.
  - discriminate.
Qed.

Lemma sym_body_ok : forall n ol dl s ssrc src b sd d sd',
  typed ol s -> (n = true -> sizes_fit s) -> stands ol s ssrc src -> stands ol s sd d ->
  sym_body n ol dl ssrc sd b = Some sd' ->
  exists d', run_body dl src d b = Done d' /\ stands ol s sd' d'.
Proof.
  induction b as [|[g st] b IH]; cbn [sym_body run_body]; intros sd d sd' T F HS HD H.
  - injection H as <-. eauto.
  - destruct (sym_guard ssrc g) as [[]|] eqn:G; [| |discriminate].
    + rewrite (sym_guard_ok _ _ _ _ _ _ HS G).
      destruct (sym_stmt n ol dl ssrc sd st) as [sd1|] eqn:S; [|discriminate].
      destruct (sym_stmt_ok _ _ _ _ _ _ _ _ _ _ T F HS HD S) as (d1 & R & HD1). rewrite R.
      apply (IH _ _ _ T F HS HD1 H).
    + rewrite (sym_guard_ok _ _ _ _ _ _ HS G). apply (IH _ _ _ T F HS HD H).
Qed.

Lemma sym_conv_ok : forall n ol c s ssrc src sd,
  typed ol s -> (n = true -> sizes_fit s) -> stands ol s ssrc src -> sym_conv n ol c ssrc = Some sd ->
  exists d, run_conv c src = Done d /\ stands ol s sd d.
Proof.
  intros n ol c s ssrc src sd T F HS H.
  apply (sym_body_ok _ _ _ _ _ _ _ _ _ _ T F HS (consts_stand ol s (cv_init c)) H).
Qed.

(* ------------------------------------------------------------------ *)
(** * What is checked of the symbols *)

(* the field [g] of the result, of type [tg], holds the field [f] of the source, of type [t] *)
Definition carries (sd : sstore) (f g : string) (t tg : cty) : bool :=
  match get sd g with
  | Some (SI f' None) => String.eqb f' f && isnum t && embeds t tg
  | Some (SI f' (Some c)) => String.eqb f' f && isint tg && (if cty_eq_dec c tg then true else false)
  | Some (SB f') => String.eqb f' f && negb (isnum t)
  | _ => false
  end.

Lemma carries_ok : forall ol s sd d f g t tg, typed ol s -> get ol f = Some t -> stands ol s sd d ->
  carries sd f g t tg = true ->
  exists v w, get s f = Some v /\ get d g = Some w /\ holds tg v w.
Proof.
  intros ol s sd d f g t tg T G HS H. unfold carries in H.
  destruct (get sd g) as [[f' [c|]|f'|w]|] eqn:E; try discriminate;
    destruct (HS _ _ E) as (w & W & D).
  - apply andb_true_iff in H. destruct H as [H1 H2]. apply andb_true_iff in H1. destruct H1 as [H1 H3].
    apply String.eqb_eq in H1. subst f'. destruct (cty_eq_dec c tg) as [->|]; [|discriminate].
    destruct D as (t' & z & G' & N & Z & I1 & I2 & W2 & ->).
    exists (VI z), (VI (wrap tg z)). split; [exact Z|]. split; [exact W|]. apply wrap_as_type. exact H3.
  - apply andb_true_iff in H. destruct H as [H1 H2]. apply andb_true_iff in H1. destruct H1 as [H1 H3].
    apply String.eqb_eq in H1. subst f'.
    destruct D as (t' & z & G' & N & Z & ->).
    destruct (typed_get _ _ _ _ T G) as (w & Y & HT). rewrite Z in Y. injection Y as <-.
    destruct (has_ty_num _ _ H3 HT) as (z0 & X & R). injection X as <-.
    exists (VI z), (VI z). split; [exact Z|]. split; [exact W|]. apply as_type_id.
    unfold embeds in H2. apply andb_true_iff in H2. destruct H2 as [H2 H4]. apply andb_true_iff in H2. lia.
  - apply andb_true_iff in H. destruct H as [H1 H2]. apply String.eqb_eq in H1. subst f'.
    destruct D as (nn & nn' & bs & Z & ->).
    exists (VB nn bs), (VB nn' bs). split; [exact Z|]. split; [exact W|]. reflexivity.
Qed.

Definition exact_field (sd : sstore) (f : string) : bool :=
  match get sd f with
  | Some (SI f' None) => String.eqb f' f
  | Some (SB f') => String.eqb f' f
  | _ => false
  end.

Lemma exact_ok : forall ol s sd d f, stands ol s sd d -> exact_field sd f = true ->
  exists v w, get s f = Some v /\ get d f = Some w /\ same v w.
Proof.
  intros ol s sd d f HS H. unfold exact_field in H.
  destruct (get sd f) as [[f' [c|]|f'|w]|] eqn:E; try discriminate;
    destruct (HS _ _ E) as (w & W & D); apply String.eqb_eq in H; subst f'.
  - destruct D as (t' & z & G' & N & Z & ->). exists (VI z), (VI z). repeat split; assumption.
  - destruct D as (nn & nn' & bs & Z & ->). exists (VB nn bs), (VB nn' bs). repeat split; assumption.
Qed.

Definition is_const (sd : sstore) (h : string) (z : Z) : bool :=
  match get sd h with Some (SK (VI y)) => y =? z | _ => false end.

Lemma is_const_ok : forall ol s sd d h z, stands ol s sd d -> is_const sd h z = true -> get d h = Some (VI z).
Proof.
  intros ol s sd d h z HS H. unfold is_const in H.
  destruct (get sd h) as [[? ?|?|[y|]]|] eqn:E; try discriminate.
  destruct (HS _ _ E) as (w & W & D). cbn in D. subst. rewrite W. f_equal. f_equal. lia.
Qed.

(* every field appears once *)
Definition nodups {A} (l : list (string * A)) : bool :=
  (fix go (seen : list string) (l : list (string * A)) :=
     match l with
     | [] => true
     | (f, _) :: r => negb (existsb (String.eqb f) seen) && go (f :: seen) r
     end) [] l.

Definition check_there_and_back (p : pair) : bool :=
  match sym_conv (p_narrow p) (p_x p) (p_out p) (symbols (p_x p)) with
  | Some c => match sym_conv false (p_x p) (p_in p) c with
              | Some r => forallb (fun ft => exact_field r (fst ft)) (p_x p)
              | None => false
              end
  | None => false
  end.

Definition check_to_c (p : pair) : bool :=
  match sym_conv (p_narrow p) (p_x p) (p_out p) (symbols (p_x p)) with
  | Some c => forallb (fun ft =>
                match get (p_x p) (fst ft), get (p_c p) (c_name p (fst ft)) with
                | Some t, Some tg => carries c (fst ft) (c_name p (fst ft)) t tg
                | _, _ => false
                end) (p_x p)
  | None => false
  end.

Definition check_headers (p : pair) : bool :=
  match sym_conv (p_narrow p) (p_x p) (p_out p) (symbols (p_x p)) with
  | Some c => forallb (fun hi => is_const c (fst hi) (struct_id (snd hi))) (p_headers p)
              && forallb (fun ft => match get c (fst ft) with Some _ => true | None => false end) (p_c p)
  | None => false
  end.

Lemma Forall_forallb : forall A (P : A -> bool) l x, forallb P l = true -> In x l -> P x = true.
Proof. intros A P l x H I. rewrite forallb_forall in H. apply H. exact I. Qed.

Lemma there_and_back : forall p, check_there_and_back p = true -> forall s, typed (p_x p) s ->
  (p_narrow p = true -> sizes_fit s) ->
  exists c r, run_conv (p_out p) s = Done c /\ run_conv (p_in p) c = Done r /\
    forall f t, In (f, t) (p_x p) -> exists v w, get s f = Some v /\ get r f = Some w /\ same v w.
Proof.
  intros p H s T F. unfold check_there_and_back in H.
  destruct (sym_conv (p_narrow p) (p_x p) (p_out p) (symbols (p_x p))) as [sc|] eqn:E1; [|discriminate].
  destruct (sym_conv false (p_x p) (p_in p) sc) as [sr|] eqn:E2; [|discriminate].
  destruct (sym_conv_ok _ _ _ s _ s _ T F (symbols_stand _ _ T) E1) as (c & R1 & S1).
  destruct (sym_conv_ok false _ _ s _ c _ T ltac:(intros X; discriminate X) S1 E2) as (r & R2 & S2).
  exists c, r. split; [exact R1|]. split; [exact R2|]. intros f t I.
  apply (exact_ok _ _ _ _ _ S2). apply (Forall_forallb _ _ _ (f, t) H I).
Qed.

Lemma to_c : forall p, check_to_c p = true -> forall s, typed (p_x p) s ->
  (p_narrow p = true -> sizes_fit s) ->
  exists c, run_conv (p_out p) s = Done c /\
    forall f t, In (f, t) (p_x p) -> exists tg v w,
      get (p_c p) (c_name p f) = Some tg /\ get s f = Some v /\ get c (c_name p f) = Some w /\ holds tg v w.
Proof.
  intros p H s T F. unfold check_to_c in H.
  destruct (sym_conv (p_narrow p) (p_x p) (p_out p) (symbols (p_x p))) as [sc|] eqn:E1; [|discriminate].
  destruct (sym_conv_ok _ _ _ s _ s _ T F (symbols_stand _ _ T) E1) as (c & R1 & S1).
  exists c. split; [exact R1|]. intros f t I.
  pose proof (Forall_forallb _ _ _ (f, t) H I) as K. cbn [fst] in K.
  destruct (get (p_x p) f) as [t0|] eqn:G0; [|discriminate].
  destruct (get (p_c p) (c_name p f)) as [tg|] eqn:G1; [|discriminate].
  destruct (carries_ok _ _ _ _ _ _ _ _ T G0 S1 K) as (v & w & V & W & X). exists tg, v, w. auto.
Qed.

Lemma to_c_headers : forall p, check_headers p = true -> forall s, typed (p_x p) s ->
  (p_narrow p = true -> sizes_fit s) ->
  exists c, run_conv (p_out p) s = Done c /\
    (forall h i, In (h, i) (p_headers p) -> get c h = Some (VI (struct_id i))) /\
    (forall f t, In (f, t) (p_c p) -> exists v, get c f = Some v).
Proof.
  intros p H s T F. unfold check_headers in H.
  destruct (sym_conv (p_narrow p) (p_x p) (p_out p) (symbols (p_x p))) as [sc|] eqn:E1; [|discriminate].
  destruct (sym_conv_ok _ _ _ s _ s _ T F (symbols_stand _ _ T) E1) as (c & R1 & S1).
  apply andb_true_iff in H. destruct H as [H1 H2].
  exists c. split; [exact R1|]. split.
  - intros h i I. apply (is_const_ok _ _ _ _ _ _ S1). apply (Forall_forallb _ _ _ (h, i) H1 I).
  - intros f t I. pose proof (Forall_forallb _ _ _ (f, t) H2 I) as K. cbn [fst] in K.
    destruct (get sc f) as [x|] eqn:G; [|discriminate]. destruct (S1 _ _ G) as (v & V & _). eauto.
Qed.

(* ------------------------------------------------------------------ *)
(** * From C: the struct of a C program *)

(* booleans hold 0 or 1 *)
Definition bools (l : layout) : layout :=
  map (fun ft => (fst ft, match snd ft with CBool => TBool | t => t end)) l.

Definition c_symbols (p : pair) : sstore :=
  map (fun hi => (fst hi, SK (VI (struct_id (snd hi))))) (p_headers p) ++ symbols (bools (p_c p)).

Definition check_from_c (p : pair) : bool :=
  match sym_conv false (bools (p_c p)) (p_in p) (c_symbols p) with
  | Some d => forallb (fun ft =>
                match get (bools (p_c p)) (c_name p (fst ft)), get (p_x p) (fst ft) with
                | Some t, Some tg => carries d (c_name p (fst ft)) (fst ft) t tg
                | _, _ => false
                end) (p_x p)
  | None => false
  end.

Lemma bools_typed : forall l s, typed l s ->
  (forall f, In (f, CBool) l -> get s f = Some (VI 0) \/ get s f = Some (VI 1)) -> typed (bools l) s.
Proof.
  intros l s T B f t I. unfold bools in I. apply in_map_iff in I. destruct I as ((g & t0) & E & I).
  cbn [fst snd] in E. injection E as -> <-.
  destruct (T _ _ I) as (v & V & HT). exists v. split; [exact V|].
  destruct t0; try exact HT.
  destruct (B _ I) as [E|E]; rewrite E in V; injection V as <-; eexists; (split; [reflexivity|]); cbn; lia.
Qed.

Lemma get_app : forall A (a b : list (string * A)) f,
  get (a ++ b) f = match get a f with Some v => Some v | None => get b f end.
Proof.
  induction a as [|[k v] r IH]; cbn; intros b f; [reflexivity|]. destruct (String.eqb k f); [reflexivity|apply IH].
Qed.

Lemma from_c : forall p, check_from_c p = true -> forall s, c_struct p s ->
  exists d, run_conv (p_in p) s = Done d /\
    forall f t, In (f, t) (p_x p) -> exists tx v w,
      get (p_x p) f = Some tx /\ get s (c_name p f) = Some v /\ get d f = Some w /\ holds tx v w.
Proof.
  intros p H s (T & HH & B). pose proof (bools_typed _ _ T B) as TB. unfold check_from_c in H.
  destruct (sym_conv false (bools (p_c p)) (p_in p) (c_symbols p)) as [sd|] eqn:E; [|discriminate].
  assert (S : stands (bools (p_c p)) s (c_symbols p) s).
  { intros f x G. unfold c_symbols in G. rewrite get_app in G.
    rewrite (get_map _ _ (fun hi => SK (VI (struct_id (snd hi)))) (p_headers p) f) in G.
    destruct (get (p_headers p) f) as [i|] eqn:GH.
    - injection G as <-. eexists. split; [apply (HH f i), get_In; exact GH|reflexivity].
    - apply (symbols_stand _ _ TB). exact G. }
  destruct (sym_conv_ok false _ _ s _ s _ TB ltac:(intros X; discriminate X) S E) as (d & R & SD).
  exists d. split; [exact R|]. intros f t I.
  pose proof (Forall_forallb _ _ _ (f, t) H I) as K. cbn [fst] in K.
  destruct (get (bools (p_c p)) (c_name p f)) as [t0|] eqn:G0; [|discriminate].
  destruct (get (p_x p) f) as [tg|] eqn:G1; [|discriminate].
  destruct (carries_ok _ _ _ _ _ _ _ _ TB G0 SD K) as (v & w & V & W & X). exists tg, v, w. auto.
Qed.

(* ------------------------------------------------------------------ *)
(** * Lists *)

Definition each_same (l : layout) (s r : store) : Prop :=
  forall f t, In (f, t) l -> exists v w, get s f = Some v /\ get r f = Some w /\ same v w.

Lemma run_all_ok : forall (P Q : store -> Prop) (R : store -> store -> Prop) c l,
  (forall s, P s -> exists d, run_conv c s = Done d /\ R s d) -> Forall P l ->
  exists ds, run_all c l = Done ds /\ Forall2 R l ds.
Proof.
  intros P Q R c l H. induction l as [|s r IH]; cbn; intros F; [eauto|].
  inversion F as [|? ? F1 F2]; subst. destruct (H s F1) as (d & -> & RD). destruct (IH F2) as (ds & -> & RS).
  eauto.
Qed.

Lemma Forall2_len : forall A B (R : A -> B -> Prop) l l', Forall2 R l l' -> length l = length l'.
Proof. induction 1; cbn; congruence. Qed.

Lemma lists_there_and_back : forall p narrow, check_there_and_back p = true -> p_narrow p = false ->
  forall l, Forall (typed (p_x p)) l -> (narrow = true -> Z.of_nat (length l) < 2 ^ 32) ->
  exists n cs rs, list_out narrow (p_out p) l = Done (n, cs) /\ list_in (p_in p) n cs = Done rs /\
    Forall2 (each_same (p_x p)) l rs.
Proof.
  intros p narrow H NN l F LN.
  assert (X : exists cs, run_all (p_out p) l = Done cs /\
    Forall2 (fun s c => exists r, run_conv (p_in p) c = Done r /\ each_same (p_x p) s r) l cs).
  { apply (run_all_ok (typed (p_x p)) (fun _ => True)); [|exact F]. intros s T.
    destruct (there_and_back p H s T ltac:(congruence)) as (c & r & A & B & C). exists c. split; [exact A|]. exists r. auto. }
  destruct X as (cs & E & F2). pose proof (Forall2_len _ _ _ _ _ F2) as L.
  assert (Y : exists rs, run_all (p_in p) cs = Done rs /\ Forall2 (each_same (p_x p)) l rs).
  { clear -F2. induction F2 as [|s c l cs (r & A & B) F IH]; cbn; [eauto|].
    destruct IH as (rs & -> & C). rewrite A. eauto. }
  destruct Y as (rs & E2 & F3).
  unfold list_out. rewrite E.
  assert (N : (if narrow then Z.of_nat (length cs) mod 2 ^ 32 else Z.of_nat (length cs)) = Z.of_nat (length cs)).
  { destruct narrow; [|reflexivity]. apply Z.mod_small. specialize (LN eq_refl). rewrite L in LN. lia. }
  cbv zeta. rewrite N. exists (Z.of_nat (length cs)), cs, rs. split; [reflexivity|].
  split; [|exact F3]. unfold list_in. rewrite Z.ltb_irrefl. rewrite Nat2Z.id, firstn_all. exact E2.
Qed.
