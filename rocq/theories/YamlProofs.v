From Coq Require Import String Ascii NArith ZArith List Bool Lia.
From Verif Require Import Base TextModel TextProofs UriProofs YamlModel.
Import ListNotations.
Open Scope string_scope.
Open Scope list_scope.
Open Scope Z_scope.

(** ** Equality *)
Lemma text_eqb_eq : forall a b, text_eqb a b = true <-> a = b.
Proof. intros a b. unfold text_eqb. destruct (list_eq_dec N.eq_dec a b); split; congruence. Qed.
Lemma text_eqb_refl : forall a, text_eqb a a = true.
Proof. intros a. now apply text_eqb_eq. Qed.
Lemma list_eqb_eq : forall A (e : A -> A -> bool), (forall a b, e a b = true <-> a = b) -> forall x y, list_eqb e x y = true <-> x = y.
Proof.
  intros A e H. induction x as [|a x IH]; intros [|b y]; cbn; split; intros E; try easy.
  - apply andb_true_iff in E as [E1 E2]. apply H in E1. apply IH in E2. congruence.
  - injection E as -> ->. apply andb_true_iff. split; [now apply H|now apply IH].
Qed.
Lemma opt_eqb_eq : forall A (e : A -> A -> bool), (forall a b, e a b = true <-> a = b) -> forall x y, opt_eqb e x y = true <-> x = y.
Proof. intros A e H [a|] [b|]; cbn; split; intros E; try easy. - apply H in E. congruence. - injection E as ->. now apply H. Qed.
Lemma zeqb_eq : forall a b, Z.eqb a b = true <-> a = b. Proof. apply Z.eqb_eq. Qed.
Lemma booleqb_eq : forall a b, Bool.eqb a b = true <-> a = b. Proof. intros [] []; cbn; easy. Qed.
Ltac enum_eq := intros [] []; cbn; split; intros; congruence.
Lemma level_eqb_eq : forall a b, level_eqb a b = true <-> a = b. Proof. enum_eq. Qed.
Lemma stype_eqb_eq : forall a b, stype_eqb a b = true <-> a = b. Proof. enum_eq. Qed.
Lemma sformat_eqb_eq : forall a b, sformat_eqb a b = true <-> a = b. Proof. enum_eq. Qed.
Lemma mtype_eqb_eq : forall a b, mtype_eqb a b = true <-> a = b. Proof. enum_eq. Qed.
Lemma dir_eqb_eq : forall a b, dir_eqb a b = true <-> a = b. Proof. enum_eq. Qed.
Lemma tktype_eqb_eq : forall a b, tktype_eqb a b = true <-> a = b. Proof. enum_eq. Qed.
Lemma tctype_eqb_eq : forall a b, tctype_eqb a b = true <-> a = b. Proof. enum_eq. Qed.
Lemma aggr_eqb_eq : forall a b, aggr_eqb a b = true <-> a = b. Proof. enum_eq. Qed.
Lemma texts_eqb_eq : forall a b, list_eqb text_eqb a b = true <-> a = b. Proof. apply list_eqb_eq, text_eqb_eq. Qed.
Lemma ns_eqb_eq : forall a b, list_eqb N.eqb a b = true <-> a = b. Proof. apply list_eqb_eq, N.eqb_eq. Qed.
Lemma ot_eqb_eq : forall a b, ot_eqb a b = true <-> a = b. Proof. apply opt_eqb_eq, text_eqb_eq. Qed.
Ltac rec_eq := intros a b; rewrite !andb_true_iff.
Lemma sink_eqb_eq : forall a b, sink_eqb a b = true <-> a = b.
Proof.
  intros [f t l n d e] [f' t' l' n' d' e']. unfold sink_eqb. cbn. rewrite !andb_true_iff, stype_eqb_eq, level_eqb_eq, sformat_eqb_eq, text_eqb_eq, !ns_eqb_eq.
  split; [intros [[[[[? ?] ?] ?] ?] ?]; congruence|intros [= ]; subst; auto 10].
Qed.
Lemma logging_eqb_eq : forall a b, logging_eqb a b = true <-> a = b.
Proof.
  intros [r f l] [r' f' l']. unfold logging_eqb. cbn. rewrite !andb_true_iff, booleqb_eq, level_eqb_eq, (list_eqb_eq _ _ sink_eqb_eq).
  split; [intros [[? ?] ?]; congruence|intros [= ]; subst; auto].
Qed.
Lemma msink_eqb_eq : forall a b, msink_eqb a b = true <-> a = b.
Proof. intros [t n] [t' n']. unfold msink_eqb. cbn. rewrite andb_true_iff, mtype_eqb_eq, text_eqb_eq. split; [intros []; congruence|intros [= ]; subst; auto]. Qed.
Lemma mdf_eqb_eq : forall a b, mdf_eqb a b = true <-> a = b.
Proof.
  intros [x1 x2 x3 x4 x5 x6] [y1 y2 y3 y4 y5 y6]. unfold mdf_eqb. cbn. rewrite !andb_true_iff, !ot_eqb_eq.
  split; [intros [[[[[? ?] ?] ?] ?] ?]; congruence|intros [= ]; subst; auto 10].
Qed.
Lemma health_eqb_eq : forall a b, health_eqb a b = true <-> a = b.
Proof. intros [x y] [x' y']. unfold health_eqb. cbn. rewrite andb_true_iff, !(opt_eqb_eq _ _ zeqb_eq). split; [intros []; congruence|intros [= ]; subst; auto]. Qed.
Lemma tsink_eqb_eq : forall a b, tsink_eqb a b = true <-> a = b.
Proof. intros [t n p] [t' n' p']. unfold tsink_eqb. cbn. rewrite !andb_true_iff, !text_eqb_eq, tktype_eqb_eq. split; [intros [[] ]; congruence|intros [= ]; subst; auto]. Qed.
Lemma tsource_eqb_eq : forall a b, tsource_eqb a b = true <-> a = b.
Proof. intros [t n p] [t' n' p']. unfold tsource_eqb. cbn. rewrite !andb_true_iff, !text_eqb_eq, tctype_eqb_eq. split; [intros [[] ]; congruence|intros [= ]; subst; auto]. Qed.
Lemma tracing_eqb_eq : forall a b, tracing_eqb a b = true <-> a = b.
Proof.
  intros [x y] [x' y']. unfold tracing_eqb. cbn. rewrite andb_true_iff, (list_eqb_eq _ _ tsink_eqb_eq), (list_eqb_eq _ _ tsource_eqb_eq).
  split; [intros []; congruence|intros [= ]; subst; auto].
Qed.
Lemma includes_eqb_eq : forall a b, includes_eqb a b = true <-> a = b.
Proof. intros [x y] [x' y']. unfold includes_eqb. cbn. rewrite andb_true_iff, !texts_eqb_eq. split; [intros []; congruence|intros [= ]; subst; auto]. Qed.

(** ** Finding what was written *)
Lemma lookup_app : forall k a b, lookup k (a ++ b) = match lookup k a with Some n => Some n | None => lookup k b end.
Proof. intros k a b. induction a as [|[k' n] a IH]; cbn; [reflexivity|]. destruct (String.eqb k k'); [reflexivity|exact IH]. Qed.
Lemma lk_kv : forall k k' n, lookup k (kv k' n) = if String.eqb k k' then Some n else None.
Proof. reflexivity. Qed.
Lemma lk_opt : forall A (w : A -> node) o k k', lookup k (w_opt w o k') = if String.eqb k k' then match o with Some a => Some (w a) | None => None end else None.
Proof. intros. unfold w_opt. destruct o; cbn; [reflexivity|]. now destruct (String.eqb k k'). Qed.
Lemma lk_list : forall A (w : A -> node) l k k', lookup k (w_list w l k') = if String.eqb k k' then match l with [] => None | _ => Some (w_vec w l) end else None.
Proof. intros. unfold w_list. destruct l; cbn; [|reflexivity]. now destruct (String.eqb k k'). Qed.
Lemma lk_texts : forall l k k', lookup k (w_texts l k') = if String.eqb k k' then match l with [] => None | _ => Some (w_vec plain l) end else None.
Proof. intros. apply lk_list. Qed.
Lemma lk_str : forall s k k', lookup k (w_str s k') = if String.eqb k k' then match s with [] => None | _ => Some (plain s) end else None.
Proof. intros. unfold w_str. destruct s; cbn; [|reflexivity]. now destruct (String.eqb k k'). Qed.
Lemma lk_nd : forall A (e : A -> A -> bool) w v k k' d, lookup k (w_nd e w v k' d) = if String.eqb k k' then if e v d then None else Some (w v) else None.
Proof. intros. unfold w_nd. destruct (e v d); cbn; [|reflexivity]. now destruct (String.eqb k k'). Qed.
Lemma lk_replay : forall r k k', lookup k (w_replay_opt r k') = if String.eqb k k' then match rp_source r with [] => None | _ => Some (w_replay r) end else None.
Proof. intros. unfold w_replay_opt. destruct (rp_source r); cbn; [|reflexivity]. now destruct (String.eqb k k'). Qed.
Lemma lk_nil : forall k, lookup k [] = None. Proof. reflexivity. Qed.
Lemma none_right : forall (o : option node), match o with Some n => Some n | None => None end = o.
Proof. now intros []. Qed.
Ltac lk := rewrite ?lookup_app, ?lk_kv, ?lk_opt, ?lk_list, ?lk_texts, ?lk_str, ?lk_nd, ?lk_replay, ?lk_nil; cbn [String.eqb Ascii.eqb Bool.eqb]; rewrite ?none_right.

(** what reading a child gives *)
Definition slot {A} (rd : node -> A -> res A) (d : A) (o : option node) (v : A) : Prop := match o with Some m => rd m d = Ok v | None => v = d end.
Definition slotS {A} (rd : node -> A -> res A) (d : A) (o : option node) (v : option A) : Prop :=
  match o with Some m => exists a, v = Some a /\ rd m d = Ok a | None => v = None end.
Lemma opt_read_slot : forall A (rd : node -> A -> res A) l k d v, slot rd d (lookup k l) v -> opt_read rd (NMap l) k d = Ok v.
Proof. intros A rd l k d v H. unfold opt_read, slot in *. cbn. destruct (lookup k l); [exact H|now subst]. Qed.
Lemma opt_some_slot : forall A (rd : node -> A -> res A) d l k v, slotS rd d (lookup k l) v -> opt_some rd d (NMap l) k None = Ok v.
Proof. intros A rd d l k v H. unfold opt_some, slotS in *. cbn. destruct (lookup k l); [destruct H as (a & -> & H); now rewrite H|now subst]. Qed.
Lemma opt_int_slot : forall t l k d v, slot (fun n _ => read_checked t n) d (lookup k l) v -> opt_int t (NMap l) k d = Ok v.
Proof. intros t l k d v H. unfold opt_int, slot in *. destruct (lookup k l); [exact H|now subst]. Qed.
Lemma key_read_slot : forall A (rd : node -> A -> res A) l k d m v, lookup k l = Some m -> rd m d = Ok v -> key_read rd (NMap l) k d = Ok v.
Proof. intros A rd l k d m v H R. unfold key_read. cbn. now rewrite H. Qed.
Lemma slot_nd : forall A (e : A -> A -> bool) (rd : node -> A -> res A) w v v' d, (e v d = true -> v' = d) -> (e v d = false -> rd (w v) d = Ok v') ->
  slot rd d (if e v d then None else Some (w v)) v'.
Proof. intros. unfold slot. destruct (e v d); auto. Qed.
Lemma slot_list : forall A B (w : A -> node) (rd : node -> list B -> res (list B)) l v, (l = [] -> v = []) -> rd (w_vec w l) [] = Ok v ->
  slot rd [] (match l with [] => None | _ => Some (w_vec w l) end) v.
Proof. intros. unfold slot. destruct l; auto. Qed.
Lemma slotS_opt : forall A B (w : A -> node) (rd : node -> B -> res B) d o (f : A -> B), (forall a, o = Some a -> rd (w a) d = Ok (f a)) ->
  slotS rd d (match o with Some a => Some (w a) | None => None end) (option_map f o).
Proof. intros. unfold slotS. destruct o; cbn; [|reflexivity]. eexists. split; [reflexivity|]. now apply H. Qed.
Lemma option_map_id : forall A (o : option A), option_map (fun x => x) o = o.
Proof. now intros A []. Qed.

Lemma mapM_map : forall A B C (f : B -> res C) (w : A -> B) (g : A -> C) l, Forall (fun a => f (w a) = Ok (g a)) l -> mapM f (map w l) = Ok (map g l).
Proof. intros A B C f w g l F. induction F as [|a l H F IH]; [reflexivity|]. cbn. now rewrite H, IH. Qed.
Lemma r_vec_map : forall A (rd : node -> A -> res A) d (w : A -> node) (g : A -> A) l, Forall (fun a => rd (w a) d = Ok (g a)) l -> r_vec rd d (w_vec w l) [] = Ok (map g l).
Proof. intros. unfold r_vec, w_vec. rewrite (mapM_map _ _ _ (fun m => rd m d) w g l) by assumption. reflexivity. Qed.
Lemma slot_vec : forall A (rd : node -> A -> res A) d (w : A -> node) (g : A -> A) l, Forall (fun a => rd (w a) d = Ok (g a)) l ->
  slot (r_vec rd d) [] (match l with [] => None | _ => Some (w_vec w l) end) (map g l).
Proof. intros. apply slot_list; [now intros ->|]. now apply r_vec_map. Qed.
Lemma r_texts_plain : forall l, r_texts (w_vec plain l) [] = Ok l.
Proof. intros l. unfold r_texts. rewrite (r_vec_map _ r_text [] plain (fun x => x)); [now rewrite map_id|]. apply Forall_forall. reflexivity. Qed.
Lemma slot_texts : forall l, slot r_texts [] (match l with [] => None | _ => Some (w_vec plain l) end) l.
Proof. intros l. apply slot_list; [auto|apply r_texts_plain]. Qed.

(** ** Scalars *)
Lemma is_str_plain : forall s t, is_str (plain s) t = text_eqb s (lit t). Proof. reflexivity. Qed.
Lemma r_level_w : forall l d, r_level (w_level l) d = Ok l. Proof. now intros []. Qed.
Lemma r_channel_w : forall l d, r_channel (w_channel l) d = Ok l. Proof. now intros []. Qed.
Lemma r_clock_w : forall l d, r_clock (w_clock l) d = Ok l. Proof. now intros []. Qed.
Lemma r_txmode_w : forall l d, r_txmode (w_txmode l) d = Ok l. Proof. now intros []. Qed.
Lemma r_stype_w : forall l d, r_stype (w_stype l) d = Ok l. Proof. now intros []. Qed.
Lemma r_mtype_w : forall l d, r_mtype (w_mtype l) d = Ok l. Proof. now intros []. Qed.
Lemma r_dir_w : forall l d, r_dir (w_dir l) d = Ok l. Proof. now intros []. Qed.
Lemma r_lkind_w : forall l d, r_lkind (w_lkind l) d = Ok l. Proof. now intros []. Qed.
Lemma r_tktype_w : forall l d, r_tktype (w_tktype l) d = Ok l. Proof. now intros []. Qed.
Lemma r_tctype_w : forall l d, r_tctype (w_tctype l) d = Ok l. Proof. now intros []. Qed.
Lemma r_aggr_w : forall l d, r_aggr (w_aggr l) d = Ok l. Proof. now intros []. Qed.
Lemma r_bool_w : forall b d, r_bool (write_bool b) d = Ok b. Proof. now intros []. Qed.
Lemma read_bool_w : forall b, read_bool (write_bool b) = Ok b. Proof. now intros []. Qed.

Lemma digit_of_char : forall d, (d < 10)%N -> digit_of 10 (digit_char false d) = Some d.
Proof.
  intros d L. unfold digit_of, digit_char. destruct (d <? 10)%N eqn:E; [|lia].
  replace ((48 <=? 48 + d)%N && (48 + d <=? 57)%N) with true by lia. replace (48 + d - 48)%N with d by lia. now rewrite E.
Qed.
Lemma read_digits_fold : forall ds acc, Forall (fun d => (d < 10)%N) ds ->
  read_digits 10 acc (map (digit_char false) ds) = Some (fold_left (fun v d => (v * 10 + d)%N) ds acc).
Proof. induction ds as [|d ds IH]; intros acc F; [reflexivity|]. inversion F; subst. cbn [map read_digits]. rewrite digit_of_char by assumption. now apply IH. Qed.
Lemma read_digits_decimal : forall n, read_digits 10 0 (decimal n) = Some n.
Proof. intros n. unfold decimal. rewrite read_digits_fold by (apply digits_small; lia). f_equal. apply number_digits. lia. Qed.
Lemma digit_range : forall c, digit c = true -> (48 <= c <= 57)%N.
Proof. intros c H. unfold digit in H. lia. Qed.
Lemma magnitude_decimal : forall n, magnitude (decimal n) = Some n.
Proof.
  intros n. pose proof (decimal_digits n) as F. pose proof (read_digits_decimal n) as R. pose proof (decimal_nonempty n) as NE. destruct (decimal n) as [|c [|p r]]; [now elim NE|exact R|].
  inversion F as [|? ? D F']; subst. inversion F' as [|? ? D' F'']; subst. apply digit_range in D, D'.
  unfold magnitude. destruct (c =? 48)%N eqn:E; [|exact R].
  replace ((p =? 120)%N || (p =? 88)%N) with false by lia. replace ((p =? 98)%N || (p =? 66)%N) with false by lia. replace ((p =? 111)%N || (p =? 79)%N) with false by lia.
  apply N.eqb_eq in E. subst c. rewrite <- R. cbn [read_digits]. reflexivity.
Qed.
(** what the numeric types hold and the library reads without overflow *)
Definition holds (t : ity) (z : Z) : Prop := (if signed t then - hi t else 0) <= z <= hi t.
Lemma bits_pos : forall t, 0 < bits t. Proof. intros []; cbn; lia. Qed.
Lemma hi_unsigned : forall t, signed t = false -> hi t = 2 ^ bits t - 1. Proof. intros t H. unfold hi. now rewrite H. Qed.
Lemma conv_holds : forall t p, holds t (value p) -> (signed t = false -> fst p = false) -> conv t p = Ok (value p).
Proof.
  intros t [neg m] H NS. unfold conv, holds, value in *. cbn [fst snd] in *. destruct (signed t) eqn:E.
  - destruct (hi t <? Z.of_N m) eqn:L; [|reflexivity]. destruct neg; lia.
  - rewrite NS by reflexivity. rewrite NS in H by reflexivity. rewrite hi_unsigned in H by exact E. rewrite Z.mod_small by lia. reflexivity.
Qed.
Definition int_text (z : Z) : text := if z <? 0 then 45%N :: decimal (Z.to_N (- z)) else decimal (Z.to_N z).
Lemma write_int_eq : forall z, write_int z = plain (int_text z). Proof. reflexivity. Qed.
Lemma scan_int_text : forall t z, holds t z -> exists p, scan_int (signed t) (int_text z) = Some p /\ value p = z /\ (signed t = false -> fst p = false).
Proof.
  intros t z H. unfold int_text. destruct (z <? 0) eqn:E.
  - unfold holds in H. destruct (signed t) eqn:S; [|lia]. unfold scan_int. cbn [N.eqb Pos.eqb]. rewrite magnitude_decimal. eexists. repeat split; [|easy]. unfold value. cbn. lia.
  - exists (false, Z.to_N z). split; [|split; [unfold value; cbn; lia|reflexivity]].
    unfold scan_int. pose proof (decimal_digits (Z.to_N z)) as F. pose proof (magnitude_decimal (Z.to_N z)) as M. destruct (decimal (Z.to_N z)) as [|c r]; [discriminate|].
    inversion F as [|? ? D F']; subst. apply digit_range in D. replace (c =? 45)%N with false by lia. now rewrite M.
Qed.
Lemma int_text_cons : forall z, exists c r, int_text z = c :: r /\ (c =? 43)%N = false.
Proof.
  intros z. unfold int_text. destruct (z <? 0); [now exists 45%N, (decimal (Z.to_N (- z)))|].
  pose proof (decimal_digits (Z.to_N z)) as F. pose proof (decimal_nonempty (Z.to_N z)) as NE. destruct (decimal (Z.to_N z)) as [|c r]; [easy|].
  exists c, r. split; [reflexivity|]. inversion F as [|? ? D F']; subst. apply digit_range in D. lia.
Qed.
Lemma read_int_w : forall t z, holds t z -> read_int t (write_int z) = Ok z.
Proof.
  intros t z H. rewrite write_int_eq. destruct (scan_int_text t z H) as (p & S & V & NS). destruct (int_text_cons z) as (c & r & E & P).
  unfold read_int, arith, plain. rewrite E, P. cbn [andb]. rewrite <- E, S, <- V. apply conv_holds; [now rewrite V|exact NS].
Qed.
Lemma holds_fits : forall t z, holds t z -> fits t z = true.
Proof. intros t z. unfold holds, fits, lo. destruct t; cbn; lia. Qed.
Lemma read_checked_w : forall t z, holds t z -> read_checked t (write_int z) = Ok z.
Proof.
  intros t z H. rewrite write_int_eq. destruct (scan_int_text t z H) as (p & S & V & NS). unfold read_checked, plain. rewrite S, V, holds_fits by exact H.
  rewrite <- V. apply conv_holds; [now rewrite V|exact NS].
Qed.
