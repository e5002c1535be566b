From Coq Require Import String Ascii NArith List Arith Bool Lia.
From Verif Require Import Base TextModel TextSpec TextProofs.
Import ListNotations.
Open Scope N_scope.
Open Scope list_scope.

(** ** Percent-encoding *)
Lemma hex2 : forall n, n < 256 -> hex false 2 n = [digit_char false (n / 16); digit_char false (n mod 16)].
Proof. intros n L. rewrite hex_fixed by (cbn; lia). cbn [fixed app map]. rewrite (N.mod_small (n / 16) 16) by (apply N.div_lt_upper_bound; lia). reflexivity. Qed.
Lemma url_decode_encode : forall s, bytes_ok s -> url_decode (url_encode s) = Some s.
Proof.
  intros s B. unfold url_encode. induction B as [|c s L B IH]; [reflexivity|]. cbn [flat_map]. destruct (letter c || digit c) eqn:E.
  - cbn [app url_decode]. destruct (c =? 37) eqn:F; [apply N.eqb_eq in F; subst; discriminate|]. now rewrite IH.
  - rewrite hex2 by exact L. cbn [app url_decode N.eqb Pos.eqb]. rewrite !hex_value_digit, IH by (apply N.div_lt_upper_bound || apply N.mod_lt; lia). do 2 f_equal. pose proof (N.div_mod' c 16). lia.
Qed.
Lemma url_encode_chars : forall s, bytes_ok s -> Forall (fun c => c = 37 \/ In c alnum_chars) (url_encode s).
Proof.
  intros s B. unfold url_encode. induction B as [|c s L B IH]; [constructor|]. cbn [flat_map]. apply Forall_app. split; [|exact IH]. destruct (letter c || digit c) eqn:E.
  - constructor; [|constructor]. right. now apply alnum_iff.
  - constructor; [now left|]. apply (hex_all false 1); [|cbn; lia]. intros d H. right. apply alnum_iff. now apply digit_char_safe.
Qed.

(** ** Simulation names *)
Definition dbl (s : text) : Prop := exists a b, s = a ++ [47; 47] ++ b.
Lemma dbl_cons : forall c r, dbl (c :: r) <-> (c = 47 /\ exists r', r = 47 :: r') \/ dbl r.
Proof.
  intros c r. split.
  - intros (a & b & E). destruct a as [|x a]; cbn in E; injection E as -> E; [left; split; [reflexivity|]; now exists b|right; now exists a, b].
  - intros [(-> & r' & ->)|(a & b & ->)]; [now exists [], r'|now exists (c :: a), b].
Qed.
Definition starts_slash (r : text) : bool := match r with x :: _ => x =? 47 | [] => false end.
Lemma name_eq : forall first ch r, simulation_name first (ch :: r) =
  if ch =? 47 then (if starts_slash r then None else match simulation_name false r with None => None | Some t => Some (if first then t else ch :: t) end)
  else if letter ch || digit ch || symbol ch then option_map (cons ch) (simulation_name false r) else None.
Proof.
  intros first ch r. cbn [simulation_name]. destruct (ch =? 47); [|reflexivity]. destruct r as [|x r]; [reflexivity|]. cbn [starts_slash].
  destruct x as [|x]; [reflexivity|]. do 6 (try destruct x as [x|x|]; try reflexivity).
Qed.
Lemma starts_slash_iff : forall r, starts_slash r = true <-> exists r', r = 47 :: r'.
Proof. intros [|x r]; cbn; [split; [discriminate|intros (? & H); discriminate]|]. rewrite N.eqb_eq. split; [intros ->; now exists r|intros (r' & H); congruence]. Qed.
Lemma valid_cons : forall c r, valid_name (c :: r) <-> (c = 47 /\ starts_slash r = false \/ In c safe_chars) /\ valid_name r.
Proof.
  intros c r. unfold valid_name. fold (dbl (c :: r)) (dbl r). rewrite dbl_cons, Forall_cons_iff. rewrite <- starts_slash_iff.
  assert (N47 : ~ In 47 safe_chars) by (rewrite <- safe_iff; cbn; discriminate). destruct (starts_slash r) eqn:E; split.
  - intros ((C & F) & D). split; [|split; [exact F|tauto]]. destruct C as [->|C]; [exfalso; apply D; left; now split|now right].
  - intros (C & F & D). split; [split; [|exact F]|].
    + destruct C as [[_ C]|C]; [discriminate|now right].
    + intros [[-> _]|H]; [|now apply D]. destruct C as [[_ C]|C]; [discriminate|contradiction].
  - intros ((C & F) & D). split; [|split; [exact F|tauto]]. destruct C as [->|C]; [left; now split|now right].
  - intros (C & F & D). split; [split; [|exact F]|]; [tauto|]. intros [[_ H]|H]; [discriminate|now apply D].
Qed.
Lemma valid_nil : valid_name [].
Proof. split; [constructor|]. intros (a & b & E). destruct a; discriminate. Qed.
Lemma name_spec : forall s, (valid_name s -> simulation_name false s = Some s /\ simulation_name true s = Some (without_slash s)) /\ (~ valid_name s -> simulation_name false s = None /\ simulation_name true s = None).
Proof.
  assert (N47 : ~ In 47 safe_chars) by (rewrite <- safe_iff; cbn; discriminate).
  induction s as [|c r IH]; [split; [now split|intros H; exfalso; apply H; exact valid_nil]|]. rewrite valid_cons, !name_eq. unfold without_slash. destruct (c =? 47) eqn:E.
  - apply N.eqb_eq in E. subst. destruct (starts_slash r); split; intros H; try (split; reflexivity).
    + destruct H as [[[_ H]|H] _]; [discriminate|contradiction].
    + destruct H as [_ H]. apply (proj1 IH) in H as [H _]. now rewrite H.
    + assert (V : ~ valid_name r) by (intros V; apply H; split; [left; now split|exact V]). apply (proj2 IH) in V as [V _]. now rewrite V.
  - apply N.eqb_neq in E. destruct (letter c || digit c || symbol c) eqn:S; split; intros H.
    + destruct H as [_ H]. apply (proj1 IH) in H as [H _]. now rewrite H.
    + assert (V : ~ valid_name r) by (intros V; apply H; split; [right; now apply safe_iff|exact V]). apply (proj2 IH) in V as [V _]. now rewrite V.
    + destruct H as [[[H _]|H] _]; [contradiction|]. apply safe_iff in H. congruence.
    + now split.
Qed.
Lemma valid_dec : forall s, valid_name s \/ ~ valid_name s.
Proof.
  induction s as [|c r IH]; [left; exact valid_nil|]. rewrite valid_cons. destruct IH as [IH|IH]; [|right; tauto].
  destruct (in_dec N.eq_dec c safe_chars) as [I|I]; [left; tauto|]. destruct (N.eq_dec c 47) as [E|E]; [|right; tauto]. destruct (starts_slash r); [right|left; tauto]. intros [[[_ H]|H] _]; [discriminate|contradiction].
Qed.
Lemma without_slash_valid : forall s, valid_name s -> valid_name (without_slash s) /\ starts_slash (without_slash s) = false.
Proof.
  intros [|c r] V; [split; [exact valid_nil|reflexivity]|]. cbn [without_slash]. destruct (c =? 47) eqn:E.
  - apply N.eqb_eq in E. subst. apply valid_cons in V as [V1 V2]. split; [exact V2|]. destruct V1 as [[_ V1]|V1]; [exact V1|]. apply safe_iff in V1. discriminate.
  - split; [exact V|exact E].
Qed.
Lemma name_after_slash : forall t, valid_name t -> starts_slash t = false -> simulation_name true (47 :: t) = Some t.
Proof. intros t V S. rewrite name_eq. cbn [N.eqb Pos.eqb]. rewrite S. apply name_spec in V as [V _]. now rewrite V. Qed.

(** ** Ports *)
Lemma sign_eq : forall s : text, sign s =
  match s with c :: r => if c =? 45 then (true, r) else if c =? 43 then (false, r) else (false, s) | [] => (false, []) end.
Proof. intros [|c s]; [reflexivity|]. destruct c as [|c]; [reflexivity|]. do 6 (try destruct c as [c|c|]; try reflexivity). Qed.
Lemma decimal_digits : forall n, Forall (fun c => digit c = true) (decimal n).
Proof.
  intros n. unfold decimal. apply Forall_map. pose proof (digits_small 10 n ltac:(lia)) as F. rewrite Forall_forall in *. intros d I. specialize (F d I). unfold digit_char, digit. destruct (d <? 10) eqn:E; lia.
Qed.
Lemma decimal_nonempty : forall n, decimal n <> [].
Proof. intros n H. unfold decimal in H. apply map_eq_nil in H. now apply digits_nonempty in H. Qed.
Lemma take_all : forall f s, Forall (fun c => f c = true) s -> take_while f s = s.
Proof. intros f s F. induction F as [|c s H F IH]; [reflexivity|]. cbn [take_while]. now rewrite H, IH. Qed.
Lemma read_decimal : forall p, p < 65536 -> read_u16 (decimal p) = Some p.
Proof.
  intros p L. pose proof (decimal_digits p) as F. pose proof (decimal_nonempty p) as NE. unfold read_u16.
  assert (X : drop_while space (decimal p) = decimal p /\ sign (decimal p) = (false, decimal p)).
  { destruct (decimal p) as [|c r]; [now destruct NE|]. pose proof (Forall_inv F) as D. unfold digit in D. cbn [drop_while]. unfold space. split.
    - replace ((c =? 32) || (9 <=? c) && (c <=? 13)) with false by lia. reflexivity.
    - rewrite sign_eq. replace (c =? 45) with false by lia. replace (c =? 43) with false by lia. reflexivity. }
  destruct X as [X1 X2]. rewrite X1, X2, (take_all _ _ F). destruct (decimal p) as [|c r] eqn:E; [now destruct NE|]. rewrite <- E.
  assert (V : number 10 (map (fun c => c - 48) (decimal p)) = p).
  { unfold decimal. rewrite map_map. rewrite <- (number_digits 10 p) at 2 by lia. f_equal. rewrite <- map_id. apply map_ext_in. intros d I. pose proof (digits_small 10 p ltac:(lia)) as S. rewrite Forall_forall in S. specialize (S d I). unfold digit_char. destruct (d <? 10) eqn:D; lia. }
  rewrite V. replace (p <=? 65535) with true by lia. reflexivity.
Qed.
Lemma read_u16_lt : forall s p, read_u16 s = Some p -> p < 65536.
Proof.
  intros s p. unfold read_u16. destruct (sign (drop_while space s)) as [neg t]. destruct (take_while digit t) as [|c r]; [discriminate|].
  destruct (number 10 (map (fun c => c - 48) (c :: r)) <=? 65535) eqn:E; [|discriminate]. intros H. injection H as <-. destruct neg; [apply N.mod_lt; discriminate|apply N.leb_le in E; change 65536 with (N.succ 65535); now apply N.lt_succ_r].
Qed.

(** ** Searching *)
Lemma find_scheme : forall a rest, ~ In 58 a -> find_text (lit "://") (a ++ lit "://" ++ rest) = Some (length a).
Proof.
  induction a as [|x a IH]; intros rest N; [reflexivity|]. cbn [app]. change (lit "://") with [58; 47; 47] in *. cbn [find_text starts]. destruct (58 =? x) eqn:E; [apply N.eqb_eq in E; exfalso; apply N; now left|]. cbn [andb]. rewrite IH; [reflexivity|]. intros I. apply N. now right.
Qed.
Lemma rfind_none : forall c s, rfind_char c s = None <-> ~ In c s.
Proof.
  induction s as [|x s IH]; [split; [intros _ []|reflexivity]|]. cbn [rfind_char]. destruct (rfind_char c s); split; intros H; try discriminate.
  - exfalso. apply H. right. destruct (in_dec N.eq_dec c s) as [I|I]; [exact I|]. apply IH in I. discriminate.
  - destruct (x =? c) eqn:E; [discriminate|]. apply N.eqb_neq in E. intros [I|I]; [congruence|]. now apply (proj1 IH).
  - destruct (x =? c) eqn:E; [apply N.eqb_eq in E; exfalso; apply H; now left|reflexivity].
Qed.
Lemma rfind_last : forall c a b, ~ In c b -> rfind_char c (a ++ c :: b) = Some (length a).
Proof.
  induction a as [|x a IH]; intros b N; cbn [app rfind_char length].
  - rewrite (proj2 (rfind_none c b) N), N.eqb_refl. reflexivity.
  - now rewrite IH.
Qed.
Lemma rfind_some : forall c s i, rfind_char c s = Some i -> s = firstn i s ++ c :: skipn (S i) s /\ ~ In c (skipn (S i) s).
Proof.
  induction s as [|x s IH]; intros i H; [discriminate|]. cbn [rfind_char] in H. destruct (rfind_char c s) as [j|] eqn:F.
  - injection H as <-. destruct (IH j eq_refl) as [A B]. cbn [firstn skipn app]. split; [now f_equal|exact B].
  - destruct (x =? c) eqn:E; [|discriminate]. apply N.eqb_eq in E. injection H as <-. subst. cbn. split; [reflexivity|]. now apply rfind_none.
Qed.
Lemma not_in_decimal : forall c p, digit c = false -> ~ In c (decimal p).
Proof. intros c p D I. pose proof (decimal_digits p) as F. rewrite Forall_forall in F. specialize (F c I). congruence. Qed.

(** ** Parsing what was made *)
Definition type_of (scheme : text) : utype :=
  if text_eqb scheme (lit "tcp") then TcpUri else if text_eqb scheme (lit "silkit") then SilKitUri
  else if text_eqb scheme (lit "local") then LocalUri else Undefined.
Lemma firstn_app_exact : forall (A : Type) (a b : list A), firstn (length a) (a ++ b) = a.
Proof. intros. rewrite firstn_app, Nat.sub_diag, firstn_all. cbn. now rewrite app_nil_r. Qed.
Lemma skipn_app_exact : forall (A : Type) (a b : list A), skipn (length a) (a ++ b) = b.
Proof. intros. rewrite skipn_app, Nat.sub_diag, skipn_all. reflexivity. Qed.
Lemma parse_host_port : forall scheme host p path, ~ In 58 scheme -> type_of scheme <> LocalUri -> host <> [] -> ~ In 47 host -> p < 65536 ->
  (path = [] \/ exists t, path = 47 :: t /\ valid_name t /\ starts_slash t = false) ->
  parse (scheme ++ lit "://" ++ host ++ [58] ++ decimal p ++ path) =
  Ok (mkUri (type_of scheme) scheme host (Some p) (without_slash path) (scheme ++ lit "://" ++ host ++ [58] ++ decimal p ++ path)).
Proof.
  intros scheme host p path NS NL NH SH LP HP. unfold parse. rewrite find_scheme by exact NS. rewrite firstn_app_exact. replace (length scheme + 3)%nat with (length (scheme ++ lit "://")) by (rewrite app_length; reflexivity).
  rewrite (app_assoc scheme (lit "://")), skipn_app_exact. fold (type_of scheme).
  assert (M : forall (A : Type) (x y : A), match type_of scheme with LocalUri => x | _ => y end = y) by (intros; destruct (type_of scheme); [reflexivity|reflexivity|reflexivity|now destruct NL]).
  rewrite M. change (lit "/") with [47].
  assert (ND : ~ In 47 (host ++ [58] ++ decimal p)) by (rewrite !in_app_iff; cbn; intros [I|[[I|[]]|I]]; [contradiction|discriminate|now apply not_in_decimal in I]).
  assert (X : match find_text [47] (host ++ [58] ++ decimal p ++ path) with None => Some [] | Some i => simulation_name true (skipn i (host ++ [58] ++ decimal p ++ path)) end = Some (without_slash path) /\
              match find_text [47] (host ++ [58] ++ decimal p ++ path) with None => host ++ [58] ++ decimal p ++ path | Some i => firstn i (host ++ [58] ++ decimal p ++ path) end = host ++ [58] ++ decimal p).
  { destruct HP as [->|(t & -> & V & S)].
    - rewrite app_nil_r. rewrite (proj2 (find_char_none 47 _) ND). now split.
    - replace (host ++ [58] ++ decimal p ++ 47 :: t) with ((host ++ [58] ++ decimal p) ++ 47 :: t) by now rewrite <- !app_assoc. rewrite find_char_app by exact ND. rewrite firstn_app_exact, skipn_app_exact. split; [|reflexivity]. now apply name_after_slash. }
  destruct X as [X1 X2]. rewrite X1, X2. cbn [app]. rewrite rfind_last by (now apply not_in_decimal). replace (length host + 1)%nat with (length (host ++ [58])) by (rewrite app_length; reflexivity).
  rewrite firstn_app_exact. replace (host ++ 58 :: decimal p) with ((host ++ [58]) ++ decimal p) by now rewrite <- app_assoc. rewrite skipn_app_exact, read_decimal by exact LP.
  rewrite <- !app_assoc. destruct host; [now destruct NH|reflexivity].
Qed.
Lemma make_tcp_ok : forall host p, host <> [] -> ~ In 47 host -> p < 65536 -> make_tcp host p = Ok (mkUri TcpUri (lit "tcp") host (Some p) [] (lit "tcp://" ++ host ++ [58] ++ decimal p)).
Proof.
  intros host p NH SH L. unfold make_tcp. pose proof (parse_host_port (lit "tcp") host p [] ltac:(cbn; lia) ltac:(discriminate) NH SH L (or_introl eq_refl)) as P. rewrite app_nil_r in P. exact P.
Qed.
Lemma make_silkit_ok : forall host p sim, host <> [] -> ~ In 47 host -> p < 65536 -> valid_name sim ->
  make_silkit host p sim = Ok (mkUri SilKitUri (lit "silkit") host (Some p) (without_slash sim) (lit "silkit://" ++ host ++ [58] ++ decimal p ++ [47] ++ without_slash sim)).
Proof.
  intros host p sim NH SH L V. unfold make_silkit. destruct (proj1 (name_spec sim) V) as [_ E]. rewrite E. destruct (without_slash_valid sim V) as [V' S'].
  pose proof (parse_host_port (lit "silkit") host p (47 :: without_slash sim) ltac:(cbn; lia) ltac:(discriminate) NH SH L ltac:(right; eauto)) as P. exact P.
Qed.
Lemma make_host_port_ok : forall host p, host <> [] -> ~ In 47 host -> p < 65536 -> make_host_port host p = Ok (mkUri SilKitUri (lit "silkit") host (Some p) [] (lit "silkit://" ++ host ++ [58] ++ decimal p)).
Proof.
  intros host p NH SH L. unfold make_host_port. pose proof (parse_host_port (lit "silkit") host p [] ltac:(cbn; lia) ltac:(discriminate) NH SH L (or_introl eq_refl)) as P. rewrite app_nil_r in P. exact P.
Qed.

(** ** What was parsed *)
Lemma find_char_skip : forall c s i, find_text [c] s = Some i -> skipn i s = c :: skipn (S i) s.
Proof. intros c s i F. apply find_char_some in F as (A & _ & L). rewrite A at 1. rewrite skipn_app, skipn_all2 by (rewrite firstn_length; lia). rewrite firstn_length, Nat.min_l by lia. now rewrite Nat.sub_diag. Qed.
Lemma parsed : forall s u, parse s = Ok u -> i_type u <> LocalUri ->
  i_host u <> [] /\ ~ In 47 (i_host u) /\ port u < 65536 /\ valid_name (i_path u) /\ starts_slash (i_path u) = false /\ i_str u = s.
Proof.
  intros s u P NL. unfold parse in P. destruct (find_text (lit "://") s) as [idx|]; [|discriminate]. cbv zeta in P. fold (type_of (firstn idx s)) in P. set (ty := type_of (firstn idx s)) in *. set (rest := skipn (idx + 3) s) in *. clearbody ty rest.
  destruct (match ty with LocalUri => true | _ => false end) eqn:T; [destruct ty; try discriminate; injection P as <-; now destruct NL|].
  assert (M : forall (A : Type) (x y : A), match ty with LocalUri => x | _ => y end = y) by (intros; now destruct ty). rewrite M in P. clear M T. change (lit "/") with [47] in P.
  set (hp := match find_text [47] rest with None => rest | Some i => firstn i rest end) in *.
  assert (N47 : ~ In 47 hp). { subst hp. destruct (find_text [47] rest) as [i|] eqn:F; [now apply find_char_some in F|now apply find_char_none]. }
  destruct (match find_text [47] rest with None => Some [] | Some i => simulation_name true (skipn i rest) end) as [path|] eqn:PA; [|discriminate].
  assert (VP : valid_name path /\ starts_slash path = false).
  { destruct (find_text [47] rest) as [i|] eqn:F; [|injection PA as <-; split; [exact valid_nil|reflexivity]].
    destruct (valid_dec (skipn i rest)) as [V|V]; [|apply (proj2 (name_spec _)) in V as [_ V]; congruence]. pose proof (without_slash_valid _ V) as W. apply (proj1 (name_spec _)) in V as [_ V]. rewrite V in PA. now injection PA as <-. }
  destruct VP as [VP SP]. clearbody hp. destruct (rfind_char 58 hp) as [i|] eqn:R.
  - destruct (read_u16 (skipn (i + 1) hp)) as [q|] eqn:Q; [|discriminate]. apply read_u16_lt in Q. destruct (firstn i hp) as [|c h] eqn:H; [discriminate|]. injection P as <-. cbn [i_host i_path i_str port i_port]. repeat split; auto; try discriminate; try apply VP.
    intros I. apply N47. rewrite <- H in I. rewrite <- (firstn_skipn i hp). apply in_or_app. now left.
  - destruct hp as [|c h]; [discriminate|]. injection P as <-. cbn [i_host i_path i_str]. repeat split; auto; try discriminate; try apply VP. unfold port. cbn [i_port i_type]. destruct ty; lia.
Qed.

(** ** Generated uuids *)
Lemma shiftr_land_const : forall x m k, N.shiftr (N.land x m) k = N.land (N.shiftr x k) (N.shiftr m k).
Proof. intros. apply N.shiftr_land. Qed.
Lemma lt_bits : forall x k, x < 2 ^ k -> N.land x (N.ones k) = x.
Proof. intros x k L. rewrite N.land_ones. now apply N.mod_small. Qed.
Lemma land_bound : forall x m k, m < 2 ^ k -> N.land x m < 2 ^ k.
Proof. intros x m k L. rewrite <- (lt_bits m k L), N.land_assoc. apply land_lt. Qed.
Lemma lor_bound : forall x y k, x < 2 ^ k -> y < 2 ^ k -> N.lor x y < 2 ^ k.
Proof. intros x y k Lx Ly. rewrite <- (lt_bits x k Lx), <- (lt_bits y k Ly), <- N.land_lor_distr_l. apply land_lt. Qed.
Lemma generate_ok : forall r1 r2, uuid_ok (generate r1 r2).
Proof. intros. split; apply lor_bound; try reflexivity; apply land_bound; reflexivity. Qed.
Lemma generate_version : forall r1 r2, N.land (N.shiftr (u_ab (generate r1 r2)) 12) 15 = 4.
Proof.
  intros. cbn [generate u_ab]. rewrite N.shiftr_lor, N.shiftr_land, N.land_lor_distr_l, <- N.land_assoc.
  change (N.land (N.shiftr 18446744073709490175 12) 15) with 0. now rewrite N.land_0_r.
Qed.
Lemma generate_variant : forall r1 r2, N.land (N.shiftr (u_cd (generate r1 r2)) 62) 3 = 2.
Proof.
  intros. cbn [generate u_cd]. rewrite N.shiftr_lor, N.shiftr_land, N.land_lor_distr_l, <- N.land_assoc.
  change (N.land (N.shiftr 4611686018427387903 62) 3) with 0. now rewrite N.land_0_r.
Qed.
