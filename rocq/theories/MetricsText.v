(** Reading back the text which MetricsModel.v writes: string lists and the records of a JSON file. *)
From Coq Require Import String Ascii List NArith QArith Bool Lia Arith.
From Verif Require Import Base TextModel TextSpec TextProofs UriProofs MetricsModel.
Import ListNotations.
Open Scope string_scope.
Open Scope list_scope.
Open Scope N_scope.

(** ** Readers, independent of the writers *)
Fixpoint expect (p s : text) : option text :=
  match p, s with [], _ => Some s | a :: p, b :: s => if a =? b then expect p s else None | _, [] => None end.
Definition read_number (s : text) : option (N * text) :=
  match take_while digit s with [] => None | ds => Some (number 10 (map (fun c => c - 48) ds), drop_while digit s) end.
(** a JSON list of strings; [strict] as for [read_string] *)
Fixpoint read_items (strict : bool) (fuel : nat) (s : text) : option (list text * text) :=
  match fuel with
  | O => None
  | S fuel =>
      match s with
      | 34 :: s => match read_string strict s with
                   | Some (t, 93 :: r) => Some ([t], r)
                   | Some (t, 44 :: r) => match read_items strict fuel r with Some (l, r) => Some (t :: l, r) | None => None end
                   | _ => None
                   end
      | _ => None
      end
  end.
Definition read_list (strict : bool) (s : text) : option (list text * text) :=
  match s with 91 :: 93 :: r => Some ([], r) | 91 :: r => read_items strict (length r) r | _ => None end.

Definition read_kind (s : text) : option (kind * text) :=
  match expect (lit "ATTRIBUTE") s with Some r => Some (Attribute, r) | None =>
  match expect (lit "COUNTER") s with Some r => Some (Counter, r) | None =>
  match expect (lit "STATISTIC") s with Some r => Some (Statistic, r) | None =>
  match expect (lit "STRING_LIST") s with Some r => Some (StringList, r) | None => None end end end end.
(** what a record says; the numbers of a statistic stay a text *)
Inductive rvalue := RCount (n : N) | RStat (t : text) | RList (l : list text) | RAttr (t : text).
Record rrecord := mkRec { r_time : N; r_origin : text; r_name : text; r_value : rvalue }.
Definition read_value (strict : bool) (k : kind) (s : text) : option (rvalue * text) :=
  match k with
  | Attribute => match expect (lit """") s with Some s => match read_string strict s with Some (t, r) => Some (RAttr t, r) | None => None end | None => None end
  | Counter => match read_number s with Some (n, r) => Some (RCount n, r) | None => None end
  | Statistic => Some (RStat (take_while (fun c => negb (c =? 125)) s), drop_while (fun c => negb (c =? 125)) s)
  | StringList => match read_list strict s with Some (l, r) => Some (RList l, r) | None => None end
  end.
Definition opt {A B} (x : option A) (f : A -> option B) : option B := match x with Some a => f a | None => None end.
Definition read_record (strict : bool) (s : text) : option (rrecord * text) :=
  opt (expect (lit "{""ts"":") s) (fun s => opt (read_number s) (fun x => let (ts, s) := x in
  opt (expect (lit ",""pn"":""") s) (fun s => opt (read_string strict s) (fun x => let (o, s) := x in
  opt (expect (lit ",""mn"":""") s) (fun s => opt (read_string strict s) (fun x => let (n, s) := x in
  opt (expect (lit ",""mk"":""") s) (fun s => opt (read_kind s) (fun x => let (k, s) := x in
  opt (expect (lit """,""mv"":") s) (fun s => opt (read_value strict k s) (fun x => let (v, s) := x in
  opt (expect (lit "}") s) (fun s => opt (expect [10] s) (fun s => Some (mkRec ts o n v, s))))))))))))).
Fixpoint read_records (strict : bool) (fuel : nat) (s : text) : option (list rrecord) :=
  match s with
  | [] => Some []
  | _ => match fuel with
         | O => None
         | S fuel => opt (read_record strict s) (fun x => opt (read_records strict fuel (snd x)) (fun l => Some (fst x :: l)))
         end
  end.
Definition read_file (strict : bool) (s : text) : option (list rrecord) := read_records strict (length s) s.

(** what is to be read for a metric *)
Definition meaning (F : stat -> text) (v : value) : rvalue :=
  match v with VCount n => RCount n | VStat s => RStat (F s) | VList l => RList l | VAttr t => RAttr t end.
Definition record_for (F : stat -> text) (o : text) (d : data) : rrecord := mkRec (d_time d) o (d_name d) (meaning F (d_value d)).

(** ** Reading back *)
Lemma expect_app : forall p s, expect p (p ++ s) = Some s.
Proof. induction p as [|c p IH]; intros s; [reflexivity|]. cbn. now rewrite N.eqb_refl. Qed.
Lemma take_app : forall f a b, Forall (fun c => f c = true) a -> (match b with [] => True | c :: _ => f c = false end) -> take_while f (a ++ b) = a /\ drop_while f (a ++ b) = b.
Proof.
  intros f a b H B. induction H as [|c a Hc H [IH1 IH2]]; cbn [app].
  - destruct b as [|c b]; cbn; [auto|]. now rewrite B.
  - cbn. rewrite Hc, IH1, IH2. auto.
Qed.
Lemma read_number_decimal : forall n rest, (match rest with [] => True | c :: _ => digit c = false end) -> read_number (decimal n ++ rest) = Some (n, rest).
Proof.
  intros n rest R. unfold read_number. destruct (take_app digit (decimal n) rest (decimal_digits n) R) as [E1 E2]. rewrite E1, E2.
  destruct (decimal n) as [|c r] eqn:E; [now destruct (decimal_nonempty n)|]. rewrite <- E. do 2 f_equal. unfold decimal. rewrite map_map.
  transitivity (number 10 (digits 10 n)); [|now apply number_digits]. f_equal. pose proof (digits_small 10 n ltac:(lia)) as F.
  induction (digits 10 n) as [|d l IH]; [reflexivity|]. cbn. inversion F; subst. rewrite IH by assumption. f_equal. unfold digit_char. destruct (d <? 10) eqn:L; lia.
Qed.
Definition no_control (s : text) : Prop := Forall (fun c => 32 <= c) s.
Lemma quote_char_eq : forall ch, quote_char ch = if ch =? 92 then [92; 92] else if ch =? 34 then [92; 34] else [ch].
Proof. intros [|p]; [reflexivity|]. do 7 (try destruct p as [p|p|]; try reflexivity). Qed.
Lemma read_quoted : forall strict s rest, (strict = true -> no_control s) -> read_string strict (flat_map quote_char s ++ 34 :: rest) = Some (s, rest).
Proof.
  intros strict s rest. induction s as [|c s IH]; intros H; [reflexivity|]. cbn [flat_map].
  assert (IH' : read_string strict (flat_map quote_char s ++ 34 :: rest) = Some (s, rest)) by (apply IH; intros E; exact (Forall_inv_tail (H E))).
  rewrite quote_char_eq. destruct (N.eqb_spec c 92) as [->|N1]; [cbn; now rewrite IH'|]. destruct (N.eqb_spec c 34) as [->|N2]; [cbn; now rewrite IH'|].
  cbn [app read_string]. destruct (N.eqb_spec c 34); [contradiction|]. destruct (N.eqb_spec c 92); [contradiction|]. rewrite IH'.
  destruct (strict && (c <? 32)) eqn:E; [|reflexivity]. apply andb_true_iff in E as [-> E]. pose proof (Forall_inv (H eq_refl)). cbn in *. lia.
Qed.
Lemma read_control_quoted : forall s rest, ~ no_control s -> read_string true (flat_map quote_char s ++ 34 :: rest) = None.
Proof.
  intros s rest. induction s as [|c s IH]; intros H; [exfalso; apply H; constructor|]. cbn [flat_map].
  assert (IH' : 32 <= c -> read_string true (flat_map quote_char s ++ 34 :: rest) = None) by (intros L; apply IH; intros F; apply H; now constructor).
  rewrite quote_char_eq. destruct (N.eqb_spec c 92) as [->|N1]; [cbn; rewrite IH' by lia; reflexivity|]. destruct (N.eqb_spec c 34) as [->|N2]; [cbn; rewrite IH' by lia; reflexivity|].
  cbn [app read_string]. destruct (N.eqb_spec c 34); [contradiction|]. destruct (N.eqb_spec c 92); [contradiction|]. destruct (c <? 32) eqn:E; [reflexivity|]. cbn [andb]. rewrite IH' by lia. reflexivity.
Qed.
Lemma quote_app : forall x r, quote x ++ r = 34 :: flat_map quote_char x ++ 34 :: r.
Proof. intros. unfold quote. cbn. rewrite <- app_assoc. reflexivity. Qed.
Lemma read_items_format : forall strict r x rest fuel, (strict = true -> Forall no_control (x :: r)) -> (length r < fuel)%nat ->
  read_items strict fuel (quote x ++ flat_map (fun y => 44 :: quote y) r ++ 93 :: rest) = Some (x :: r, rest).
Proof.
  intros strict r. induction r as [|y r IH]; intros x rest fuel H L; (destruct fuel as [|fuel]; [cbn in L; lia|]); rewrite quote_app; cbn [read_items].
  - cbn [flat_map app]. rewrite read_quoted; [reflexivity|]. intros E. exact (Forall_inv (H E)).
  - cbn [flat_map app]. rewrite read_quoted; [|intros E; exact (Forall_inv (H E))]. rewrite <- app_assoc. rewrite IH; [reflexivity| |cbn in L; lia]. intros E. exact (Forall_inv_tail (H E)).
Qed.
Lemma read_list_format : forall strict l rest, (strict = true -> Forall no_control l) -> read_list strict (format_list l ++ rest) = Some (l, rest).
Proof.
  intros strict l rest H. unfold format_list. destruct l as [|x r]; [reflexivity|]. cbn [app]. rewrite <- app_assoc. rewrite <- app_assoc. cbn [app].
  rewrite quote_app. unfold read_list. rewrite <- quote_app. rewrite read_items_format; [reflexivity|exact H|].
  rewrite !app_length. cbn [length]. assert (length r <= length (flat_map (fun y => 44%N :: quote y) r))%nat; [|lia]. clear H. induction r as [|y r IH]; [cbn; lia|]. cbn [flat_map length app]. rewrite app_length. lia.
Qed.
Lemma read_list_control : forall l rest, ~ Forall no_control l -> read_list true (format_list l ++ rest) = None.
Proof.
  intros l rest H. unfold format_list. destruct l as [|x r]; [exfalso; apply H; constructor|]. cbn [app]. rewrite <- app_assoc. rewrite <- app_assoc. cbn [app].
  rewrite quote_app. unfold read_list. rewrite <- quote_app. generalize (length (quote x ++ flat_map (fun y => 44%N :: quote y) r ++ 93%N :: rest)). intros fuel. revert x fuel H.
  induction r as [|y r IH]; intros x fuel H; (destruct fuel as [|fuel]; [reflexivity|]); rewrite quote_app; cbn [read_items].
  - cbn [flat_map app]. rewrite read_control_quoted; [reflexivity|]. intros X. apply H. now repeat constructor.
  - cbn [flat_map app]. assert (D : no_control x \/ ~ no_control x).
    { unfold no_control. assert (DD : forall c, {32 <= c} + {~ 32 <= c}) by (intros c; destruct (32 <=? c) eqn:E; [left|right]; lia). destruct (Forall_dec (fun c => 32 <= c) DD x) as [d|d]; auto. }
    destruct D as [D|D]; [|now rewrite read_control_quoted]. rewrite read_quoted by auto. rewrite <- app_assoc. rewrite IH; [reflexivity|]. intros X. apply H. now constructor.
Qed.
Definition stat_text_ok (t : text) : Prop := ~ In 125 t.
Definition values_ok (F : stat -> text) (d : data) : Prop := d_kind d = kind_of (d_value d) /\ match d_value d with VStat s => stat_text_ok (F s) | _ => True end.
(** the record contains no control character which the writers leave as it is *)
Definition plain (o : text) (d : data) : Prop :=
  Forall (fun c => ~ other_control c) o /\ Forall (fun c => ~ other_control c) (d_name d) /\
  match d_value d with VList l => Forall no_control l | VAttr t => Forall (fun c => ~ other_control c) t | _ => True end.
Lemma read_value_back : forall strict F d rest, values_ok F d -> (strict = true -> exists o, plain o d) ->
  read_value strict (d_kind d) ((match d_kind d with Attribute => lit """" ++ escape (format F (d_value d)) ++ lit """" | _ => format F (d_value d) end) ++ lit "}" ++ rest) = Some (meaning F (d_value d), lit "}" ++ rest).
Proof.
  intros strict F d rest [K V] P. rewrite K. destruct (d_value d) as [n|s|l|t] eqn:E; cbn [kind_of format meaning read_value] in *.
  - rewrite read_number_decimal; [reflexivity|reflexivity].
  - destruct (take_app (fun c => negb (c =? 125)) (F s) (lit "}" ++ rest)) as [E1 E2]; [apply Forall_forall; intros c I; destruct (N.eqb_spec c 125) as [->|]; [contradiction|reflexivity]|reflexivity|]. rewrite E1, E2. reflexivity.
  - rewrite read_list_format; [reflexivity|]. intros S. destruct (P S) as (o & _ & _ & X). now rewrite E in X.
  - rewrite <- !app_assoc. rewrite expect_app. change (lit """" ++ lit "}" ++ rest) with (34 :: lit "}" ++ rest). rewrite read_escape; [reflexivity|]. intros S. destruct (P S) as (o & _ & _ & X). now rewrite E in X.
Qed.
Lemma read_kind_back : forall k rest, read_kind (kind_text k ++ rest) = Some (k, rest).
Proof. intros [] rest; reflexivity. Qed.
Lemma read_record_back : forall strict F o d rest, values_ok F d -> (strict = true -> plain o d) ->
  read_record strict (json_line o (d_time d) (d_name d) (d_kind d) (format F (d_value d)) ++ rest) = Some (record_for F o d, rest).
Proof.
  intros strict F o d rest V P. unfold json_line, read_record. rewrite <- !app_assoc. rewrite expect_app. cbn [opt].
  rewrite read_number_decimal by reflexivity. cbn [opt]. rewrite expect_app. cbn [opt].
  change (lit """" ++ lit ",""mn"":""" ++ ?x) with (34 :: lit ",""mn"":""" ++ x).
  rewrite (read_escape strict o) by (intros S; apply (P S)). cbn [opt]. rewrite expect_app. cbn [opt].
  change (lit """" ++ lit ",""mk"":""" ++ ?x) with (34 :: lit ",""mk"":""" ++ x).
  rewrite (read_escape strict (d_name d)) by (intros S; apply (P S)). cbn [opt]. rewrite expect_app. cbn [opt].
  rewrite read_kind_back. cbn [opt]. change (lit """" ++ lit ",""mv"":" ++ ?x) with (lit """,""mv"":" ++ x). rewrite expect_app. cbn [opt].
  rewrite (read_value_back strict F d ([10] ++ rest) V) by (intros S; exists o; auto). cbn [opt]. rewrite expect_app. cbn [opt]. rewrite expect_app. reflexivity.
Qed.
Lemma read_update_back : forall strict F l o rs fuel rest, Forall (values_ok F) l -> (strict = true -> Forall (plain o) l) -> read_records strict fuel rest = Some rs ->
  read_records strict (length l + fuel) (json_update F o l ++ rest) = Some (map (record_for F o) l ++ rs).
Proof.
  intros strict F l o rs fuel rest V. induction V as [|d l Vd V IH]; intros P R; [exact R|].
  unfold json_update. cbn [flat_map length]. fold (json_update F o l). rewrite <- app_assoc.
  remember (json_line o (d_time d) (d_name d) (d_kind d) (format F (d_value d)) ++ json_update F o l ++ rest) as X eqn:EX.
  assert (RR : read_record strict X = Some (record_for F o d, json_update F o l ++ rest)) by (rewrite EX; apply read_record_back; [exact Vd|]; intros S; exact (Forall_inv (P S))).
  destruct X as [|c X]; [discriminate|]. cbn [Nat.add read_records]. rewrite RR. cbn [opt fst snd]. rewrite IH; [reflexivity| |exact R]. intros S. exact (Forall_inv_tail (P S)).
Qed.
Lemma records_fuel : forall strict f1 s l, read_records strict f1 s = Some l -> forall f2, (f1 <= f2)%nat -> read_records strict f2 s = Some l.
Proof.
  intros strict f1. induction f1 as [|f1 IH]; intros s l H f2 L.
  - destruct s; [|discriminate]. destruct f2; exact H.
  - destruct s as [|c s]; [destruct f2; exact H|]. destruct f2 as [|f2]; [lia|]. cbn [read_records] in *. destruct (read_record strict (c :: s)) as [[r rest]|]; [|discriminate]. cbn [opt fst snd] in *.
    destruct (read_records strict f1 rest) as [l'|] eqn:E; [|discriminate]. rewrite (IH _ _ E f2) by lia. exact H.
Qed.
(** a file: what the sink is told, one update after the other *)
Definition json_file (F : stat -> text) (us : list (text * list data)) : text := flat_map (fun x => json_update F (fst x) (snd x)) us.
Lemma line_length : forall F o d, (1 <= length (json_line o (d_time d) (d_name d) (d_kind d) (format F (d_value d))))%nat.
Proof. intros. unfold json_line. rewrite app_length. cbn. lia. Qed.
Lemma update_length : forall F o l, (length l <= length (json_update F o l))%nat.
Proof. intros F o l. induction l as [|d l IH]; [cbn; lia|]. unfold json_update in *. cbn [flat_map]. rewrite app_length. pose proof (line_length F o d). cbn [length]. lia. Qed.
Lemma read_file_back : forall strict F us, (forall o l, In (o, l) us -> Forall (values_ok F) l) -> (strict = true -> forall o l, In (o, l) us -> Forall (plain o) l) ->
  read_file strict (json_file F us) = Some (flat_map (fun x => map (record_for F (fst x)) (snd x)) us).
Proof.
  intros strict F us V P.
  assert (H : read_records strict (length (flat_map snd us)) (json_file F us) = Some (flat_map (fun x => map (record_for F (fst x)) (snd x)) us)).
  { induction us as [|[o l] us IH]; [reflexivity|]. unfold json_file. cbn [flat_map fst snd]. fold (json_file F us). rewrite app_length.
    apply read_update_back; [apply (V o l); now left|intros S; apply (P S o l); now left|]. apply IH; [intros o' l' I; apply (V o' l'); now right|intros S o' l' I; apply (P S o' l'); now right]. }
  unfold read_file. apply (records_fuel _ _ _ _ H). clear. induction us as [|[o l] us IH]; [cbn; lia|]. unfold json_file in *. cbn [flat_map fst snd]. rewrite !app_length. pose proof (update_length F o l). lia.
Qed.

(** ** Lines *)
Lemma escape_no_newline : forall s, ~ In 10 (escape s).
Proof.
  intros s I. unfold escape in I. apply in_flat_map in I as (c & _ & I). rewrite escape_char_eq in I.
  repeat match type of I with context [if ?x then _ else _] => destruct x eqn:?E end; cbn in I; repeat destruct I as [I|I]; try discriminate; try contradiction.
  subst c. discriminate.
Qed.
Lemma decimal_no_newline : forall n, ~ In 10 (decimal n).
Proof. intros n I. pose proof (decimal_digits n) as F. rewrite Forall_forall in F. specialize (F 10 I). discriminate. Qed.
Definition one_line (s : text) : Prop := exists t, s = t ++ [10] /\ ~ In 10 t.
Definition value_on_one_line (F : stat -> text) (v : value) : Prop :=
  match v with VStat s => ~ In 10 (F s) | VList l => Forall (fun t => ~ In 10 t) l | _ => True end.
Lemma list_no_newline : forall l, Forall (fun t => ~ In 10 t) l -> ~ In 10 (format_list l).
Proof.
  intros l H. assert (Q : forall t, ~ In 10 t -> ~ In 10 (quote t)).
  { intros t N I. unfold quote in I. destruct I as [I|I]; [discriminate|]. apply in_app_iff in I as [I|[I|[]]]; [|discriminate]. apply in_flat_map in I as (c & I & J). rewrite quote_char_eq in J.
    destruct (c =? 92); [repeat destruct J as [J|J]; discriminate || contradiction|]. destruct (c =? 34); [repeat destruct J as [J|J]; discriminate || contradiction|]. destruct J as [J|[]]. subst c. contradiction. }
  unfold format_list. intros [I|I]; [discriminate|]. apply in_app_iff in I as [I|[I|[]]]; [|discriminate]. destruct H as [|x r Hx Hr]; [destruct I|].
  apply in_app_iff in I as [I|I]; [now apply (Q x)|]. apply in_flat_map in I as (y & I & [J|J]); [discriminate|]. rewrite Forall_forall in Hr. now apply (Q y (Hr y I)).
Qed.
Lemma line_one : forall F o d, d_kind d = kind_of (d_value d) -> value_on_one_line F (d_value d) -> one_line (json_line o (d_time d) (d_name d) (d_kind d) (format F (d_value d))).
Proof.
  intros F o d K V. unfold one_line, json_line. eexists. split; [rewrite !app_assoc; reflexivity|]. rewrite <- !app_assoc.
  assert (L : forall s, existsb (N.eqb 10) s = false -> ~ In 10 s) by (intros s E I; assert (existsb (N.eqb 10) s = true); [apply existsb_exists; exists 10; auto|congruence]).
  intros I. repeat (apply in_app_iff in I as [I|I]; [revert I; try (apply L; reflexivity); try apply escape_no_newline; try apply decimal_no_newline; try (apply L; destruct (d_kind d); reflexivity)|]); [|revert I; apply L; reflexivity].
  rewrite K. destruct (d_value d) as [n|s|l|t]; cbn [kind_of format value_on_one_line] in *; [apply decimal_no_newline|exact V|now apply list_no_newline|].
  intros I. apply in_app_iff in I as [I|I]; [revert I; apply L; reflexivity|]. apply in_app_iff in I as [I|I]; [revert I; apply escape_no_newline|revert I; apply L; reflexivity].
Qed.
