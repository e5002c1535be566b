From Coq Require Import String Ascii NArith ZArith List Arith Bool Lia.
From Verif Require Import Base TextModel TextSpec TextProofs UriProofs YamlModel LoggerModel MetricsText LoggerSpec LoggerProofs.
Import ListNotations.
Open Scope string_scope.
Open Scope N_scope.
Open Scope list_scope.

(** ** String literals *)
Lemma plain_escape : forall s, Forall plain_char s -> escape s = s.
Proof.
  intros s H. induction H as [|c s (H1 & H2 & H3) _ IH]; [reflexivity|]. change (escape (c :: s)) with (escape_char c ++ escape s). rewrite IH, escape_char_eq.
  repeat match goal with |- context [c =? ?n] => replace (c =? n) with false by lia end. reflexivity.
Qed.
Lemma plain_control : forall s, Forall plain_char s -> Forall (fun c => ~ other_control c) s.
Proof. intros s H. eapply Forall_impl; [|exact H]. intros c (_ & _ & L) [M _]. lia. Qed.
Lemma read_plain : forall strict s rest, Forall plain_char s -> read_string strict (s ++ 34 :: rest) = Some (s, rest).
Proof. intros strict s rest H. rewrite <- (plain_escape s H) at 1. apply read_escape. intros _. now apply plain_control. Qed.
Lemma forallb_plain : forall s, forallb (fun c => negb (c =? 34) && negb (c =? 92) && (32 <=? c)) s = true -> Forall plain_char s.
Proof. intros s H. rewrite forallb_forall in H. apply Forall_forall. intros c I. specialize (H c I). unfold plain_char. lia. Qed.
Lemma topic_plain : forall t, Forall plain_char (topic_to_string t).
Proof.
  intros t. unfold topic_to_string. destruct (find (fun p => fst p =? t) SerdesModel.topic_names) as [[k x]|] eqn:E; [|apply forallb_plain; reflexivity].
  apply find_some in E as [I _]. apply forallb_plain.
  assert (A : forallb (fun p => forallb (fun c => negb (c =? 34) && negb (c =? 92) && (32 <=? c)) (SerdesModel.lit (snd p))) SerdesModel.topic_names = true) by (vm_compute; reflexivity).
  rewrite forallb_forall in A. apply (A (k, x) I).
Qed.
Lemma decimal_plain : forall n, Forall plain_char (decimal n).
Proof.
  intros n. pose proof (decimal_digits n) as H. rewrite forallb_forall in H || rewrite Forall_forall in H. apply Forall_forall. intros c I. specialize (H c I). unfold digit in H. unfold plain_char. lia.
Qed.
Lemma epoch_plain : forall t, Forall plain_char (epoch t).
Proof.
  intros t. unfold epoch. destruct (_ <? _)%Z; [|apply decimal_plain]. apply Forall_app. split; [|apply decimal_plain]. constructor; [unfold plain_char; lia|constructor].
Qed.
Lemma level_plain : forall n, Forall plain_char (level_name n).
Proof. intros n. apply forallb_plain. unfold level_name. destruct n as [|[[p|p|]|[p|p|]|]]; try reflexivity; destruct p; reflexivity. Qed.

(** ** Entries *)
Lemma text_eqb_eq' : forall a b, text_eqb a b = true -> a = b.
Proof. intros a b H. unfold text_eqb in H. destruct (list_eq_dec N.eq_dec a b); [assumption|discriminate]. Qed.
Lemma json_pair_plain : forall p, fst p <> lit "Raw" -> json_pair p = [34] ++ escape (fst p) ++ [34] ++ lit ":" ++ [34] ++ escape (snd p) ++ [34].
Proof. intros p H. unfold json_pair. destruct (text_eqb (fst p) (lit "Raw")) eqn:E; [|reflexivity]. apply text_eqb_eq' in E. contradiction. Qed.
Lemma read_pairs_eq : forall strict l fuel rest, l <> [] -> no_raw l -> clean_kvs strict l -> (length l <= fuel)%nat ->
  read_pairs fuel strict (json_pairs l ++ lit "}" ++ rest) = Some (l, rest).
Proof.
  intros strict l. induction l as [|[k v] l IH]; intros fuel rest N R C L; [contradiction|].
  destruct fuel as [|fuel]; [cbn in L; lia|]. inversion R as [|? ? R1 R2]; subst. inversion C as [|? ? [C1 C2] C3]; subst. cbn [fst snd] in *.
  assert (E : json_pairs ((k, v) :: l) = json_pair (k, v) ++ match l with [] => [] | _ => lit "," ++ json_pairs l end) by (destruct l; [cbn [json_pairs]; now rewrite app_nil_r|reflexivity]).
  rewrite E, json_pair_plain by assumption. cbn [fst snd read_pairs]. rewrite <- !app_assoc. change [34] with (lit """") at 1. rewrite expect_app. cbn [opt].
  change ([34] ++ lit ":" ++ [34] ++ ?x) with (34 :: lit ":""" ++ x). rewrite read_escape by assumption. cbn [opt]. rewrite expect_app. cbn [opt].
  change ([34] ++ ?x) with (34 :: x). rewrite read_escape by assumption. cbn [opt].
  destruct l as [|q l].
  - cbn [app]. change (expect (lit ",") (lit "}" ++ rest)) with (@None text). rewrite expect_app. reflexivity.
  - rewrite <- app_assoc, expect_app. rewrite IH; [reflexivity|discriminate|assumption|assumption|cbn in L |- *; lia].
Qed.
Lemma json_pairs_length : forall l, (length l <= length (json_pairs l))%nat.
Proof.
  intros l. induction l as [|p l IH]; [cbn; lia|]. assert (E : json_pairs (p :: l) = json_pair p ++ match l with [] => [] | _ => lit "," ++ json_pairs l end) by (destruct l; [cbn [json_pairs]; now rewrite app_nil_r|reflexivity]).
  rewrite E, app_length. assert (1 <= length (json_pair p))%nat by (unfold json_pair; destruct (text_eqb _ _); cbn; lia). destruct l; [cbn; lia|]. rewrite app_length. cbn [length] in *. lia.
Qed.
Definition head (t : Z) (name : text) (n : N) : text :=
  lit "{""ts"":""" ++ epoch t ++ lit """,""log"":""" ++ name ++ lit """,""lvl"":""" ++ level_name n ++ lit """, ".
Definition topic_part (t : option text) : text := match t with Some t => lit """topic"": """ ++ escape t ++ lit """, " | None => [] end.
Definition kv_part (l : kvs) : text := match l with [] => [] | _ => lit ", ""kv"": {" ++ json_pairs l ++ lit "}" end.
Definition msg_part (m : text) : text := lit """msg"": """ ++ escape m ++ [34].
Lemma json_message_parts : forall t m l, json_message t m l = topic_part (if t =? 0 then None else Some (topic_to_string t)) ++ msg_part m ++ kv_part l.
Proof.
  intros t m l. unfold json_message, topic_part, msg_part, kv_part. cbv zeta. destruct (t =? 0); destruct l as [|p l]; cbn [negb andb has_kv];
    rewrite ?app_nil_r; rewrite ?app_nil_l; rewrite <- ?app_assoc; try reflexivity.
Qed.
Lemma json_string_parts : forall t m, json_string t m = topic_part (Some (topic_to_string t)) ++ msg_part m ++ kv_part [].
Proof. intros. unfold json_string, topic_part, msg_part, kv_part. rewrite app_nil_r. rewrite <- !app_assoc. reflexivity. Qed.
Lemma line_parts : forall t name n payload, json_line (mkOut t name n payload) = head t name n ++ payload ++ lit " }" ++ [10].
Proof. intros. unfold json_line, head. cbn [o_time o_name o_level o_payload]. rewrite <- !app_assoc. reflexivity. Qed.
Lemma read_entry_eq : forall strict t name n topic m l rest,
  Forall plain_char name -> clean strict m -> no_raw l -> clean_kvs strict l -> (forall x, topic = Some x -> Forall plain_char x) ->
  read_entry strict (head t name n ++ (topic_part topic ++ msg_part m ++ kv_part l) ++ lit " }" ++ [10] ++ rest) =
  Some (mkEntry (epoch t) name (level_name n) topic m l, rest).
Proof.
  intros strict t name n topic m l rest N M R C T. unfold head, read_entry. rewrite <- !app_assoc. rewrite expect_app. cbn [opt].
  change (lit """,""log"":""" ++ ?x) with (34 :: lit ",""log"":""" ++ x). rewrite read_plain by apply epoch_plain. cbn [opt]. rewrite expect_app. cbn [opt].
  change (lit """,""lvl"":""" ++ ?x) with (34 :: lit ",""lvl"":""" ++ x). rewrite read_plain by assumption. cbn [opt]. rewrite expect_app. cbn [opt].
  change (lit """, " ++ ?x) with (34 :: lit ", " ++ x). rewrite read_plain by apply level_plain. cbn [opt]. rewrite expect_app. cbn [opt].
  match goal with |- opt ?a ?f = _ => assert (A : a = Some (topic, msg_part m ++ kv_part l ++ lit " }" ++ [10] ++ rest)) end.
  { destruct topic as [x|]; cbn [topic_part].
    - rewrite <- !app_assoc. rewrite expect_app. change (lit """, " ++ ?x) with (34 :: lit ", " ++ x).
      rewrite read_escape by (intros _; apply plain_control, T; reflexivity). cbn [opt fst snd]. rewrite expect_app. reflexivity.
    - reflexivity. }
  rewrite A. cbn [opt]. unfold msg_part. rewrite <- !app_assoc. rewrite expect_app. cbn [opt]. change ([34] ++ ?x) with (34 :: x). rewrite read_escape by assumption. cbn [opt].
  match goal with |- opt ?a ?f = _ => assert (B : a = Some (l, lit " }" ++ [10] ++ rest)) end.
  { destruct l as [|p l]; [reflexivity|]. unfold kv_part. rewrite <- !app_assoc. rewrite expect_app. apply read_pairs_eq; [discriminate|assumption|assumption|].
    rewrite !app_length. pose proof (json_pairs_length (p :: l)). lia. }
  rewrite B. cbn [opt]. rewrite expect_app. cbn [opt]. rewrite expect_app. reflexivity.
Qed.
Lemma read_render : forall strict t name n topic m l rest, Forall plain_char name -> clean strict m -> no_raw l -> clean_kvs strict l ->
  read_entry strict (json_line (mkOut t name n (render topic m l FJson)) ++ rest) =
  Some (mkEntry (epoch t) name (level_name n) (if topic =? 0 then None else Some (topic_to_string topic)) m l, rest).
Proof.
  intros strict t name n topic m l rest N M R C. rewrite line_parts. cbn [render]. rewrite json_message_parts. rewrite <- (app_assoc (head t name n)).
  rewrite <- (app_assoc (topic_part _ ++ _)). rewrite <- (app_assoc (lit " }")). apply read_entry_eq; auto.
  intros x E. destruct (topic =? 0); [discriminate|]. injection E as <-. apply topic_plain.
Qed.
Lemma read_render_text : forall strict t name n topic m rest, Forall plain_char name -> clean strict m ->
  read_entry strict (json_line (mkOut t name n (render_text topic m FJson)) ++ rest) =
  Some (mkEntry (epoch t) name (level_name n) (Some (topic_to_string topic)) m [], rest).
Proof.
  intros strict t name n topic m rest N M. rewrite line_parts. cbn [render_text]. rewrite json_string_parts. rewrite <- (app_assoc (head t name n)).
  rewrite <- (app_assoc (topic_part _ ++ _)). rewrite <- (app_assoc (lit " }")). apply read_entry_eq; auto; try constructor.
  intros x E. injection E as <-. apply topic_plain.
Qed.
Lemma read_many : forall strict (es : list (out * entry)) fuel,
  Forall (fun x => forall rest, read_entry strict (json_line (fst x) ++ rest) = Some (snd x, rest)) es -> (length es <= fuel)%nat ->
  read_entries fuel strict (flat_map (fun x => json_line (fst x)) es) = Some (map snd es).
Proof.
  intros strict es. induction es as [|x es IH]; intros fuel F L; [destruct fuel; reflexivity|]. inversion F; subst. destruct fuel as [|fuel]; [cbn in L; lia|].
  cbn [flat_map map]. assert (E : exists c r, json_line (fst x) ++ flat_map (fun x => json_line (fst x)) es = c :: r) by (eexists; eexists; reflexivity).
  destruct E as (c & r & E). cbn [read_entries]. rewrite E, <- E, H1. cbn [opt fst snd]. rewrite IH; [reflexivity|assumption|cbn in L; lia].
Qed.

(** ** Newlines *)
Lemma escape_no_newline : forall s, ~ In 10 (escape s).
Proof.
  intros s. induction s as [|c s IH]; [intros []|]. change (escape (c :: s)) with (escape_char c ++ escape s). rewrite in_app_iff, escape_char_eq.
  intros [I|I]; [|contradiction]. revert I. repeat match goal with |- context [c =? ?n] => destruct (N.eqb_spec c n) as [->|?] end; cbn; lia.
Qed.
Lemma plain_no_newline : forall s, Forall plain_char s -> ~ In 10 s.
Proof. intros s H I. rewrite Forall_forall in H. destruct (H 10 I) as (_ & _ & L). lia. Qed.
Lemma pairs_no_newline : forall l, no_raw l -> ~ In 10 (json_pairs l).
Proof.
  intros l H. induction H as [|p l H _ IH]; [intros []|]. assert (E : json_pairs (p :: l) = json_pair p ++ match l with [] => [] | _ => lit "," ++ json_pairs l end) by (destruct l; [cbn [json_pairs]; now rewrite app_nil_r|reflexivity]).
  rewrite E, json_pair_plain by assumption. pose proof (escape_no_newline (fst p)). pose proof (escape_no_newline (snd p)). rewrite !in_app_iff. destruct l; cbn in *; intuition lia.
Qed.

(** ** The file of a Json sink *)
Lemma epoch_decimal : forall t, (0 <= t)%Z -> epoch t = decimal (Z.to_N (t / 1000)).
Proof.
  intros t H. unfold epoch. cbv zeta. rewrite Z.quot_div_nonneg by lia. pose proof (Z.div_pos t 1000 H ltac:(lia)). destruct (Z.ltb_spec (t / 1000) 0); [lia|reflexivity].
Qed.
Lemma level_words : forall l, known l -> level_name (rank l) = level_word l.
Proof. intros l K. cbn in K. repeat (destruct K as [<-|K]; [reflexivity|]). destruct K. Qed.
Lemma file_reads : forall strict name s ops, s_format s = FJson -> Forall plain_char name -> Forall regular ops -> Forall (readable strict) ops ->
  exists es, map fst es = flat_map (lines_of name s) ops /\ map snd es = flat_map (entries_of name s) ops /\
    Forall (fun x => forall rest, read_entry strict (json_line (fst x) ++ rest) = Some (snd x, rest)) es.
Proof.
  intros strict name s ops J N R C. induction ops as [|o ops IH]; [exists []; repeat split; constructor|].
  inversion R as [|? ? R1 R2]; subst. inversion C as [|? ? C1 C2]; subst. destruct (IH R2 C2) as (es & E1 & E2 & E3). clear IH.
  assert (A : exists es, map fst es = lines_of name s o /\ map snd es = entries_of name s o /\
    Forall (fun x => forall rest, read_entry strict (json_line (fst x) ++ rest) = Some (snd x, rest)) es).
  { destruct o as [now l t msg|l t c|m|x|]; cbn [lines_of entries_of regular readable] in *; try (exists []; repeat split; constructor).
    - destruct (wants s l t); [|exists []; repeat split; constructor]. destruct C1 as [T C1].
      eexists [(_, _)]. cbn [map fst snd]. repeat split. constructor; [|constructor]. cbn [fst snd]. intros rest. rewrite J, read_render_text by assumption.
      rewrite epoch_decimal, level_words by assumption. reflexivity.
    - destruct R1 as [K F]. clear F. induction (dispatched (mkMsg l t [] []) c) as [|x r IH]; [exists []; repeat split; constructor|].
      inversion C1 as [|? ? (T & B1 & B2 & B3) C3]; subst. destruct (IH C3) as (fs & F1 & F2 & F3). cbn [flat_map]. cbv zeta in *.
      destruct (wants s l (m_topic (snd x))); [|exists fs; repeat split; assumption].
      eexists ((_, _) :: fs). cbn [map fst snd app]. rewrite F1, F2. repeat split. constructor; [|assumption]. cbn [fst snd]. intros rest. rewrite J, read_render by assumption.
      unfold entry_for. rewrite epoch_decimal, level_words by assumption. reflexivity.
    - destruct C1 as (P & T & B1 & B2 & B3). destruct (_ <=? _); [|exists []; repeat split; constructor].
      eexists [(_, _)]. cbn [map fst snd]. repeat split. constructor; [|constructor]. cbn [fst snd]. intros rest. rewrite J, read_render by assumption.
      unfold entry_for. rewrite epoch_decimal, level_words by assumption. reflexivity. }
  destruct A as (fs & F1 & F2 & F3). exists (fs ++ es). rewrite !map_app, E1, E2, F1, F2. repeat split. apply Forall_app. auto.
Qed.
Lemma flat_map_fst : forall {A B C} (f : A -> list C) (l : list (A * B)), flat_map (fun x => f (fst x)) l = flat_map f (map fst l).
Proof. intros A B C f l. induction l as [|x l IH]; [reflexivity|]. cbn. now rewrite IH. Qed.
Lemma lines_length : forall l, (length l <= length (flat_map json_line l))%nat.
Proof. intros l. induction l as [|o l IH]; [cbn; lia|]. cbn [flat_map]. rewrite app_length. assert (1 <= length (json_line o))%nat by (cbn; lia). cbn [length]. lia. Qed.
