From Coq Require Import String Ascii NArith List Arith Bool Lia.
From Verif Require Import Base TextModel TextSpec TextProofs UriProofs.
Import ListNotations.
Open Scope N_scope.
Open Scope list_scope.

(** ** C46 *)
(** Reading the text form gives back the uuid; it has 36 characters. *)
Theorem C46_text_is_read_back : forall u, uuid_ok u -> read_uuid (uuid_text u) = Some u /\ length (uuid_text u) = 36%nat.
Proof. exact read_uuid_text. Qed.
Print Assumptions C46_text_is_read_back.

Theorem C46_different_uuids_have_different_texts : forall u v, uuid_ok u -> uuid_ok v -> uuid_text u = uuid_text v -> u = v.
Proof. intros u v U V E. destruct (read_uuid_text u U) as [A _]. destruct (read_uuid_text v V) as [B _]. rewrite E in A. congruence. Qed.
Print Assumptions C46_different_uuids_have_different_texts.

(** only lower case hexadecimal digits and hyphens *)
Theorem C46_characters : forall u, uuid_ok u -> Forall (fun c => c = 45 \/ In c hex_chars) (uuid_text u).
Proof.
  intros [ab cd] [L1 L2]. cbn [u_ab u_cd] in *. destruct (parts_lt ab L1) as (A1 & A2 & A3 & A4 & _). destruct (parts_lt cd L2) as (C1 & C2 & _ & _ & C3 & C4).
  unfold uuid_text. cbn [u_ab u_cd]. fold (half_hi ab) (half_lo ab) (half_hi cd) (half_lo cd).
  assert (H : forall w n, n < 16 ^ N.of_nat (S w) -> Forall (fun c => c = 45 \/ In c hex_chars) (hex false (S w) n)) by (intros w n L; apply hex_all; [|exact L]; intros d Hd; right; now apply digit_char_hex).
  repeat (apply Forall_app; split); try (constructor; [now left|constructor]); apply H; rewrite ?pow16_32, ?pow16_16; assumption.
Qed.
Print Assumptions C46_characters.

(** The order is a strict total order that agrees with the equality, and != is the negation of ==. *)
Theorem C46_strict_total_order :
  (forall x, uuid_lt x x = false) /\
  (forall x y z, uuid_lt x y = true -> uuid_lt y z = true -> uuid_lt x z = true) /\
  (forall x y, (uuid_lt x y = true /\ uuid_lt y x = false /\ x <> y) \/ (uuid_lt y x = true /\ uuid_lt x y = false /\ x <> y) \/ (x = y /\ uuid_lt x y = false)) /\
  (forall x y, uuid_eq x y = true <-> x = y) /\ (forall x y, uuid_ne x y = true <-> x <> y).
Proof.
  unfold uuid_lt, uuid_eq, uuid_ne. assert (E : forall x y : uuid, x = y <-> u_ab x = u_ab y /\ u_cd x = u_cd y) by (intros [a b] [c d]; cbn; split; [intros H; now injection H as -> ->|intros [-> ->]; reflexivity]).
  repeat split.
  - intros x. destruct (u_ab x <? u_ab x) eqn:F; lia.
  - intros x y z. repeat match goal with |- context [?a <? ?b] => destruct (a <? b) eqn:? end; lia || discriminate || reflexivity.
  - intros x y. pose proof (E x y) as EE. repeat match goal with |- context [?a <? ?b] => destruct (a <? b) eqn:? end; try lia; (left; repeat split; [intros H; apply EE in H; lia]) || (right; left; repeat split; [intros H; apply EE in H; lia]) || (right; right; repeat split; apply EE; lia).
  - intros H. apply E. lia.
  - intros H. apply E in H. lia.
  - intros H. intros X. apply E in X. lia.
  - intros H. destruct (u_ab x =? u_ab y) eqn:A; [|reflexivity]. destruct (u_cd x =? u_cd y) eqn:B; [|reflexivity]. exfalso. apply H. apply E. lia.
Qed.
Print Assumptions C46_strict_total_order.

Lemma top_nibble : forall x, x / 16 / 16 / 16 mod 16 = N.land (N.shiftr x 12) 15.
Proof. intros x. rewrite !N.div_div by discriminate. rewrite N.shiftr_div_pow2. change 15 with (N.ones 4). rewrite N.land_ones. reflexivity. Qed.
(** Whatever the generator draws, the text has the version 4 and the variant 8, 9, a or b at the positions of RFC 4122. *)
Theorem C46_generated_version_and_variant : forall r1 r2,
  let t := uuid_text (generate r1 r2) in uuid_ok (generate r1 r2) /\ nth 14 t 0 = 52 /\ In (nth 19 t 0) (lit "89ab").
Proof.
  intros r1 r2 t. pose proof (generate_ok r1 r2) as OK. split; [exact OK|]. pose proof (generate_version r1 r2) as V. pose proof (generate_variant r1 r2) as W.
  destruct (generate r1 r2) as [ab cd] eqn:G. destruct OK as [L1 L2]. cbn [u_ab u_cd] in *. destruct (parts_lt ab L1) as (A1 & A2 & A3 & A4 & _). destruct (parts_lt cd L2) as (C1 & C2 & _ & _ & C3 & C4).
  assert (X : nth 14 t 0 = nth 0 (hex false 4 (N.land (half_lo ab) 65535)) 0 /\ nth 19 t 0 = nth 0 (hex false 4 (N.shiftr (half_hi cd) 16)) 0).
  { unfold t, uuid_text. cbn [u_ab u_cd]. fold (half_hi ab) (half_lo ab) (half_hi cd) (half_lo cd).
    destruct (pieces (hex false 8 (half_hi ab)) (hex false 4 (N.shiftr (half_lo ab) 16)) (hex false 4 (N.land (half_lo ab) 65535)) (hex false 4 (N.shiftr (half_hi cd) 16)) (hex false 4 (N.land (half_hi cd) 65535)) (hex false 8 (half_lo cd)))
    as (_ & _ & _ & _ & _ & _ & _ & P8 & P9 & _); try (apply hex_length; rewrite ?pow16_32, ?pow16_16; assumption).
        assert (Y : forall k (s : text), nth k s 0 = nth 0 (firstn 4 (skipn k s)) 0) by (induction k as [|k IH]; intros [|x s]; try reflexivity; cbn [skipn nth]; apply IH).
    split; rewrite Y; [rewrite P8|rewrite P9]; reflexivity. }
  destruct X as [-> ->]. rewrite !hex_fixed by (rewrite pow16_16; assumption). cbn [fixed app map nth]. rewrite !top_nibble.
  split.
  - unfold half_lo. rewrite !N.shiftr_land, <- !N.land_assoc. change (N.land (N.shiftr 4294967295 12) (N.land (N.shiftr 65535 12) 15)) with 15. rewrite V. reflexivity.
  - unfold half_hi. replace (N.shiftr (N.shiftr (N.shiftr cd 32) 16) 12) with (N.shiftr cd 60) by (rewrite !N.shiftr_shiftr; reflexivity). assert (B : N.shiftr cd 60 < 16) by (apply (shiftr_lt cd 60 4); exact L2).
    rewrite (lt_bits _ 4 B : N.land (N.shiftr cd 60) 15 = N.shiftr cd 60).
    assert (B' : N.shiftr (N.shiftr cd 60) 2 = 2). { rewrite N.shiftr_shiftr. change (60 + 2) with 62. rewrite <- (lt_bits (N.shiftr cd 62) 2) by (apply (shiftr_lt cd 62 2); exact L2). exact W. }
    set (x := N.shiftr cd 60) in *. clearbody x. rewrite N.shiftr_div_pow2 in B'. change (2 ^ 2) with 4 in B'. pose proof (N.div_mod' x 4). pose proof (N.mod_lt x 4 ltac:(discriminate)). assert (C : x = 8 \/ x = 9 \/ x = 10 \/ x = 11) by lia.
    destruct C as [->|[->|[->| ->]]]; vm_compute; tauto.
Qed.
Print Assumptions C46_generated_version_and_variant.

Example C46_example : uuid_text (mkUuid 0x0123456789ab4def 0x80000000000000ff) = lit "01234567-89ab-4def-8000-0000000000ff" /\ uuid_ok (mkUuid 0x0123456789ab4def 0x80000000000000ff).
Proof. vm_compute. auto. Qed.
Example C46_order_example : uuid_lt (mkUuid 1 7) (mkUuid 2 3) = true /\ uuid_lt (mkUuid 2 3) (mkUuid 2 4) = true.
Proof. vm_compute. auto. Qed.
Example C46_generated_example : uuid_text (generate 0 0xffffffffffffffff) = lit "00000000-0000-4000-bfff-ffffffffffff".
Proof. vm_compute. reflexivity. Qed.

(** ** C47 *)
(** A reader of string literals gets back the string, and stops at the quote that follows it. *)
Theorem C47_escaped_string_is_read_back : forall s rest, read_string false (escape s ++ 34 :: rest) = Some (s, rest).
Proof. intros. apply read_escape. discriminate. Qed.
Print Assumptions C47_escaped_string_is_read_back.

Theorem C47_escape_is_injective : forall s t r q, escape s ++ 34 :: r = escape t ++ 34 :: q -> s = t /\ r = q.
Proof.
  intros s t r q E. assert (A := read_escape false s r ltac:(discriminate)). assert (B := read_escape false t q ltac:(discriminate)). rewrite E in A. rewrite A in B. injection B as -> ->. now split.
Qed.
Print Assumptions C47_escape_is_injective.

(** A strict JSON reader accepts it if and only if there are no control characters except \b \t \n \f \r. *)
Theorem C47_escaped_string_is_json : forall s rest,
  (Forall (fun c => ~ other_control c) s -> read_string true (escape s ++ 34 :: rest) = Some (s, rest)) /\
  ((exists c, In c s /\ other_control c) -> read_string true (escape s ++ 34 :: rest) = None).
Proof.
  intros s rest. split; [intros F; now apply read_escape|]. intros (c & I & O). apply read_control. intros F. rewrite Forall_forall in F. now apply (F c).
Qed.
Print Assumptions C47_escaped_string_is_json.
Theorem C47_every_escaped_string_is_json_refuted : exists s, bytes_ok s /\ forall rest, read_string true (escape s ++ 34 :: rest) = None.
Proof. exists [1]. split; [repeat constructor|]. intros rest. reflexivity. Qed.
Print Assumptions C47_every_escaped_string_is_json_refuted.

(** Printable names only have safe characters, and names of safe characters are not changed. *)
Theorem C47_printable_is_safe : forall s, bytes_ok s -> Forall (fun c => In c safe_chars) (printable s) /\ (printable s = s <-> Forall (fun c => In c safe_chars) s).
Proof. intros s B. split; [now apply printable_safe|]. split; [now apply printable_fixed_point|apply printable_same]. Qed.
Print Assumptions C47_printable_is_safe.
(** Two participants can get the same printable name: "/" and "2F". *)
Theorem C47_printable_is_injective_refuted : exists s t, s <> t /\ printable s = printable t.
Proof. exists (lit "/"), (lit "2F"). split; [discriminate|]. vm_compute. reflexivity. Qed.
Print Assumptions C47_printable_is_injective_refuted.

(** Splitting at a character: the tokens do not contain it, and put together they are the input, except for one separator at the end. *)
Theorem C47_split_at_character : forall c s, exists l, split [c] s = Ok l /\ Forall (fun t => ~ In c t) l /\ (join [c] l = s \/ join [c] l ++ [c] = s).
Proof. intros c s. destruct (split_spec c (length s) s (Nat.le_refl _)) as (l & A & B & C & _). eauto. Qed.
Print Assumptions C47_split_at_character.
(** With a separator of several characters only its first character is removed. *)
Theorem C47_split_at_text_refuted : exists sep a b l, find_text sep a = None /\ find_text sep b = None /\ split sep (a ++ sep ++ b) = Ok l /\ l <> [a; b].
Proof. exists (lit "::"), (lit "a"), (lit "b"), [lit "a"; lit ":b"]. repeat split; vm_compute; try reflexivity. discriminate. Qed.
Print Assumptions C47_split_at_text_refuted.

Example C47_escape_example : escape (lit "a""b\" ++ [10]) = lit "a\""b\\\n" /\ read_string true (lit "a\""b\\\n"", more") = Some (lit "a""b\" ++ [10], lit ", more").
Proof. vm_compute. auto. Qed.
Example C47_printable_example : printable (lit "My Node/1") = lit "My20Node2F1".
Proof. vm_compute. reflexivity. Qed.
Example C47_split_example : split (lit "/") (lit "a/b//c/") = Ok [lit "a"; lit "b"; []; lit "c"].
Proof. vm_compute. reflexivity. Qed.

(** ** C37 *)
(** A registry URI built from host, port and simulation name: the same host and port, and the name without a leading slash. The host
    may contain colons (addresses in brackets). An invalid simulation name is rejected. *)
Theorem C37_made_uri_is_parsed_back : forall host p sim, host <> [] -> ~ In 47 host -> p < 65536 ->
  (valid_name sim -> exists u, make_silkit host p sim = Ok u /\ i_type u = SilKitUri /\ i_scheme u = lit "silkit" /\ i_host u = host /\ port u = p /\ i_path u = without_slash sim) /\
  (~ valid_name sim -> make_silkit host p sim = Exn).
Proof.
  intros host p sim NH SH L. split; intros V.
  - rewrite make_silkit_ok by assumption. eexists. split; [reflexivity|]. repeat split.
  - unfold make_silkit. apply (proj2 (name_spec sim)) in V as [_ V]. now rewrite V.
Qed.
Print Assumptions C37_made_uri_is_parsed_back.

(** The URI as text is parsed to the same again: the same for TCP URIs. *)
Theorem C37_text_of_made_uri : forall host p sim, host <> [] -> ~ In 47 host -> p < 65536 -> valid_name sim ->
  (forall u, make_silkit host p sim = Ok u -> parse (i_str u) = Ok u) /\
  exists u, make_tcp host p = Ok u /\ parse (i_str u) = Ok u /\ i_type u = TcpUri /\ i_host u = host /\ port u = p /\ i_path u = [].
Proof.
  intros host p sim NH SH L V. split.
  - intros u M. pose proof M as M'. unfold make_silkit in M'. destruct (simulation_name true sim) as [n|]; [|discriminate]. rewrite make_silkit_ok in M by assumption. injection M as <-. cbn [i_str]. destruct (proj1 (name_spec sim) V) as [_ E].
    pose proof (make_silkit_ok host p sim NH SH L V) as P. unfold make_silkit in P. rewrite E in P. exact P.
  - pose proof (make_tcp_ok host p NH SH L) as P. eexists. split; [exact P|]. cbn [i_str i_type i_host i_path port i_port]. split; [exact P|]. repeat split.
Qed.
Print Assumptions C37_text_of_made_uri.

(** Without a port it is 8500. *)
Theorem C37_default_port : forall scheme host path, In scheme [lit "silkit"; lit "tcp"] -> host <> [] -> ~ In 47 host -> ~ In 58 host ->
  (path = [] \/ exists t, path = 47 :: t /\ valid_name t /\ starts_slash t = false) ->
  exists u, parse (scheme ++ lit "://" ++ host ++ path) = Ok u /\ i_scheme u = scheme /\ i_host u = host /\ port u = 8500 /\ i_path u = without_slash path.
Proof.
  intros scheme host path IS NH SH CH HP. assert (NS : ~ In 58 scheme) by (destruct IS as [<-|[<-|[]]]; cbn; lia).
  assert (NL : type_of scheme = SilKitUri \/ type_of scheme = TcpUri) by (destruct IS as [<-|[<-|[]]]; vm_compute; auto).
  unfold parse. rewrite find_scheme by exact NS. rewrite firstn_app_exact. replace (length scheme + 3)%nat with (length (scheme ++ lit "://")) by (rewrite app_length; reflexivity).
  rewrite (app_assoc scheme (lit "://")), skipn_app_exact. fold (type_of scheme).
  assert (M : forall (A : Type) (x y : A), match type_of scheme with LocalUri => x | _ => y end = y) by (intros; destruct NL as [-> | ->]; reflexivity).
  rewrite M. change (lit "/") with [47].
  assert (X : match find_text [47] (host ++ path) with None => Some [] | Some i => simulation_name true (skipn i (host ++ path)) end = Some (without_slash path) /\
              match find_text [47] (host ++ path) with None => host ++ path | Some i => firstn i (host ++ path) end = host).
  { destruct HP as [->|(t & -> & V & S)].
    - rewrite app_nil_r. rewrite (proj2 (find_char_none 47 _) SH). now split.
    - rewrite find_char_app by exact SH. rewrite firstn_app_exact, skipn_app_exact. split; [|reflexivity]. now apply name_after_slash. }
  destruct X as [X1 X2]. rewrite X1, X2. rewrite (proj2 (rfind_none 58 host) CH). destruct host; [now destruct NH|]. eexists. split; [reflexivity|]. cbn [i_scheme i_host i_path].
  repeat split. unfold port. cbn [i_port i_type]. destruct NL as [-> | ->]; reflexivity.
Qed.
Print Assumptions C37_default_port.
Example C37_default_port_ex : exists u, parse (lit "silkit://localhost/a") = Ok u /\ i_host u = lit "localhost" /\ port u = 8500 /\ i_path u = lit "a".
Proof. eexists. split; [vm_compute; reflexivity|]. repeat split; vm_compute; reflexivity. Qed.

(** Whatever is accepted (not a local-domain URI) has a host without slashes, a 16 bit port and a valid simulation name, and the URI
    made from host and port again has the same host and port. *)
Theorem C37_accepted_uris : forall s u, parse s = Ok u -> i_type u <> LocalUri ->
  i_host u <> [] /\ ~ In 47 (i_host u) /\ port u < 65536 /\ valid_name (i_path u) /\
  exists v, make_tcp (i_host u) (port u) = Ok v /\ i_host v = i_host u /\ port v = port u.
Proof.
  intros s u P NL. destruct (parsed s u P NL) as (A & B & C & D & _). repeat split; auto; try apply D. rewrite make_tcp_ok by assumption. eexists. split; [reflexivity|]. now split.
Qed.
Print Assumptions C37_accepted_uris.

(** Percent-encoding *)
Theorem C37_percent_encoding : forall s, bytes_ok s -> url_decode (url_encode s) = Some s /\ Forall (fun c => c = 37 \/ In c alnum_chars) (url_encode s).
Proof. intros s B. split; [now apply url_decode_encode|now apply url_encode_chars]. Qed.
Print Assumptions C37_percent_encoding.

(** An IPv6 address in brackets without a port is cut at its last colon. *)
Theorem C37_address_in_brackets_refuted : exists u, parse (lit "silkit://[fe80::1]") = Ok u /\ i_host u = lit "[fe80:" /\ port u = 1.
Proof. eexists. split; [vm_compute; reflexivity|]. split; reflexivity. Qed.
Print Assumptions C37_address_in_brackets_refuted.
(** A port followed by garbage is accepted, and a negative one wraps around. *)
Theorem C37_ports_are_numbers_refuted : (exists u, parse (lit "tcp://host:80x/") = Ok u /\ port u = 80) /\ (exists u, parse (lit "tcp://host:-1") = Ok u /\ port u = 65535).
Proof. split; eexists; (split; [vm_compute; reflexivity|reflexivity]). Qed.
Print Assumptions C37_ports_are_numbers_refuted.

Example C37_example : exists u, make_silkit (lit "[::1]") 8501 (lit "/my/sim") = Ok u /\ i_str u = lit "silkit://[::1]:8501/my/sim" /\ i_host u = lit "[::1]" /\ port u = 8501 /\ i_path u = lit "my/sim".
Proof. eexists. split; [vm_compute; reflexivity|]. repeat split. Qed.
Example C37_percent_example : url_encode (lit "a b/") = lit "a%20b%2f".
Proof. vm_compute. reflexivity. Qed.
