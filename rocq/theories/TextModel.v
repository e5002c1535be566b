From Coq Require Import String Ascii NArith List Arith Bool.
From Verif Require Import Base.
Import ListNotations.
Open Scope N_scope.
Open Scope list_scope.

(** Model of util/StringHelpers.cpp, util/Uuid.cpp and util/Uri.cpp. A std::string is the list of its bytes as unsigned numbers. *)
Definition text := list N.
(** string literals *)
Definition lit (s : string) : text := map N_of_ascii (list_ascii_of_string s).
Definition bytes_ok (s : text) : Prop := Forall (fun c => c < 256) s.

(** * Numbers as text: fmt::format and std::ostream. Not code of the repository. *)
(** shortest representation in base [b], most significant digit first; the first argument bounds the number of digits *)
Fixpoint digits_fuel (fuel : nat) (b n : N) : list N :=
  match fuel with
  | O => []
  | S f => if n <? b then [n] else digits_fuel f b (n / b) ++ [n mod b]
  end.
Definition digits (b n : N) : list N := digits_fuel (S (N.to_nat (N.size n))) b n.
Definition digit_char (upper : bool) (d : N) : N := if d <? 10 then 48 + d else (if upper then 55 else 87) + d.
(** setfill('0') << setw(w), or {:0w} *)
Definition padded (w : nat) (ds : list N) : list N := repeat 0 (w - length ds) ++ ds.
Definition hex (upper : bool) (w : nat) (n : N) : text := map (digit_char upper) (padded w (digits 16 n)).
Definition decimal (n : N) : text := map (digit_char false) (digits 10 n).

(** * StringHelpers.cpp *)
(** StringHelpers.cpp:20-58, DoEscape: what is passed to f for one character *)
Definition escape_char (ch : N) : text :=
  match ch with
  | 8 => lit "\b" | 9 => lit "\t" | 10 => lit "\n" | 12 => lit "\f" | 13 => lit "\r" | 34 => [92; 34] | 92 => lit "\\"
  | _ => [ch]
  end.
(** StringHelpers.cpp:64-74, and 77-81 for the stream operator *)
Definition escape (s : text) : text := flat_map escape_char s.

Definition letter (ch : N) : bool := ((97 <=? ch) && (ch <=? 122)) || ((65 <=? ch) && (ch <=? 90)).
Definition digit (ch : N) : bool := (48 <=? ch) && (ch <=? 57).
Definition symbol (ch : N) : bool := (ch =? 95) || (ch =? 45) || (ch =? 46) || (ch =? 126).
(** StringHelpers.cpp:99-118; bytes from 128 are negative as char and in none of the ranges *)
Definition printable (s : text) : text :=
  flat_map (fun ch => if letter ch || digit ch || symbol ch then [ch] else hex true 2 ch) s.

(** std::string::find with a text: position of the first occurrence *)
Fixpoint starts (p s : text) : bool :=
  match p, s with
  | [], _ => true
  | a :: p, b :: s => (a =? b) && starts p s
  | _, [] => false
  end.
Fixpoint find_text (p s : text) : option nat :=
  if starts p s then Some O
  else match s with [] => None | _ :: s => option_map S (find_text p s) end.
(** std::string::rfind with a single character *)
Fixpoint rfind_char (c : N) (s : text) : option nat :=
  match s with
  | [] => None
  | x :: s => match rfind_char c s with Some i => Some (S i) | None => if x =? c then Some O else None end
  end.

(** StringHelpers.cpp:120-133. The loop shortens the input, so that the length bounds the iterations; with an empty separator and an
    empty input substr(1) throws. *)
Fixpoint split_fuel (fuel : nat) (sep s : text) : res (list text) :=
  match find_text sep s with
  | None => Ok (match s with [] => [] | _ => [s] end)
  | Some i =>
      match fuel with
      | O => Exn
      | S f => bind (split_fuel f sep (skipn (i + 1) s)) (fun r => Ok (firstn i s :: r))
      end
  end.
Definition split (sep s : text) : res (list text) := split_fuel (length s) sep s.

(** * Uuid.cpp *)
(** Uuid.hpp:16-22 *)
Record uuid := mkUuid { u_ab : N; u_cd : N }.
Definition uuid_ok (u : uuid) : Prop := u_ab u < 2 ^ 64 /\ u_cd u < 2 ^ 64.
(** Uuid.cpp:15-38 *)
Definition uuid_eq (x y : uuid) : bool := (u_ab x =? u_ab y) && (u_cd x =? u_cd y).
Definition uuid_ne (x y : uuid) : bool := negb (u_ab x =? u_ab y) || negb (u_cd x =? u_cd y).
Definition uuid_lt (x y : uuid) : bool :=
  if u_ab x <? u_ab y then true else if u_ab y <? u_ab x then false else u_cd x <? u_cd y.
(** Uuid.cpp:41-55; the two numbers drawn from the generator are arguments *)
Definition generate (r1 r2 : N) : uuid :=
  mkUuid (N.lor (N.land r1 0xFFFFFFFFFFFF0FFF) 0x0000000000004000) (N.lor (N.land r2 0x3FFFFFFFFFFFFFFF) 0x8000000000000000).
(** Uuid.cpp:62-80 *)
Definition uuid_text (u : uuid) : text :=
  let a := N.shiftr (u_ab u) 32 in
  let b := N.land (u_ab u) 0xFFFFFFFF in
  let c := N.shiftr (u_cd u) 32 in
  let d := N.land (u_cd u) 0xFFFFFFFF in
  hex false 8 a ++ [45] ++ hex false 4 (N.shiftr b 16) ++ [45] ++ hex false 4 (N.land b 0xFFFF) ++ [45] ++
  hex false 4 (N.shiftr c 16) ++ [45] ++ hex false 4 (N.land c 0xFFFF) ++ hex false 8 d.

(** * Uri.cpp *)
(** Uri.hpp:27-33, 74-80 *)
Inductive utype := Undefined | SilKitUri | TcpUri | LocalUri.
Record uri := mkUri { i_type : utype; i_scheme : text; i_host : text; i_port : option N; i_path : text; i_str : text }.

(** Uri.cpp:19-55; [None] is the exception *)
Fixpoint simulation_name (first : bool) (s : text) : option text :=
  match s with
  | [] => Some []
  | ch :: r =>
      if ch =? 47 then
        match r with
        | 47 :: _ => None
        | _ => match simulation_name false r with
               | None => None
               | Some t => Some (if first then t else ch :: t)
               end
        end
      else if letter ch || digit ch || symbol ch then option_map (cons ch) (simulation_name false r)
      else None
  end.

(** std::stringstream >> uint16_t as in libstdc++ with the classic locale: white space is skipped, a sign is accepted and a negative
    number wraps around, reading stops at the first character that is not a digit; no digit or a number too large is a failure. *)
Definition space (ch : N) : bool := (ch =? 32) || ((9 <=? ch) && (ch <=? 13)).
Fixpoint drop_while (f : N -> bool) (s : text) : text := match s with [] => [] | c :: r => if f c then drop_while f r else s end.
Fixpoint take_while (f : N -> bool) (s : text) : text := match s with [] => [] | c :: r => if f c then c :: take_while f r else [] end.
Definition number (b : N) (ds : list N) : N := fold_left (fun v d => v * b + d) ds 0.
Definition sign (s : text) : bool * text := match s with 45 :: r => (true, r) | 43 :: r => (false, r) | _ => (false, s) end.
Definition read_u16 (s : text) : option N :=
  let s := drop_while space s in
  let (neg, s) := sign s in
  match take_while digit s with
  | [] => None
  | ds => let v := number 10 (map (fun c => c - 48) ds) in
          if v <=? 65535 then Some (if neg then (65536 - v) mod 65536 else v) else None
  end.

Definition text_eqb (x y : text) : bool := if list_eq_dec N.eq_dec x y then true else false.
(** Uri.cpp:125-213 (not QNX) *)
Definition parse (raw : text) : res uri :=
  match find_text (lit "://") raw with
  | None => Exn
  | Some idx =>
      let scheme := firstn idx raw in
      let rest := skipn (idx + 3) raw in
      let ty := if text_eqb scheme (lit "tcp") then TcpUri else if text_eqb scheme (lit "silkit") then SilKitUri
                else if text_eqb scheme (lit "local") then LocalUri else Undefined in
      match ty with
      | LocalUri => Ok (mkUri LocalUri scheme [] None rest raw)
      | _ =>
          let pidx := find_text (lit "/") rest in
          match match pidx with None => Some [] | Some i => simulation_name true (skipn i rest) end with
          | None => Exn
          | Some path =>
              let rest := match pidx with None => rest | Some i => firstn i rest end in
              match rfind_char 58 rest with
              | None => match rest with [] => Exn | _ => Ok (mkUri ty scheme rest None path raw) end
              | Some i =>
                  match read_u16 (skipn (i + 1) rest) with
                  | None => Exn
                  | Some port => match firstn i rest with [] => Exn | host => Ok (mkUri ty scheme host (Some port) path raw) end
                  end
              end
          end
      end
  end.
(** Uri.cpp:73-88 *)
Definition port (u : uri) : N :=
  match i_port u with Some p => p | None => match i_type u with LocalUri => 0 | _ => 8500 end end.
(** Uri.cpp:215-218 *)
Definition make_silkit (host : text) (p : N) (sim : text) : res uri :=
  match simulation_name true sim with
  | None => Exn
  | Some name => parse (lit "silkit://" ++ host ++ [58] ++ decimal p ++ [47] ++ name)
  end.
(** Uri.cpp:220-223 *)
Definition make_tcp (host : text) (p : N) : res uri := parse (lit "tcp://" ++ host ++ [58] ++ decimal p).
(** Uri.cpp:118-123 *)
Definition make_host_port (host : text) (p : N) : res uri := parse (lit "silkit://" ++ host ++ [58] ++ decimal p).
(** Uri.cpp:225-240; std::isalnum in the classic locale *)
Definition url_encode (s : text) : text := flat_map (fun ch => if letter ch || digit ch then [ch] else 37 :: hex false 2 ch) s.
