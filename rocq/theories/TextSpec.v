From Coq Require Import String Ascii NArith List Arith Bool.
From Verif Require Import Base TextModel.
Import ListNotations.
Open Scope N_scope.
Open Scope list_scope.

(** Vocabulary of the properties of the text functions, independent of the code. *)

(** Reading a string literal after the opening quote: the contents and what follows the closing quote. With [strict] as in RFC 8259,
    where control characters have to be escaped; \u escapes are not covered. *)
Definition json_escape (e : N) : option N :=
  if e =? 34 then Some 34 else if e =? 92 then Some 92 else if e =? 47 then Some 47 else if e =? 98 then Some 8
  else if e =? 102 then Some 12 else if e =? 110 then Some 10 else if e =? 114 then Some 13 else if e =? 116 then Some 9 else None.
Fixpoint read_string (strict : bool) (s : text) : option (text * text) :=
  match s with
  | [] => None
  | c :: r =>
      if c =? 34 then Some ([], r)
      else if c =? 92 then
        match r with
        | [] => None
        | e :: r => match json_escape e, read_string strict r with
                    | Some x, Some (t, rest) => Some (x :: t, rest)
                    | _, _ => None
                    end
        end
      else if strict && (c <? 32) then None
      else match read_string strict r with Some (t, rest) => Some (c :: t, rest) | None => None end
  end.
(** control characters that have no two-character escape *)
Definition other_control (c : N) : Prop := c < 32 /\ ~ In c [8; 9; 10; 12; 13].

Definition safe_chars : text := lit "abcdefghijklmnopqrstuvwxyzABCDEFGHIJKLMNOPQRSTUVWXYZ0123456789_-.~".
Definition alnum_chars : text := lit "abcdefghijklmnopqrstuvwxyzABCDEFGHIJKLMNOPQRSTUVWXYZ0123456789".
Definition hex_chars : text := lit "0123456789abcdef".

(** the tokens with the separator in between *)
Fixpoint join (sep : text) (l : list text) : text :=
  match l with [] => [] | [x] => x | x :: r => x ++ sep ++ join sep r end.

(** the value of a hexadecimal digit, and of a text of such digits *)
Definition hex_value (c : N) : option N :=
  if (48 <=? c) && (c <=? 57) then Some (c - 48) else if (97 <=? c) && (c <=? 102) then Some (c - 87)
  else if (65 <=? c) && (c <=? 70) then Some (c - 55) else None.
Fixpoint hex_number (acc : N) (s : text) : option N :=
  match s with [] => Some acc | c :: r => match hex_value c with Some d => hex_number (acc * 16 + d) r | None => None end end.
(** reading the text form of RFC 4122: 8-4-4-4-12 *)
Definition read_uuid (s : text) : option uuid :=
  if Nat.eqb (length s) 36 && (nth 8 s 0 =? 45) && (nth 13 s 0 =? 45) && (nth 18 s 0 =? 45) && (nth 23 s 0 =? 45) then
    match hex_number 0 (firstn 8 s ++ firstn 4 (skipn 9 s) ++ firstn 4 (skipn 14 s)),
          hex_number 0 (firstn 4 (skipn 19 s) ++ firstn 12 (skipn 24 s)) with
    | Some ab, Some cd => Some (mkUuid ab cd)
    | _, _ => None
    end
  else None.

(** percent-decoding *)
Fixpoint url_decode (s : text) : option text :=
  match s with
  | [] => Some []
  | c :: r =>
      if c =? 37 then
        match r with
        | a :: b :: r => match hex_value a, hex_value b, url_decode r with
                         | Some x, Some y, Some t => Some (x * 16 + y :: t)
                         | _, _, _ => None
                         end
        | _ => None
        end
      else option_map (cons c) (url_decode r)
  end.

(** simulation names: allowed characters, no two slashes in a row *)
Definition valid_name (s : text) : Prop := Forall (fun c => c = 47 \/ In c safe_chars) s /\ ~ exists a b, s = a ++ [47; 47] ++ b.
Definition without_slash (s : text) : text := match s with c :: r => if c =? 47 then r else s | [] => [] end.
