(** Capabilities of a participant: SilKit/source/core/vasio/VAsioCapabilities.cpp:20-119, .hpp:36-77,
    config/YamlParserUtils.cpp:23-47 ParseCapabilities, VAsioConnection.cpp:141-160
    MakeCapabilitiesFromConfiguration, 1951-1965 ParticipantHasCapability.

    The text is modelled where it is produced.  Where it is read, the model starts with the tree of
    rapidyaml; how the deserialization reads that tree is that of
    ThirdParty/rapidyaml/rapidyaml.hpp:23849-23853, 24692-24698, 31703-31712, 31797-31806, 18724-18737. *)
From Coq Require Import String Ascii NArith List Arith Bool.
From Verif Require Import Base TextModel.
Import ListNotations.
Open Scope N_scope.
Open Scope list_scope.

(** VAsioCapabilities.hpp:36-38 *)
Definition n_proxy : text := lit "proxy-message".
Definition n_autonomous : text := lit "autonomous-synchronous".
Definition n_request : text := lit "request-participant-connection-v2".

(** VAsioCapabilities.hpp:73-76; an unordered_set without duplicates.  The order of the list is that of
    insertion; see [to_text]. *)
Record caps := mkCaps { k_names : list text; k_proxy : bool; k_request : bool }.
Definition empty : caps := mkCaps [] false false.
(** VAsioCapabilities.cpp:30-33 *)
Definition has (x : text) (c : caps) : bool := existsb (text_eqb x) (k_names c).
(** VAsioCapabilities.cpp:25-28 *)
Definition count (c : caps) : nat := List.length (k_names c).
(** VAsioCapabilities.cpp:114-118 *)
Definition update_cache (c : caps) : caps := mkCaps (k_names c) (has n_proxy c) (has n_request c).
(** VAsioCapabilities.cpp:45-49 *)
Definition add (x : text) (c : caps) : caps :=
  update_cache (mkCaps (if has x c then k_names c else k_names c ++ [x]) (k_proxy c) (k_request c)).

(** std::quoted (VAsioCapabilities.cpp:76): the delimiter and the escape character are escaped. *)
Definition quote (x : text) : text :=
  34 :: flat_map (fun c => if (c =? 34) || (c =? 92) then [92; c] else [c]) x ++ [34].
(** VAsioCapabilities.cpp:74-77 *)
Definition item_text (x : text) : text := lit "{""name"":" ++ quote x ++ lit "}".
(** VAsioCapabilities.cpp:59-82; [l]: the names in the order in which the set is iterated. *)
Fixpoint items_text (first : bool) (l : list text) : text :=
  match l with
  | [] => []
  | x :: r => (if first then [] else lit ",") ++ item_text x ++ items_text false r
  end.
Definition to_text (l : list text) : text :=
  match l with [] => [] | _ => lit "[" ++ items_text true l ++ lit "]" end.

(** The tree of rapidyaml; [Nil]: a missing value as in `{a: }` (VALNIL). *)
Inductive node := Val (t : text) | Nil | Seq (l : list node) | Map (l : list (text * node)).
Definition is_map (n : node) : bool := match n with Map _ => true | _ => false end.
(** rapidyaml.hpp:23849-23853: [asserts]: RYML_USE_ASSERT; without it the scalar of a container is empty. *)
Definition read_val (asserts : bool) (n : node) : option text :=
  match n with
  | Val t => Some t
  | Nil => None
  | Seq _ | Map _ => if asserts then None else Some []
  end.
(** rapidyaml.hpp:31703-31712: (m)[k] = v for each child; the last one is kept. *)
Fixpoint assign (k v : text) (m : list (text * text)) : list (text * text) :=
  match m with
  | [] => [(k, v)]
  | (k', v') :: m => if text_eqb k k' then (k, v) :: m else (k', v') :: assign k v m
  end.
Fixpoint read_map (asserts : bool) (l : list (text * node)) (m : list (text * text)) : option (list (text * text)) :=
  match l with
  | [] => Some m
  | (k, v) :: l => match read_val asserts v with Some t => read_map asserts l (assign k t m) | None => None end
  end.
(** rapidyaml.hpp:31797-31806 *)
Fixpoint read_seq (asserts : bool) (l : list node) : option (list (list (text * text))) :=
  match l with
  | [] => Some []
  | Map kvs :: l => match read_map asserts kvs [], read_seq asserts l with Some m, Some r => Some (m :: r) | _, _ => None end
  | _ :: l => None
  end.
(** YamlParserUtils.cpp:23-47; None: an exception. *)
Definition parse_tree (asserts : bool) (n : node) : option (list (list (text * text))) :=
  match n with
  | Seq l => if forallb is_map l then read_seq asserts l else None
  | _ => None
  end.
Fixpoint find_key (k : text) (m : list (text * text)) : option text :=
  match m with [] => None | (k', v) :: m => if text_eqb k k' then Some v else find_key k m end.
(** VAsioCapabilities.cpp:96-101: item.at("name") throws if there is none. *)
Fixpoint add_items (l : list (list (text * text))) (c : caps) : option caps :=
  match l with
  | [] => Some c
  | m :: l => match find_key (lit "name") m with Some x => add_items l (add x c) | None => None end
  end.
(** The constructor, VAsioCapabilities.cpp:20-23, 85-112; [n]: None for the empty text.
    None: TypeConversionError, whatever was thrown. *)
Definition parse (asserts : bool) (n : option node) : option caps :=
  match n with
  | None => Some empty
  | Some n => match parse_tree asserts n with
              | Some l => match add_items l empty with Some c => Some (update_cache c) | None => None end
              | None => None
              end
  end.

(** VAsioConnection.cpp:141-160 *)
Definition of_config (proxy request : bool) : caps :=
  let c := add n_autonomous empty in
  let c := if proxy then add n_proxy c else c in
  if request then add n_request c else c.
