(** What the theorems about the C API say, apart from the model: ranges of types,
    structs whose fields are all there, and when one field holds what another held. *)
From Coq Require Import String Ascii List ZArith NArith Bool.
From Verif Require Import CapiModel.
Import ListNotations.
Open Scope string_scope. Open Scope Z_scope. Open Scope list_scope.

Definition lo (t : cty) : Z :=
  match t with
  | I8 => -(2 ^ 7) | I16 => -(2 ^ 15) | I32 => -(2 ^ 31) | I64 => -(2 ^ 63) | _ => 0
  end.
Definition hi (t : cty) : Z :=
  match t with
  | U8 | CBool => 2 ^ 8 - 1 | U16 => 2 ^ 16 - 1 | U32 => 2 ^ 32 - 1 | U64 | TPtr => 2 ^ 64 - 1
  | I8 => 2 ^ 7 - 1 | I16 => 2 ^ 15 - 1 | I32 => 2 ^ 31 - 1 | I64 => 2 ^ 63 - 1
  | TBool => 1 | TBytes | TArr8 => 0
  end.

(** a value of a type; the pointer of a range that is not empty is not null *)
Definition has_ty (t : cty) (v : val) : Prop :=
  match t with
  | TBytes => exists nn bs, v = VB nn bs /\ (bs <> [] -> nn = true)
  | TArr8 => exists bs, v = VB true bs /\ length bs = 8%nat
  | _ => exists z, v = VI z /\ lo t <= z <= hi t
  end.

(** a struct all of whose fields are initialised *)
Definition typed (l : layout) (s : store) : Prop :=
  forall f t, In (f, t) l -> exists v, get s f = Some v /\ has_ty t v.

(** the same value; for ranges, the same bytes *)
Definition same (v w : val) : Prop :=
  match v, w with
  | VI a, VI b => a = b
  | VB _ a, VB _ b => a = b
  | _, _ => False
  end.

(** [b] is [a] as a number of type [t]: congruent modulo the size of the type, and in its range *)
Definition as_type (t : cty) (a b : Z) : Prop :=
  lo t <= b <= hi t /\
  match t with TBool => b = a | _ => exists k, b = a + k * 2 ^ width t end.

Definition holds (t : cty) (v w : val) : Prop :=
  match v, w with
  | VI a, VI b => as_type t a b
  | VB _ a, VB _ b => a = b
  | _, _ => False
  end.

(** the fields of a struct of ranges of bytes have sizes that fit into 32 bits *)
Definition sizes_fit (s : store) : Prop :=
  forall f nn bs, get s f = Some (VB nn bs) -> Z.of_nat (length bs) < 2 ^ 32.

(** A C++ struct, the C struct it is turned into, the two conversions, the fields that have
    another name in the C struct, the headers of the C struct and of the structs it points to, and whether
    the sizes of ranges of bytes are narrowed to 32 bits *)
Record pair := {
  p_name : string; p_x : layout; p_c : layout; p_out : conv; p_in : conv;
  p_names : list (string * string); p_headers : list (string * sid); p_narrow : bool }.

(** the name of a field in the C struct *)
Definition c_name (p : pair) (f : string) : string :=
  match get (p_names p) f with Some g => g | None => f end.

(** what is given to a conversion from C: the struct that was initialised with its own identifiers, and whose
    booleans are 0 or 1 *)
Definition c_struct (p : pair) (s : store) : Prop :=
  typed (p_c p) s /\
  (forall h i, In (h, i) (p_headers p) -> get s h = Some (VI (struct_id i))) /\
  (forall f, In (f, CBool) (p_c p) -> get s f = Some (VI 0) \/ get s f = Some (VI 1)).

(** a parameter of a kind that a function follows *)
Definition is_pointer (k : kind) : bool := match k with KContext | KValue => false | _ => true end.

(** arguments with which a function is to be carried out: valid headers, booleans 0 or 1 *)
Definition header_good (v : arg) : Prop :=
  match v with AStruct h _ => id_valid h = true | _ => True end.
Definition good_arg (v : arg) : Prop :=
  match v with
  | AStruct h fs => id_valid h = true /\
      forall f x, get fs f = Some x -> header_good x /\ forall z, x = AVal z -> z = 0 \/ z = 1
  | _ => True
  end.
Definition good_args (f : capi_function) (a : args) : Prop :=
  (forall x, In x (needs f) -> is_null a x = false) /\ (forall p v, get a p = Some v -> good_arg v).
