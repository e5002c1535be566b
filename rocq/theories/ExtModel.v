(** Model of loading extensions: SilKit/source/extensions/SilKitExtensions.cpp (E), SilKitExtensionImpl/DllCache.hpp (C), SilKitExtensionImpl/SilKitExtensionLoader.hpp (L),
    detail/LoadExtension_posix.cpp (P), SilKitExtensionApi/SilKitExtensionMacros.hpp. Texts of messages are left out; what the loaded code does is not modelled. *)
From Coq Require Import String Ascii NArith ZArith List Bool Lia.
From Verif Require Import Base TextModel YamlModel.
Import ListNotations.
Open Scope N_scope.
Open Scope list_scope.

(** SilKitExtensionABI.h: the descriptor; the names of extension and vendor are not looked at *)
Record descr := mkDescr { d_major : N; d_minor : N; d_patch : N; d_system : text; d_build : list N }.
(** what CreateExtension returns: nothing, or an instance with the interfaces it can be cast to *)
Inductive instance := NoInstance | Instance (id : N) (interfaces : list N).
(** a library that can be opened, by what its symbols are; None: there is no such symbol *)
Record library := mkLib { l_descr : option descr; l_create : option instance; l_release : bool }.
(** the host (E:55-77), the file system, the loader, the environment.
    [h_exists]: std::filesystem::exists, an exception if the status of the path cannot be determined; [h_process]: P:63-77, None for the exception of [buf.at] if the path of the
    executable has PATH_MAX characters or more *)
Record host := mkHost { h_version : N * N * N; h_build : list N; h_system : text;
  h_exists : text -> res bool; h_absolute : text -> text; h_open : text -> option library; h_env : text -> option text; h_process : option text;
  h_prefix : text; h_extension : text }.

(** E:41-49: the arrays are of the same size *)
Fixpoint build_compatible (a b : list N) : bool := match a, b with [], [] => true | x :: a, y :: b => (x =? y) && build_compatible a b | _, _ => false end.
(** E:51-112; the result is whether a warning about the system is logged *)
Definition verify (h : host) (d : descr) : res bool :=
  let '(ma, mi, pa) := h_version h in
  if negb (d_major d =? ma) || negb (d_minor d =? mi) || negb (d_patch d =? pa) then Exn
  else if negb (build_compatible (h_build h) (d_build d)) then Exn
  else Ok (negb (text_eqb (h_system h) (d_system d)) || text_eqb (h_system h) (lit "UNKNOWN")).

(** std::filesystem::path's operator/ for POSIX *)
Definition join_path (dir p : text) : text :=
  match p with
  | 47 :: _ => p
  | _ => match dir with [] => p | _ => if last dir 0 =? 47 then dir ++ p else dir ++ 47 :: p end
  end.
(** E:120-126 *)
Definition candidates (h : host) (name : text) : list text :=
  let e := h_extension h in let p := h_prefix h in
  [name; p ++ name ++ lit "d" ++ e; name ++ lit "d" ++ e; p ++ name ++ e; name ++ e].
(** E:129-141; None: the hint is skipped *)
Definition dir_of (h : host) (hint : text) : option text := if text_eqb (firstn 4 hint) (lit "ENV:") then h_env h (skipn 4 hint) else Some hint.
(** E:144-153 *)
Fixpoint found (h : host) (dir : text) (cs : list text) : res (list text) :=
  match cs with
  | [] => Ok []
  | c :: cs => let p := join_path dir c in e <- h_exists h p ;; r <- found h dir cs ;; Ok (if e : bool then h_absolute h p :: r else r)
  end.
(** E:118-156 *)
Fixpoint find_library (h : host) (cs : list text) (hints : list text) : res (list text) :=
  match hints with
  | [] => Ok []
  | x :: r => match dir_of h x with
              | None => find_library h cs r
              | Some dir => a <- found h dir cs ;; b <- find_library h cs r ;; Ok (a ++ b)
              end
  end.

(** what is done *)
Inductive event := Opened (p : text) | Closed (p : text) | Created (p : text) | Released (p : text) | WarnSystem (p : text).
(** E:184-205: None is the null pointer *)
Definition check_lib (h : host) (p : text) : list event * option library :=
  match h_open h p with
  | None => ([], None)
  | Some l => match l_descr l with
              | None => ([Opened p], None)
              | Some d => match verify h d with Ok w => (Opened p :: (if w then [WarnSystem p] else []), Some l) | _ => ([Opened p], None) end
              end
  end.
(** E:207-222 *)
Fixpoint first_good (h : host) (ps : list text) : list event * option (text * library) :=
  match ps with
  | [] => ([], None)
  | p :: ps => match check_lib h p with
               | (ev, Some l) => (ev, Some (p, l))
               | (ev, None) => let '(ev', r) := first_good h ps in (ev ++ ev', r)
               end
  end.
(** outcomes: an exception that is an ExtensionError, another one, the extension with the path of its library (for the deleter) *)
Inductive loaded := LoadError | OtherError | Loaded (p : text) (i : instance).
(** E:172-252 *)
Definition load (h : host) (name : text) (hints : list text) : list event * loaded :=
  match h_process h with
  | None => ([], OtherError)
  | Some proc =>
      match find_library h (candidates h name) (hints ++ [lit "ENV:SILKIT_EXTENSION_PATH"; lit "."; proc]) with
      | Ok ps =>
          match first_good h ps with
          | (ev, None) => (ev, LoadError)
          | (ev, Some (p, l)) =>
              match l_create l, l_release l with
              | Some i, true => (ev ++ [Created p], Loaded p i)
              | _, _ => (ev, LoadError)
              end
          end
      | _ => ([], OtherError)
      end
  end.
(** E:246-251: the deleter; dlclose is assumed to succeed *)
Definition release (p : text) : list event := [Released p; Closed p].

(** C:28-62, one cache per interface (L:26). [k_dll]: the library and instance; the shared pointer is null if there is no instance, but then has a deleter, too *)
Record cache := mkCache { k_name : text; k_dll : option (text * instance) }.
Definition cache0 : cache := mkCache [] None.
Inductive got := GotError | GotOther | GotUndefined | GotExtension (id : N) (interfaces : list N).
Definition is_null (d : option (text * instance)) : bool := match d with Some (_, Instance _ _) => false | _ => true end.
Definition get (h : host) (name : text) (hints : list text) (k : cache) : list event * cache * got :=
  let '(ev, k', r) :=
    if is_null (k_dll k)
    then match load h name hints with
         | (ev, Loaded p i) => (ev ++ match k_dll k with Some (q, _) => release q | None => [] end, mkCache name (Some (p, i)), Ok tt)
         | (ev, LoadError) => (ev, k, Exn)
         | (ev, OtherError) => (ev, k, UB)
         end
    else ([], k, Ok tt) in
  (ev, k', match r with
           | Exn => GotError
           | UB => GotOther
           | Ok _ => if negb (text_eqb name (k_name k')) then GotError
                     else match k_dll k' with Some (_, Instance id is) => GotExtension id is | _ => GotUndefined end
           end).
(** L:22-46: the cast to the interface [f] *)
Definition loader (h : host) (f : N) (name : text) (hints : list text) (k : cache) : list event * cache * got :=
  let '(ev, k', r) := get h name hints k in
  (ev, k', match r with GotExtension id is => if existsb (N.eqb f) is then r else GotError | _ => r end).
(** calls one after another, each with the state of the world at its time *)
Definition call := (host * N * text * list text)%type.
Fixpoint calls (cs : list call) (k : cache) : list event * cache * list got :=
  match cs with
  | [] => ([], k, [])
  | (h, f, name, hints) :: cs => let '(ev, k1, g) := loader h f name hints k in let '(ev', k2, gs) := calls cs k1 in (ev ++ ev', k2, g :: gs)
  end.
