From Coq Require Import String Ascii NArith List Arith Bool.
From Verif Require Import Base TextModel.
Import ListNotations.
Open Scope N_scope.
Open Scope list_scope.

(** Model of core/vasio/TransformAcceptorUris.cpp *)

(** What asio::ip::make_address tells about a host: IPv4 or IPv6, unspecified (0.0.0.0 or ::), loopback. [None] if it is not an address.
    The function itself is a parameter of the model. *)
Record addr := mkAddr { a_v4 : bool; a_any : bool; a_loop : bool }.
Definition resolver := text -> option addr.

(** TransformAcceptorUris.hpp, UriInfo *)
Record info := mkInfo { n_local : bool; n_ip4 : bool; n_ip6 : bool; n_catchall : bool; n_loop : bool }.
Definition info0 : info := mkInfo false false false false false.
(** TransformAcceptorUris.cpp:34-74 *)
Definition uri_info (mk : resolver) (u : uri) : info :=
  let host := filter (fun c => negb ((c =? 91) || (c =? 93))) (i_host u) in
  match i_type u with
  | LocalUri => mkInfo true false false false false
  | TcpUri =>
      match mk host with
      | Some a => mkInfo (a_loop a) (a_v4 a) (negb (a_v4 a)) (a_any a) (a_loop a)
      | None => info0
      end
  | _ => info0
  end.

(** std::less on std::string: lexicographic on unsigned bytes *)
Fixpoint text_lt (x y : text) : bool :=
  match x, y with
  | _, [] => false
  | [], _ :: _ => true
  | a :: x, b :: y => if a <? b then true else if b <? a then false else text_lt x y
  end.
(** 24-30, 84: std::set<Uri> ordered by the text; an equal element is not inserted *)
Fixpoint insert (u : uri) (l : list uri) : list uri :=
  match l with
  | [] => [u]
  | v :: r => if text_lt (i_str u) (i_str v) then u :: l else if text_lt (i_str v) (i_str u) then v :: insert u r else l
  end.
(** 95-104 *)
Definition new_tcp (host : text) (p : N) (l : list uri) : res (list uri) := bind (make_tcp host p) (fun u => Ok (insert u l)).
Definition when (b : bool) (f : list uri -> res (list uri)) (l : list uri) : res (list uri) := if b then f l else Ok l.

(** 123-184: one acceptor URI of the advertised peer *)
Definition decide (mk : resolver) (src dst : uri) (s : text) (l : list uri) : res (list uri) :=
  bind (parse s) (fun u =>
    let ui := uri_info mk u in let si := uri_info mk src in let di := uri_info mk dst in
    if n_catchall ui then
      bind (when (n_local si) (fun l =>
              bind (when (n_local di) (fun l =>
                      bind (when (n_ip4 ui) (new_tcp (lit "127.0.0.1") (port u)) l)
                           (when (n_ip6 ui) (new_tcp (lit "[::1]") (port u)))) l)
              (fun l => bind (when (n_ip4 ui && n_ip4 di) (new_tcp (i_host dst) (port u)) l)
                             (when (n_ip6 ui && n_ip6 di) (new_tcp (i_host dst) (port u))))) l)
      (fun l => bind (when (n_ip4 ui && n_ip4 si) (new_tcp (i_host src) (port u)) l)
                     (when (n_ip6 ui && n_ip6 si) (new_tcp (i_host src) (port u))))
    else Ok (insert u l)).
Fixpoint decide_all (mk : resolver) (src dst : uri) (ss : list text) (l : list uri) : res (list uri) :=
  match ss with [] => Ok l | s :: ss => bind (decide mk src dst s l) (decide_all mk src dst ss) end.

(** 189-219: std::multimap<int, std::string>, equal keys in the order of insertion *)
Fixpoint minsert (k : N) (s : text) (l : list (N * text)) : list (N * text) :=
  match l with
  | [] => [(k, s)]
  | x :: r => if k <? fst x then (k, s) :: l else x :: minsert k s r
  end.
Definition penalty (mk : resolver) (di : info) (u : uri) : N :=
  match i_type u with
  | LocalUri => 0
  | _ => if n_loop (uri_info mk u) then (if n_local di then 1000 else 2000) else (if n_local di then 2000 else 1000)
  end.
Definition local_or_tcp (u : uri) : bool := match i_type u with LocalUri | TcpUri => true | _ => false end.
(** 76-236; the arguments are the remote address of the advertised peer, the local address of the audience peer, and the acceptor URIs
    of the advertised peer *)
Definition transform (mk : resolver) (source dest : text) (acceptors : list text) : res (list text) :=
  bind (parse source) (fun src => bind (parse dest) (fun dst =>
    if negb (local_or_tcp src) then Exn else if negb (local_or_tcp dst) then Exn
    else bind (decide_all mk src dst acceptors []) (fun us =>
      Ok (map snd (fold_left (fun m u => minsert (penalty mk (uri_info mk dst) u) (i_str u) m) us []))))).
