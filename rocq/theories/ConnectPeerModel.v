(** Connecting to one peer: SilKit/source/core/vasio/ConnectPeer.cpp, with the connectors of
    core/vasio/io/impl/AsioConnector.hpp as its environment.

    Host names are resolved by a function argument (AsioIoContext.cpp:283-302, asio).  What a new connector does is a
    function argument, too: making or starting it throws, it fails before AsyncConnect returns
    (AsioConnector.hpp:179-185, the socket options cannot be set), or it completes later.  Dispatch runs its argument at
    once, as asio::dispatch does on the I/O thread; the first call may come from another thread and is then run
    later, which makes no difference because nothing else happens to the object before. *)
From Coq Require Import String Ascii List NArith Arith Bool.
From Verif Require Import Base TextModel.
Import ListNotations.
Open Scope list_scope.
Open Scope nat_scope.

(** ** UpdateUris, ConnectPeer.cpp:89-163 *)
(** 76-84 *)
Definition has (c : N) (s : text) : bool := existsb (N.eqb c) s.
Definition is_ip4 (s : text) : bool := has 46 s && negb (has 58 s).
Definition is_ip6 (s : text) : bool := negb (has 46 s) && has 58 s.
(** 105-115; the address contains a colon, so it is not empty *)
Definition bracket (s : text) : text :=
  if is_ip6 s then
    let s := if (hd 0 s =? 91)%N then s else 91%N :: s in
    if (last s 0 =? 93)%N then s else s ++ [93%N]
  else s.
(** 103-119: the URIs of the addresses; an exception ends the loop, what was added before stays *)
Fixpoint tcp_uris (port : N) (addrs : list text) : list uri :=
  match addrs with
  | [] => []
  | a :: r => match make_tcp (bracket a) port with Ok u => u :: tcp_uris port r | _ => [] end
  end.
Section Resolve.
  Variable resolve : text -> res (list text).
  (** 93-137: one acceptor URI of the peer *)
  Definition uris_of (s : text) : list uri :=
    match parse s with
    | Ok u => match i_type u with
              | TcpUri => match resolve (i_host u) with Ok l => tcp_uris (port u) l | _ => [] end
              | _ => [u]
              end
    | _ => []
    end.
  (** 141-158 *)
  Definition penalty (u : uri) : nat :=
    match i_type u with
    | LocalUri => 100
    | TcpUri => if is_ip4 (i_host u) then 200 else if is_ip6 (i_host u) then 300 else 400
    | _ => 500
    end.
  (** 140: std::stable_sort *)
  Fixpoint place (u : uri) (l : list uri) : list uri :=
    match l with
    | [] => [u]
    | v :: r => if penalty u <=? penalty v then u :: l else v :: place u r
    end.
  Fixpoint stable_sort (l : list uri) : list uri := match l with [] => [] | u :: r => place u (stable_sort r) end.
  Definition update_uris (l : list text) : list uri := stable_sort (flat_map uris_of l).
End Resolve.

(** ** Connecting *)
(** What a new connector does (see above). *)
Inductive outcome := Throws | FailsNow | Starts.
(** [ETry]: a URI is taken from the list (191-198); [ESuccess], [EFailure]: the listener is called;
    [EShutdown]: Shutdown was called. *)
Inductive ev := ETry (u : uri) | ESuccess (u : uri) | EFailure | EShutdown.

(** ConnectPeer.hpp:45-53.  [p_conn]: the connector and its URI, [p_made]: how many connectors were made,
    [p_dead]: the listener has destroyed the object, [p_ub]: the object was used after that. *)
Record st := mkSt {
  p_started : bool; p_left : nat; p_idx : nat; p_conn : option uri; p_made : nat;
  p_dead : bool; p_ub : bool; p_log : list ev }.
Definition init : st := mkSt false 1 0 None 0 false false [].

Definition out (e : ev) (s : st) : st :=
  mkSt (p_started s) (p_left s) (p_idx s) (p_conn s) (p_made s) (p_dead s) (p_ub s) (p_log s ++ [e]).
Definition set_pos (l i : nat) (s : st) : st :=
  mkSt (p_started s) l i (p_conn s) (p_made s) (p_dead s) (p_ub s) (p_log s).
Definition set_conn (c : option uri) (s : st) : st :=
  mkSt (p_started s) (p_left s) (p_idx s) c (p_made s) (p_dead s) (p_ub s) (p_log s).
Definition made (s : st) : st :=
  mkSt (p_started s) (p_left s) (p_idx s) (p_conn s) (S (p_made s)) (p_dead s) (p_ub s) (p_log s).
Definition crash (s : st) : st :=
  mkSt (p_started s) (p_left s) (p_idx s) (p_conn s) (p_made s) (p_dead s) true (p_log s).
Definition kill (b : bool) (s : st) : st :=
  mkSt (p_started s) (p_left s) (p_idx s) (p_conn s) (p_made s) (p_dead s || b) (p_ub s) (p_log s).

Section Connect.
  Variable uris : list uri.
  Variable domain : bool.              (* _enableDomainSockets *)
  Variable env : nat -> outcome.       (* what the n-th connector does *)
  Variable destroys : bool.            (* the listener destroys the object when it is called, as
                                          ConnectKnownParticipants.cpp:398-399, 414-415 and
                                          RemoteConnectionManager.cpp:76, 91 do, and VAsioConnection.cpp:519-524 does not *)

  (** 259-268 HandleFailure *)
  Definition handle_failure (s : st) : st := kill destroys (out EFailure (set_conn None s)).
  (** 247-257 HandleSuccess *)
  Definition handle_success (u : uri) (s : st) : st := kill destroys (out (ESuccess u) (set_conn None s)).

  (** 203-224: a connector is made for a TCP URI, and for a local one if they are enabled; an earlier connector that is
      still there is started a second time, which throws (AsioConnector.hpp:172-175) *)
  Definition connectable (u : uri) : bool :=
    match i_type u with TcpUri => true | LocalUri => domain | _ => false end.

  (** 166-256 TryNextUri.  [None]: out of fuel.  With [FailsNow] the listener of the connector,
      OnAsyncConnectFailure (281-287), runs inside of AsyncConnect, and TryNextUri goes on after it. *)
  Fixpoint try_next (fuel : nat) (s : st) : option st :=
    match fuel with
    | O => None
    | S fuel =>
        if p_dead s then Some (crash s)
        else if p_left s =? 0 then Some (handle_failure s)
        else if length uris =? 0 then Some (handle_failure s)
        else
          match nth_error uris (p_idx s) with
          | None => try_next fuel (set_pos (p_left s - 1) 0 s)
          | Some u =>
              let s := out (ETry u) (set_pos (p_left s) (S (p_idx s)) s) in
              if connectable u then
                let o := env (p_made s) in
                let s := made s in
                match o with
                | Throws => try_next fuel (set_conn None s)
                | Starts => Some (set_conn (Some u) s)
                | FailsNow =>
                    match try_next fuel (set_conn None s) with
                    | None => None
                    | Some s => if p_dead s then Some (crash s)
                                else match p_conn s with None => try_next fuel s | Some _ => Some s end
                    end
                end
              else try_next fuel (set_conn None s)
          end
    end.
  (** enough for all rounds, see [try_next_total] *)
  Definition fuel (s : st) : nat := S (p_left s * S (length uris) + S (length uris) - p_idx s).
  Definition next (s : st) : st := match try_next (fuel s) s with Some s => s | None => crash s end.

  (** [OStart n]: AsyncConnect (57-65), called once; [OSuccess], [OFail]: the connector completes (273-287);
      [OShutdown] (68-76): closes the socket, and the connector will complete. *)
  Inductive op := OStart (n : nat) | OSuccess | OFail | OShutdown.
  Definition step (s : st) (o : op) : st :=
    match o with
    | OStart n => if p_started s then s
                  else next (mkSt true (Nat.max n 1) (p_idx s) (p_conn s) (p_made s) (p_dead s) (p_ub s) (p_log s))
    | OSuccess => match p_conn s with Some u => handle_success u s | None => s end
    | OFail => match p_conn s with Some _ => next (set_conn None s) | None => s end
    | OShutdown => out EShutdown s
    end.
  Definition run (ops : list op) : st := fold_left step ops init.
End Connect.
