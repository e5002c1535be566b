(** Model of listening for connections: SilKit/source/core/vasio/io/impl/AsioAcceptor.hpp (A) with asio as its environment, and
    core/vasio/VAsioConnection.cpp (V) as its listener: :249-285, :321-437, :1234-1327, :1972-2012, :2042-2084.

    asio: an outstanding operation waits until the network, a cancellation or closing the acceptor completes it; then its handler is queued and nothing can cancel it any more. All
    handlers run on one thread. Completions of the timer with an error do nothing (A:200-203) and are left out. *)
From Coq Require Import List Arith Bool.
Import ListNotations.

(** The result of an accept: an error, or a socket. [s_opts]: the options can be set (SetAsioSocketOptions.cpp:18-62); [s_local], [s_remote]: local_endpoint() and remote_endpoint()
    do not throw (remote_endpoint does if the connection was reset already); [s_peer]: making and adding the peer does not throw. *)
Record sock := mkSock { s_opts : bool; s_local : bool; s_remote : bool; s_peer : bool }.
Inductive result := RErr | RSock (s : sock).
Inductive aop := ANone | AWait | ADone (r : result).
(** A:33-59. [a_pending]: the state is PENDING; [t_wait]: the timer waits; [t_fired]: queued handlers of expired waits *)
Record acceptor := mkAcc { a_open : bool; a_pending : bool; a_op : aop; t_wait : bool; t_fired : nat }.
Definition acc0 : acceptor := mkAcc true false ANone false 0.

(** asio: cancelling, also closing, completes what waits with an error *)
Definition cancel (o : aop) : aop := match o with AWait => ADone RErr | _ => o end.
(** asio: async_accept of a closed acceptor completes with an error *)
Definition start_op (a : acceptor) : aop := if a_open a then AWait else ADone RErr.
(** A:124-150; None: InvalidStateError. [timed]: the timeout is positive; expires_after cancels the wait in progress *)
Definition async_accept (timed : bool) (a : acceptor) : option acceptor :=
  if a_pending a then None else Some (mkAcc (a_open a) true (start_op a) (if timed then true else t_wait a) (t_fired a)).
(** A:153-158 *)
Definition shutdown (a : acceptor) : acceptor := mkAcc false (a_pending a) (cancel (a_op a)) (t_wait a) (t_fired a).
(** what a completion does: calls the listener, or throws out of the handler *)
Inductive outcome := Success (s : sock) | Failure | Thrown.
(** A:161-195 *)
Definition complete (r : result) (a : acceptor) : acceptor * outcome :=
  let a' := mkAcc (a_open a) false ANone (t_wait a) (t_fired a) in
  if negb (a_pending a) then (mkAcc (a_open a) (a_pending a) ANone (t_wait a) (t_fired a), Thrown)
  else match r with
       | RErr => (a', Failure)
       | RSock s => if negb (s_opts s) then (a', Failure)
                    else if negb (s_local s) then (a', Thrown)
                    else (mkAcc (a_open a) false ANone false (t_fired a), Success s)
       end.
(** A:198-212, for a wait that was not cancelled *)
Definition expired (a : acceptor) : acceptor :=
  mkAcc (a_open a) (a_pending a) (if a_pending a then cancel (a_op a) else a_op a) (t_wait a) (pred (t_fired a)).

(** ** An acceptor with any listener. A listener that calls back from its callback does so as the last action of the handler, so it is a call after it. *)
Inductive op := OAccept (timed : bool) | OShutdown | ONet (r : result) | OExpire | ORunAccept | ORunTimer.
Inductive event := EAccepted | EInvalid | EDone (o : outcome).
Definition step (a : acceptor) (o : op) : acceptor * list event :=
  match o with
  | OAccept t => match async_accept t a with Some a' => (a', [EAccepted]) | None => (a, [EInvalid]) end
  | OShutdown => (shutdown a, [])
  | ONet r => (match a_op a with AWait => mkAcc (a_open a) (a_pending a) (ADone r) (t_wait a) (t_fired a) | _ => a end, [])
  | OExpire => (if t_wait a then mkAcc (a_open a) (a_pending a) (a_op a) false (S (t_fired a)) else a, [])
  | ORunAccept => match a_op a with ADone r => let '(a', o) := complete r a in (a', [EDone o]) | _ => (a, []) end
  | ORunTimer => (if t_fired a =? 0 then a else expired a, [])
  end.
Fixpoint run (ops : list op) (a : acceptor) : acceptor * list event :=
  match ops with [] => (a, []) | o :: ops => let '(a1, e1) := step a o in let '(a2, e2) := run ops a1 in (a2, e1 ++ e2) end.

(** ** The connection of a participant or of the registry *)
(** V: [c_list]: _acceptors, by number; [c_peers]: the acceptors that the peers in _peers came from *)
Record conn := mkConn { c_list : list (nat * acceptor); c_peers : list nat; c_next : nat; c_down : bool }.
Definition conn0 : conn := mkConn [] [] 0 false.
Definition lookup (i : nat) (l : list (nat * acceptor)) : option acceptor := option_map snd (find (fun x => fst x =? i) l).
Definition update (i : nat) (a : acceptor) (l : list (nat * acceptor)) : list (nat * acceptor) := map (fun x => if fst x =? i then (i, a) else x) l.
(** V:2074-2082 *)
Definition erase (i : nat) (l : list (nat * acceptor)) : list (nat * acceptor) := filter (fun x => negb (fst x =? i)) l.
(** V:2042-2066: the message has both endpoints, whatever is logged *)
Definition on_success (i : nat) (s : sock) (a : acceptor) (c : conn) : conn :=
  if negb (s_local s) || negb (s_remote s) then mkConn (update i a (c_list c)) (c_peers c) (c_next c) (c_down c)
  else if negb (s_peer s) then mkConn (update i a (c_list c)) (c_peers c) (c_next c) (c_down c)
  else match async_accept false a with
       | Some a' => mkConn (update i a' (c_list c)) (c_peers c ++ [i]) (c_next c) (c_down c)
       | None => mkConn (update i a (c_list c)) (c_peers c ++ [i]) (c_next c) (c_down c)
       end.
Inductive cop := COpen | CNet (i : nat) (r : result) | CRun (i : nat) | CShutdown.
(** V:347-357, 405-414, 1243-1254, 1301-1314: acceptors are made before the thread for handlers is started (V:466-484, VAsioRegistry.cpp), so opening one is one step.
    Exceptions out of handlers are logged, and the next handler is run (V:1216-1230). *)
Definition cstep (c : conn) (o : cop) : conn :=
  match o with
  | COpen => match async_accept false acc0 with
             | Some a => mkConn (c_list c ++ [(c_next c, a)]) (c_peers c) (S (c_next c)) (c_down c)
             | None => c
             end
  | CNet i r => match lookup i (c_list c) with
                | Some a => mkConn (update i (fst (step a (ONet r))) (c_list c)) (c_peers c) (c_next c) (c_down c)
                | None => c
                end
  | CRun i => match lookup i (c_list c) with
              | Some a => match a_op a with
                          | ADone r => match complete r a with
                                       | (_, Failure) => mkConn (erase i (c_list c)) (c_peers c) (c_next c) (c_down c)
                                       | (a', Thrown) => mkConn (update i a' (c_list c)) (c_peers c) (c_next c) (c_down c)
                                       | (a', Success s) => on_success i s a' c
                                       end
                          | _ => c
                          end
              | None => c
              end
  | CShutdown => mkConn (map (fun x => (fst x, shutdown (snd x))) (c_list c)) (c_peers c) (c_next c) true
  end.
Definition crun (ops : list cop) (c : conn) : conn := fold_left cstep ops c.
(** V:1972-2012: what is announced to the registry and to peers *)
Definition announced (c : conn) : list nat := map fst (c_list c).
