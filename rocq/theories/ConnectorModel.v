(** Model of establishing one connection: SilKit/source/core/vasio/io/impl/AsioConnector.hpp (A). All steps are those of the thread that runs the io_context; the network and the clock are arbitrary.
    An operation of asio first completes (with or without error), then its handler is called; cancelling and closing a socket only have an effect on operations that are not yet complete. *)
From Coq Require Import List Arith Bool.
Import ListNotations.

(** A:44-50; TIMED_OUT is not used *)
Inductive phase := Idle | Pending | Connected.
(** an operation of asio: not started or its handler was called, not complete, complete without ([true]) or with error *)
Inductive operation := ONone | OWait | OReady (ok : bool).
(** [Success s]: OnAsyncConnectSuccess with a stream of socket [s]; [Failure]: OnAsyncConnectFailure; [Refused]: AsyncConnect throws InvalidStateError; [BadState]: a handler throws it;
    [NoEndpoint]: local_endpoint() throws since the socket was closed; [NoListener]: the listener is a null pointer *)
Inductive event := Success (s : nat) | Failure | Refused | BadState | NoEndpoint | NoListener.
(** A:52-93: [k_parent] _parent is not null, [k_sock] the socket in the Op (sockets are numbered), [k_next] the next number, [k_closed] sockets that are not open, [k_ctx] the weak pointer to the io_context can be locked *)
Record st := mkSt { k_parent : bool; k_listener : bool; k_phase : phase; k_sock : nat; k_next : nat; k_closed : list nat; k_conn : operation; k_timer : operation; k_ctx : bool; k_log : list event }.
Definition init : st := mkSt true false Idle 0 1 [] ONone ONone true [].
Definition closed (n : nat) (x : st) : bool := existsb (Nat.eqb n) (k_closed x).
Definition logged (e : event) (x : st) : st := mkSt (k_parent x) (k_listener x) (k_phase x) (k_sock x) (k_next x) (k_closed x) (k_conn x) (k_timer x) (k_ctx x) (k_log x ++ [e]).
(** A:228-255 *)
Definition call (e : event) (x : st) : st := if k_parent x then logged (if k_listener x then e else NoListener) x else x.
Definition cancel (o : operation) : operation := match o with OWait => OReady false | o => o end.

(** A:171-206. [fails]: an option of the socket cannot be set. async_connect opens a closed socket again, which is another one *)
Definition connect (timeout fails : bool) (x : st) : st :=
  match k_phase x with
  | Idle =>
      if fails then call Failure (mkSt (k_parent x) (k_listener x) Pending (k_sock x) (k_next x) (k_closed x) (k_conn x) (k_timer x) (k_ctx x) (k_log x))
      else let again := closed (k_sock x) x in
           mkSt (k_parent x) (k_listener x) Pending (if again then k_next x else k_sock x) (if again then S (k_next x) else k_next x) (k_closed x) OWait (if timeout then OWait else k_timer x) (k_ctx x) (k_log x)
  | _ => logged Refused x
  end.
(** A:209-216 *)
Definition shutdown (x : st) : st :=
  mkSt (k_parent x) (k_listener x) (k_phase x) (k_sock x) (k_next x) (k_sock x :: k_closed x) (cancel (k_conn x)) (cancel (k_timer x)) (k_ctx x) (k_log x).
(** A:118-125,219-225 *)
Definition destroy (x : st) : st := shutdown (mkSt false (k_listener x) (k_phase x) (k_sock x) (k_next x) (k_closed x) (k_conn x) (k_timer x) (k_ctx x) (k_log x)).
(** A:258-296. The socket of the Op is exchanged with one that is not open. A stream that is not given to a listener is destroyed, which closes its socket. *)
Definition on_connect (ok : bool) (x : st) : st :=
  match k_phase x with
  | Pending =>
      if negb ok then call Failure (mkSt (k_parent x) (k_listener x) Connected (k_sock x) (k_next x) (k_closed x) ONone (k_timer x) (k_ctx x) (k_log x))
      else if negb (k_ctx x) then mkSt (k_parent x) (k_listener x) Connected (k_sock x) (k_next x) (k_closed x) ONone (k_timer x) (k_ctx x) (k_log x)
      else if closed (k_sock x) x then logged NoEndpoint (mkSt (k_parent x) (k_listener x) Connected (k_next x) (S (k_next x)) (k_next x :: k_closed x) ONone (k_timer x) (k_ctx x) (k_log x))
      else if k_parent x then call (Success (k_sock x)) (mkSt (k_parent x) (k_listener x) Connected (k_next x) (S (k_next x)) (k_next x :: k_closed x) ONone (cancel (k_timer x)) (k_ctx x) (k_log x))
      else mkSt (k_parent x) (k_listener x) Connected (k_next x) (S (k_next x)) (k_sock x :: k_next x :: k_closed x) ONone (cancel (k_timer x)) (k_ctx x) (k_log x)
  | _ => logged BadState (mkSt (k_parent x) (k_listener x) (k_phase x) (k_sock x) (k_next x) (k_closed x) ONone (k_timer x) (k_ctx x) (k_log x))
  end.
(** A:299-313 *)
Definition on_timer (ok : bool) (x : st) : st :=
  mkSt (k_parent x) (k_listener x) (k_phase x) (k_sock x) (k_next x) (k_closed x) (if ok then match k_phase x with Pending => cancel (k_conn x) | _ => k_conn x end else k_conn x) ONone (k_ctx x) (k_log x).

(** [Connect timeout fails]: AsyncConnect, [timeout] iff the given time is positive; [Net ok], [Expire]: the operation completes; [HConnect], [HTimer]: its handler is called; [Drop]: the io_context is released by its owners.
    Members are not called after the destruction. *)
Inductive op := SetListener | Connect (timeout fails : bool) | Shutdown | Destroy | Net (ok : bool) | Expire | HConnect | HTimer | Drop.
Definition step (x : st) (o : op) : st :=
  match o with
  | SetListener => if k_parent x then mkSt true true (k_phase x) (k_sock x) (k_next x) (k_closed x) (k_conn x) (k_timer x) (k_ctx x) (k_log x) else x
  | Connect t f => if k_parent x then connect t f x else x
  | Shutdown => if k_parent x then shutdown x else x
  | Destroy => if k_parent x then destroy x else x
  | Net ok => match k_conn x with OWait => mkSt (k_parent x) (k_listener x) (k_phase x) (k_sock x) (k_next x) (k_closed x) (OReady ok) (k_timer x) (k_ctx x) (k_log x) | _ => x end
  | Expire => match k_timer x with OWait => mkSt (k_parent x) (k_listener x) (k_phase x) (k_sock x) (k_next x) (k_closed x) (k_conn x) (OReady true) (k_ctx x) (k_log x) | _ => x end
  | HConnect => match k_conn x with OReady ok => on_connect ok x | _ => x end
  | HTimer => match k_timer x with OReady ok => on_timer ok x | _ => x end
  | Drop => mkSt (k_parent x) (k_listener x) (k_phase x) (k_sock x) (k_next x) (k_closed x) (k_conn x) (k_timer x) false (k_log x)
  end.
Definition run (ops : list op) (x : st) : st := fold_left step ops x.
