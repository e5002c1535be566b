(** Models of two helper threads: the handling of signals, SilKit/source/util/SignalHandler.cpp:110-258 (S, for UNIX), and the timer of metrics,
    SilKit/source/services/metrics/MetricsTimerThread.cpp (T). Threads are interleaved; one step is one access to what they share. *)
From Coq Require Import List Arith Bool.
Import ListNotations.

(** ** Signals *)
Inductive sg := Int | Term.
Definition sg_eqb (a b : sg) : bool := match a, b with Int, Int | Term, Term => true | _, _ => false end.
(** what the process does on a signal: SIG_IGN, SIG_DFL (it ends), systemHandler *)
Inductive disp := Ign | Dfl | Mine.
(** S:182-195 the thread: before it is started, before the read, before the comparison of the number, before the call, ended. Other failures of read than to block are left out. *)
Inductive worker := WNone | WRead | WCheck | WCall | WEnd.
(** S:134-201: [m_num] the number of the signal, None is INVALID_SIGNAL_NUMBER; [m_pipe] bytes in the pipe (a full pipe takes no more, which makes no difference); [m_has] the function is not empty *)
Record monitor := mkMon { m_num : option sg; m_pipe : nat; m_worker : worker; m_has : bool }.
(** the steps of the main thread in RegisterSignalHandler and ShutdownSignalHandler (S:139-170,250-258); [MAssign] is reset(new): the pointer is changed, then the old object destroyed *)
Inductive micro := MMake (has : bool) | MSet (s : sg) | MStart | MAssign | MClear | MRestore (s : sg) | MStop (i : nat) | MJoin (i : nat).
Inductive call := Register (has : bool) | Shutdown.
(** [Delivered i s]: the signal handler told monitor [i]; [Dropped]: there was none; [Handled i n]: the function of [i] is called with [n]; [Stopped]: Notify(-1) by the destructor; [Joined]: the destructor joined the thread *)
Inductive event := Delivered (i : nat) (s : sg) | Dropped (s : sg) | Killed | Handled (i : nat) (n : option sg) | Stopped (i : nat) | Joined (i : nat).
Record st := mkSt { g : option nat; mons : list monitor; d_int : disp; d_term : disp; prog : list micro; log : list event; dead : bool }.
Definition init (di dt : disp) : st := mkSt None [] di dt [] [] false.

Definition steps (c : call) : list micro := match c with Register has => [MMake has; MSet Int; MSet Term; MStart; MAssign] | Shutdown => [MClear] end.
(** S:161-170 *)
Definition destroy (i : nat) : list micro := [MRestore Int; MRestore Term; MStop i; MJoin i].
Definition getm (i : nat) (l : list monitor) : option monitor := nth_error l i.
Fixpoint setm (i : nat) (m : monitor) (l : list monitor) : list monitor :=
  match l, i with [], _ => [] | _ :: l, 0 => m :: l | x :: l, S i => x :: setm i m l end.
(** S:203-234 *)
Definition set_disp (old new : disp) : disp := match old with Ign => Ign | _ => new end.
Definition with_disp (s : sg) (new : disp) (x : st) (p : list micro) : st :=
  match s with
  | Int => mkSt (g x) (mons x) (set_disp (d_int x) new) (d_term x) p (log x) (dead x)
  | Term => mkSt (g x) (mons x) (d_int x) (set_disp (d_term x) new) p (log x) (dead x)
  end.
Definition disp_of (s : sg) (x : st) : disp := match s with Int => d_int x | Term => d_term x end.
(** S:172-179 *)
Definition notify (n : option sg) (m : monitor) : monitor := mkMon n (S (m_pipe m)) (m_worker m) (m_has m).
Definition main_step (x : st) : st :=
  match prog x with
  | [] => x
  | MMake has :: p => mkSt (g x) (mons x ++ [mkMon None 0 WNone has]) (d_int x) (d_term x) p (log x) (dead x)
  | MSet s :: p => with_disp s Mine x p
  | MStart :: p => let i := pred (length (mons x)) in
      match getm i (mons x) with
      | Some m => mkSt (g x) (setm i (mkMon (m_num m) (m_pipe m) WRead (m_has m)) (mons x)) (d_int x) (d_term x) p (log x) (dead x)
      | None => x
      end
  | MAssign :: p => mkSt (Some (pred (length (mons x)))) (mons x) (d_int x) (d_term x) (match g x with Some i => destroy i | None => [] end ++ p) (log x) (dead x)
  | MClear :: p => mkSt None (mons x) (d_int x) (d_term x) (match g x with Some i => destroy i | None => [] end ++ p) (log x) (dead x)
  | MRestore s :: p => with_disp s Dfl x p
  | MStop i :: p =>
      match getm i (mons x) with
      | Some m => mkSt (g x) (setm i (notify None m) (mons x)) (d_int x) (d_term x) p (log x ++ [Stopped i]) (dead x)
      | None => x
      end
  | MJoin i :: p =>
      match getm i (mons x) with
      | Some m => match m_worker m with WEnd => mkSt (g x) (mons x) (d_int x) (d_term x) p (log x ++ [Joined i]) (dead x) | _ => x end
      | None => x
      end
  end.
(** S:236-242, taken as one step *)
Definition signal (s : sg) (x : st) : st :=
  match disp_of s x with
  | Ign => x
  | Dfl => mkSt (g x) (mons x) (d_int x) (d_term x) (prog x) (log x ++ [Killed]) true
  | Mine => match g x with
            | None => mkSt (g x) (mons x) (d_int x) (d_term x) (prog x) (log x ++ [Dropped s]) (dead x)
            | Some i => match getm i (mons x) with
                        | Some m => mkSt (g x) (setm i (notify (Some s) m) (mons x)) (d_int x) (d_term x) (prog x) (log x ++ [Delivered i s]) (dead x)
                        | None => x
                        end
            end
  end.
(** S:182-195 *)
Definition work (i : nat) (x : st) : st :=
  match getm i (mons x) with
  | None => x
  | Some m =>
      let to w := setm i (mkMon (m_num m) (m_pipe m) w (m_has m)) (mons x) in
      match m_worker m with
      | WRead => match m_pipe m with
                 | 0 => x
                 | S p => mkSt (g x) (setm i (mkMon (m_num m) p WCheck (m_has m)) (mons x)) (d_int x) (d_term x) (prog x) (log x) (dead x)
                 end
      | WCheck => mkSt (g x) (to (match m_num m with Some _ => if m_has m then WCall else WEnd | None => WEnd end)) (d_int x) (d_term x) (prog x) (log x) (dead x)
      | WCall => mkSt (g x) (to WEnd) (d_int x) (d_term x) (prog x) (log x ++ [Handled i (m_num m)]) (dead x)
      | _ => x
      end
  end.
Inductive op := Call (c : call) | Main | Signal (s : sg) | Work (i : nat).
Definition step (x : st) (o : op) : st :=
  if dead x then x
  else match o with
       | Call c => match prog x with [] => mkSt (g x) (mons x) (d_int x) (d_term x) (steps c) (log x) (dead x) | _ => x end
       | Main => main_step x
       | Signal s => signal s x
       | Work i => work i x
       end.
Definition run (ops : list op) (x : st) : st := fold_left step ops x.

(** ** The timer of metrics *)
(** T:58-93: before go.get(), before or in wait_for, in the callback, ended *)
Inductive tworker := TGo | TWait | TCall | TEnd.
(** T:17-42: the object is used; go was set by the destructor; done was set; the thread is joined *)
Inductive tmain := Used | Going | Finishing | Gone.
Record timer := mkTimer { t_started : bool; t_go : bool; t_done : bool; t_worker : tworker; t_main : tmain }.
Definition timer0 : timer := mkTimer false false false TGo Used.
(** [TStart]: Start is called (before the destructor); [TGoD], [TDoneD], [TJoin]: the destructor; [TGot]: go.get returns; [TTimeout], [TReady]: wait_for returns; [TBack]: the callback returns or throws *)
Inductive top := TStart | TGoD | TDoneD | TJoin | TGot | TTimeout | TReady | TBack.
(** A step is possible iff the result is not None. [TTimeout] is the beginning of a call of the callback. *)
Definition tstep (x : timer) (o : top) : option timer :=
  match o with
  | TStart => match t_main x with Used => Some (mkTimer true true (t_done x) (t_worker x) (t_main x)) | _ => None end
  | TGoD => match t_main x with Used => Some (mkTimer true true (t_done x) (t_worker x) Going) | _ => None end
  | TDoneD => match t_main x with Going => Some (mkTimer (t_started x) (t_go x) true (t_worker x) Finishing) | _ => None end
  | TJoin => match t_main x, t_worker x with Finishing, TEnd => Some (mkTimer (t_started x) (t_go x) (t_done x) (t_worker x) Gone) | _, _ => None end
  | TGot => match t_worker x with TGo => if t_go x then Some (mkTimer (t_started x) (t_go x) (t_done x) TWait (t_main x)) else None | _ => None end
  | TTimeout => match t_worker x with TWait => if t_done x then None else Some (mkTimer (t_started x) (t_go x) (t_done x) TCall (t_main x)) | _ => None end
  | TReady => match t_worker x with TWait => if t_done x then Some (mkTimer (t_started x) (t_go x) (t_done x) TEnd (t_main x)) else None | _ => None end
  | TBack => match t_worker x with TCall => Some (mkTimer (t_started x) (t_go x) (t_done x) TWait (t_main x)) | _ => None end
  end.
(** what happens in a sequence of possible steps; steps that are not possible are left out *)
Fixpoint trun (ops : list top) (x : timer) : timer * list top :=
  match ops with [] => (x, []) | o :: ops => match tstep x o with Some x' => let '(x2, l) := trun ops x' in (x2, o :: l) | None => trun ops x end end.
