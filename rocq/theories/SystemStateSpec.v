From Coq Require Import List NArith Arith Bool.
From Verif Require Import Base SystemStateModel.
Import ListNotations.
Local Open Scope N_scope.

(** What a participant's own messages and disconnects say about it: the last status it reported, Shutdown being final
    until it disconnects. A message without a valid state leaves a trace of an unknown participant as Invalid. *)
Definition view_step (p : N) (v : option status) (e : mev) : option status :=
  match e with
  | MMsg q st stamp =>
      if q =? p then
        match v with
        | Some (Shutdown, x) => Some (Shutdown, x)
        | _ => match st with
               | Some Invalid | None => match v with Some s => Some s | None => Some (Invalid, 0) end
               | Some s => Some (s, stamp)
               end
        end
      else v
  | MDisconnected q _ _ => if q =? p then None else v
  | _ => v
  end.
Definition view (p : N) (l : list mev) : option status := fold_left (view_step p) l None.
Definition reported (p : N) (s : lstate) (l : list mev) : Prop := exists x, view p l = Some (s, x).
Definition required (l : list mev) : list N :=
  fold_left (fun r e => match e with MRequired ns _ => ns | _ => r end) l [].
Definition connected (p : N) (l : list mev) : bool :=
  fold_left (fun b e => match e with MConnected q => if q =? p then true else b
                                   | MDisconnected q _ _ => if q =? p then false else b
                                   | _ => b end) l false.
Definition final (l : list mev) : monitor := snd (mrun l mon_init).
Definition outputs (l : list mev) : list mout := fst (mrun l mon_init).
Definition system_state (l : list mev) : lstate := tr_sys (m_tr (final l)).

(** The system states announced to a handler, the status messages passed to a handler about a participant. *)
Definition sys_seen (h : N) (o : list mout) : list lstate :=
  flat_map (fun x => match x with MSys h' s => if h' =? h then [s] else [] | _ => [] end) o.
Definition status_seen (h p : N) (o : list mout) : list status :=
  flat_map (fun x => match x with MStatus h' p' s => if (h' =? h) && (p' =? p) then [s] else [] | _ => [] end) o.
Fixpoint no_repeat {A} (l : list A) : Prop :=
  match l with
  | x :: ((y :: _) as r) => x <> y /\ no_repeat r
  | _ => True
  end.

(** What an event makes known about a participant: a state other than the one it was in. *)
Definition change (p : N) (v : option status) (e : mev) : list status :=
  match e with
  | MMsg q (Some s) stamp =>
      if q =? p then
        match v with
        | Some (o, _) => if lstate_eqb o Shutdown || lstate_eqb o s || lstate_eqb s Invalid then [] else [(s, stamp)]
        | None => if lstate_eqb s Invalid then [] else [(s, stamp)]
        end
      else []
  | MDisconnected q stamp _ =>
      if q =? p then
        match v with
        | Some (o, _) => if one_of [Shutdown; Invalid; Error] o then [] else [(Error, stamp)]
        | None => []
        end
      else []
  | _ => []
  end.
(** What a handler should see about a participant: on registration its current status if it is connected, and from then
    on every change, in order. *)
Fixpoint status_expected (h p : N) (reg conn : bool) (v : option status) (l : list mev) : list status :=
  match l with
  | [] => []
  | e :: r =>
      let conn' := match e with MConnected q => if q =? p then true else conn
                              | MDisconnected q _ _ => if q =? p then false else conn | _ => conn end in
      match e with
      | MAddStatus h' =>
          if h' =? h then
            (if conn then match v with Some (s, x) => if lstate_eqb s Invalid then [] else [(s, x)] | None => [] end else [])
            ++ status_expected h p true conn' v r
          else status_expected h p reg conn' v r
      | _ => (if reg then change p v e else []) ++ status_expected h p reg conn' (view_step p v e) r
      end
  end.
Definition sys_registrations (h : N) (l : list mev) : nat :=
  length (filter (fun e => match e with MAddSys h' => h' =? h | _ => false end) l).
Definition status_registrations (h : N) (l : list mev) : nat :=
  length (filter (fun e => match e with MAddStatus h' => h' =? h | _ => false end) l).
