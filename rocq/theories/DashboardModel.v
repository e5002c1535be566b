(** Model of the dashboard: SilKit/source/dashboard/LockedQueue.hpp, DashboardInstance.{hpp,cpp}, DashboardBulkUpdate.hpp.
    Simulations, participants, services and metrics are numbers; system times, connect URIs and logging are left out. *)
From Coq Require Import NArith List Arith Bool Lia.
From Verif Require Import Base SystemStateModel.
Import ListNotations.
Open Scope N_scope.

(** ** LockedQueue.hpp *)
Section Queue.
  Variable T : Type.
  Record queue := mkQ { q_items : list T; q_stop : bool }.
  Definition queue0 := mkQ [] false.
  (** 39-62 *)
  Definition enqueue (x : T) (q : queue) : queue := if q_stop q then q else mkQ (q_items q ++ [x]) (q_stop q).
  (** 64-72; [None]: the wait blocks. [events] is the vector passed by the caller. *)
  Definition dequeue_all (events : list T) (q : queue) : option (bool * list T * queue) :=
    match q_items q, q_stop q with
    | [], false => None
    | _, _ => let ev := events ++ q_items q in Some (match ev with [] => false | _ => true end, ev, mkQ [] (q_stop q))
    end.
  (** 74-82 *)
  Definition stop (q : queue) : queue := mkQ (q_items q) true.

  (** The threads: each Enqueue and Stop first changes the queue under the lock and notifies afterwards; the consumer tests the
      predicate under the lock and then waits. [n_pending]: threads between their change and their notification.
      [n_waiting]: the consumer sleeps in the condition variable. [n_got]: what it dequeued. *)
  Record net := mkN { n_q : queue; n_pending : nat; n_waiting : bool; n_got : list T }.
  Definition net0 := mkN queue0 0 false [].
  Inductive nop := NEnqueue (x : T) | NStop | NNotify | NConsume | NSpurious.
  Definition nstep (o : nop) (s : net) : net :=
    match o with
    | NEnqueue x => mkN (enqueue x (n_q s)) (S (n_pending s)) (n_waiting s) (n_got s)
    | NStop => mkN (stop (n_q s)) (S (n_pending s)) (n_waiting s) (n_got s)
    | NNotify => match n_pending s with O => s | S k => mkN (n_q s) k false (n_got s) end
    | NSpurious => mkN (n_q s) (n_pending s) false (n_got s)
    | NConsume =>
        if n_waiting s then s else
        match dequeue_all [] (n_q s) with
        | None => mkN (n_q s) (n_pending s) true (n_got s)
        | Some (_, ev, q) => mkN q (n_pending s) false (n_got s ++ ev)
        end
    end.
  Definition nrun (l : list nop) (s : net) : net := fold_left (fun s o => nstep o s) l s.
End Queue.
Arguments mkQ {T}. Arguments q_items {T}. Arguments q_stop {T}. Arguments queue0 {T}. Arguments enqueue {T}. Arguments dequeue_all {T}. Arguments stop {T}.
Arguments mkN {T}. Arguments n_q {T}. Arguments n_pending {T}. Arguments n_waiting {T}. Arguments n_got {T}. Arguments net0 {T}. Arguments nstep {T}. Arguments nrun {T}.
Arguments NEnqueue {T}. Arguments NStop {T}. Arguments NNotify {T}. Arguments NConsume {T}. Arguments NSpurious {T}.

(** ** SilKitEvent.hpp *)
Inductive payload := PStart | PConnected (p : N) | PStatus (p : N) (s : lstate) (stamp : N) | PSystem (s : lstate) | PService (d : N) | PEnd | PMetric (m : N).
Definition event := (N * payload)%type.

(** ** DashboardInstance.cpp, the registry event listener; called by the I/O thread of the registry only *)
Definition sims := list (N * tracker).
(** 296-300 GetOrCreateSimulationData; 302-305 RemoveSimulationData *)
Definition sim_get (n : N) (s : sims) : tracker := match find (fun x => fst x =? n) s with Some x => snd x | None => tr_init end.
Fixpoint sim_set (n : N) (t : tracker) (s : sims) : sims :=
  match s with [] => [(n, t)] | (m, x) :: r => if m =? n then (n, t) :: r else (m, x) :: sim_set n t r end.
Definition sim_remove (n : N) (s : sims) : sims := filter (fun x => negb (fst x =? n)) s.
Definition tr_empty (t : tracker) : bool := match tr_cache t with [] => true | _ => false end.
Inductive dinput :=
| DConnected (n p : N)                                   (* 322-342 *)
| DDisconnected (n p : N) (c : nat)                      (* 344-370 *)
| DRequired (n : N) (ns : list N) (c : nat)              (* 372-389 *)
| DStatus (n p : N) (st : option lstate) (stamp : N)     (* 391-414 *)
| DService (n d : N) (skip : bool)                       (* 416-432; skip: 21-26 *)
| DMetric (n m : N).                                     (* 434-446 *)
(** the events enqueued by a callback. An invalid status makes the tracker throw. *)
Definition dstep (i : dinput) (s : sims) : sims * list event :=
  match i with
  | DConnected n p =>
      (sim_set n (sim_get n s) s, (if tr_empty (sim_get n s) then [(n, PStart)] else []) ++ [(n, PConnected p)])
  | DDisconnected n p c =>
      let (ch, t) := remove_participant p c (sim_get n s) in
      let ev := if ch then [(n, PSystem (tr_sys t))] else [] in
      if tr_empty t then (sim_remove n (sim_set n t s), ev ++ [(n, PEnd)]) else (sim_set n t s, ev)
  | DRequired n ns c =>
      let (ch, t) := update_required ns c (sim_get n s) in
      (sim_set n t s, if ch then [(n, PSystem (tr_sys t))] else [])
  | DStatus n p st stamp =>
      let (r, t) := update_status p st stamp (sim_get n s) in
      (sim_set n t s,
       match r, st with
       | Some (pc, sc), Some x => (if pc then [(n, PStatus p x stamp)] else []) ++ (if sc then [(n, PSystem (tr_sys t))] else [])
       | _, _ => []
       end)
  | DService n d skip => (s, if skip then [] else [(n, PService d)])
  | DMetric n m => (s, [(n, PMetric m)])
  end.
Fixpoint drun (l : list dinput) (s : sims) : sims * list event :=
  match l with [] => (s, []) | i :: l => let (s, e) := dstep i s in let (s, es) := drun l s in (s, e ++ es) end.

(** ** DashboardInstance.cpp:113-252, the worker thread *)
(** DashboardBulkUpdate.hpp *)
Record bulk := mkBulk { b_conn : list payload; b_sys : list payload; b_stat : list payload; b_serv : list payload; b_stop : bool }.
Definition bulk0 := mkBulk [] [] [] [] false.
(** 32-36 *)
Definition bulk_empty (b : bulk) : bool :=
  match b_conn b, b_sys b, b_stat b, b_serv b, b_stop b with [], [], [], [], false => true | _, _, _, _, _ => false end.
(** requests sent to the dashboard server *)
Inductive req := RCreate (n id : N) | RBulk (id : N) (b : bulk) | RMetric (id m : N).
(** [w_ids]: the ids with which the server will answer the next creation requests; 0 or none left: the creation fails *)
Record worker := mkW { w_names : list (N * N); w_bulks : list (N * bulk); w_ids : list N }.
Definition worker0 (ids : list N) := mkW [] [] ids.
Definition name_id (n : N) (w : list (N * N)) : option N := match find (fun x => fst x =? n) w with Some x => Some (snd x) | None => None end.
Definition bulk_get (id : N) (l : list (N * bulk)) : bulk := match find (fun x => fst x =? id) l with Some x => snd x | None => bulk0 end.
Fixpoint bulk_set (id : N) (b : bulk) (l : list (N * bulk)) : list (N * bulk) :=
  match l with [] => [(id, b)] | (i, x) :: r => if i =? id then (id, b) :: r else (i, x) :: bulk_set id b r end.
(** 121-135 ProcessAllAccumulatedBulkUpdates; the order of the unordered map is that of the list *)
Definition flush_reqs (l : list (N * bulk)) : list req := flat_map (fun x => if bulk_empty (snd x) then [] else [RBulk (fst x) (snd x)]) l.
Definition flush_bulks (l : list (N * bulk)) : list (N * bulk) := map (fun x => if bulk_empty (snd x) then x else (fst x, bulk0)) l.
Definition add_item (p : payload) (b : bulk) : bulk :=
  match p with
  | PConnected _ => mkBulk (b_conn b ++ [p]) (b_sys b) (b_stat b) (b_serv b) (b_stop b)
  | PSystem _ => mkBulk (b_conn b) (b_sys b ++ [p]) (b_stat b) (b_serv b) (b_stop b)
  | PStatus _ _ _ => mkBulk (b_conn b) (b_sys b) (b_stat b ++ [p]) (b_serv b) (b_stop b)
  | PService _ => mkBulk (b_conn b) (b_sys b) (b_stat b) (b_serv b ++ [p]) (b_stop b)
  | PEnd => mkBulk (b_conn b) (b_sys b) (b_stat b) (b_serv b) true
  | _ => b
  end.
(** 146-247 one event *)
Definition wstep (e : event) (w : worker) : worker * list req :=
  let (n, p) := e in
  match p with
  | PStart =>
      let rs := flush_reqs (w_bulks w) in
      let bs := flush_bulks (w_bulks w) in
      match name_id n (w_names w) with
      | Some _ => (mkW (w_names w) bs (w_ids w), rs)
      | None =>
          let id := hd 0 (w_ids w) in
          if id =? 0 then (mkW (w_names w) bs (tl (w_ids w)), rs)
          else (mkW (w_names w ++ [(n, id)]) bs (tl (w_ids w)), rs ++ [RCreate n id])
      end
  | _ =>
      match name_id n (w_names w) with
      | None => (w, [])
      | Some id =>
          let b := add_item p (bulk_get id (w_bulks w)) in
          (mkW (match p with PEnd => filter (fun x => negb (fst x =? n)) (w_names w) | _ => w_names w end) (bulk_set id b (w_bulks w)) (w_ids w),
           match p with PMetric m => [RMetric id m] | _ => [] end)
      end
  end.
Fixpoint wevents (es : list event) (w : worker) : worker * list req :=
  match es with [] => (w, []) | e :: es => let (w, r) := wstep e w in let (w, rs) := wevents es w in (w, r ++ rs) end.
(** 119-251: batches as dequeued; [abort]: after how many further events the abort is seen (139-142), if at all *)
Fixpoint wbatches (abort : option nat) (bs : list (list event)) (w : worker) : worker * list req :=
  match bs with
  | [] => (w, [])
  | es :: bs =>
      match abort with
      | Some k =>
          if (k <? length es)%nat then wevents (firstn k es) w
          else let (w, r) := wevents es w in
               let (w', rs) := wbatches (Some (k - length es)%nat) bs (mkW (w_names w) (flush_bulks (w_bulks w)) (w_ids w)) in
               (w', r ++ flush_reqs (w_bulks w) ++ rs)
      | None =>
          let (w, r) := wevents es w in
          let (w', rs) := wbatches None bs (mkW (w_names w) (flush_bulks (w_bulks w)) (w_ids w)) in
          (w', r ++ flush_reqs (w_bulks w) ++ rs)
      end
  end.
