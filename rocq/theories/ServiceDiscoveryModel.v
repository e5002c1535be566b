(** Model of S/core/service/ServiceDiscovery.{hpp,cpp} (S = /repo/SilKit/source). Names are numbers, compared for equality
    only. A descriptor has its participant name, its cache key (to_string, ServiceDescriptor.hpp 275-306), whether its
    controller type is the service discovery, and the rest of it ([d_rest]). The unordered maps are association lists in
    order of insertion: the iteration order of the real ones is unspecified, and no theorem depends on it. Handlers that
    call back into the service discovery from within their notification are left out. *)
From Coq Require Import List NArith Arith Bool.
From Verif Require Import Base.
Import ListNotations.
Local Open Scope N_scope.

Record desc := mkDesc { d_part : N; d_key : N; d_sd : bool; d_rest : N }.
(** ServiceDiscovery.hpp 77-84: [_servicesByParticipant] as a list of (participant, descriptor), the key of the inner map
    being the cache key of the descriptor; [_handlers]; [_shuttingDown]. *)
Record sdstate := mkSd { sd_known : list (N * desc); sd_handlers : list N; sd_down : bool }.
Definition sd_init : sdstate := mkSd [] [] false.

Definition knows (p k : N) (l : list (N * desc)) : bool := existsb (fun x => (fst x =? p) && (d_key (snd x) =? k)) l.
Definition forget (p k : N) (l : list (N * desc)) : list (N * desc) :=
  filter (fun x => negb ((fst x =? p) && (d_key (snd x) =? k))) l.

(** What the service discovery does: it calls a handler, changes the specific discovery store, or sends. *)
Inductive sdout := SNote (h : N) (created : bool) (d : desc) | SStore (created : bool) (d : desc)
                 | SAnnounce (p : N) (ds : list desc) | SBroadcast (created : bool) (d : desc).
(** ServiceDiscovery.cpp 200-208. *)
Definition call_handlers (c : bool) (d : desc) (s : sdstate) : list sdout := map (fun h => SNote h c d) (sd_handlers s).

(** ServiceDiscovery.cpp 44-67. *)
Fixpoint participant_addition (p : N) (ds : list desc) (s : sdstate) : list sdout * sdstate :=
  match ds with
  | [] => ([], s)
  | d :: r =>
      if knows p (d_key d) (sd_known s) then participant_addition p r s else
      let s' := mkSd (sd_known s ++ [(p, d)]) (sd_handlers s) (sd_down s) in
      let (o, s'') := participant_addition p r s' in
      (SStore true d :: call_handlers true d s ++ o, s'')
  end.
(** ServiceDiscovery.cpp 69-88. *)
Definition participant_removal (me p : N) (s : sdstate) : list sdout * sdstate :=
  if p =? me then ([], s) else
  (flat_map (fun x => SStore false (snd x) :: call_handlers false (snd x) s) (filter (fun x => fst x =? p) (sd_known s)),
   mkSd (filter (fun x => negb (fst x =? p)) (sd_known s)) (sd_handlers s) (sd_down s)).
(** ServiceDiscovery.cpp 139-182. *)
Definition service_addition (me : N) (d : desc) (s : sdstate) : list sdout * sdstate :=
  let p := d_part d in
  if knows p (d_key d) (sd_known s) then ([], s) else
  let ann := if negb (p =? me) && d_sd d
             then [SAnnounce p (map snd (filter (fun x => fst x =? me) (sd_known s)))] else [] in
  (ann ++ SStore true d :: call_handlers true d s, mkSd (sd_known s ++ [(p, d)]) (sd_handlers s) (sd_down s)).
(** ServiceDiscovery.cpp 184-198. *)
Definition service_removal (d : desc) (s : sdstate) : list sdout * sdstate :=
  if knows (d_part d) (d_key d) (sd_known s)
  then (SStore false d :: call_handlers false d s,
        mkSd (forget (d_part d) (d_key d) (sd_known s)) (sd_handlers s) (sd_down s))
  else ([], s).
(** ServiceDiscovery.cpp 225-243. *)
Definition register_handler (h : N) (s : sdstate) : list sdout * sdstate :=
  (map (fun x => SNote h true (snd x)) (sd_known s), mkSd (sd_known s) (sd_handlers s ++ [h]) (sd_down s)).

Inductive sdev :=
| SParticipant (p : N) (ds : list desc)   (* ReceiveMsg(ParticipantDiscoveryEvent), 35-42 *)
| SLeave (p : N)                          (* OnParticpantRemoval *)
| SCreatedMsg (d : desc)                  (* ReceiveMsg(ServiceDiscoveryEvent), 122-137 *)
| SRemovedMsg (d : desc)
| SCreatedLocal (d : desc)                (* NotifyServiceCreated, 90-104 *)
| SRemovedLocal (d : desc)                (* NotifyServiceRemoved, 106-120 *)
| SRegister (h : N)
| SDestroy.                               (* ~ServiceDiscovery, 18-23 *)
(** OnParticpantRemoval is the only entry point that does not look at [_shuttingDown]. *)
Definition sdstep (me : N) (e : sdev) (s : sdstate) : list sdout * sdstate :=
  match e with
  | SLeave p => participant_removal me p s
  | SDestroy => ([], mkSd (sd_known s) (sd_handlers s) true)
  | _ =>
      if sd_down s then ([], s) else
      match e with
      | SParticipant p ds => participant_addition p ds s
      | SCreatedMsg d => service_addition me d s
      | SRemovedMsg d => service_removal d s
      | SCreatedLocal d => let (o, s') := service_addition me d s in (o ++ [SBroadcast true d], s')
      | SRemovedLocal d => let (o, s') := service_removal d s in (o ++ [SBroadcast false d], s')
      | SRegister h => register_handler h s
      | _ => ([], s)
      end
  end.
Fixpoint sdrun (me : N) (l : list sdev) (s : sdstate) : list sdout * sdstate :=
  match l with
  | [] => ([], s)
  | e :: r => let (o, s') := sdstep me e s in let (o', s'') := sdrun me r s' in (o ++ o', s'')
  end.
(** ServiceDiscovery.cpp 210-223. *)
Definition get_services (s : sdstate) : list desc := map snd (sd_known s).
