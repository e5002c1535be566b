(** Vocabulary of the properties of LIN networks without network simulator. *)
From Coq Require Import NArith List Arith Bool.
From Verif Require Import Base LinModel.
Import ListNotations.
Open Scope N_scope.

(** the entry of the response table of the controller for an id *)
Definition entry (id : N) (c : ctrl) : option response := nth_error (nd_resp (this_node c)) (N.to_nat id).
(** the frame the controller is configured to answer with *)
Definition answer (id : N) (c : ctrl) : option frame :=
  match entry id c with Some (mkR f RTx) => Some f | _ => None end.
Definition operational (c : ctrl) : bool := cstatus_eqb (c_status c) StOperational.
(** the operational nodes configured to respond *)
Definition responders (id : N) (s : lnet) : list nat :=
  filter (fun i => operational (ln_c s i) && match answer id (ln_c s i) with Some _ => true | None => false end) (List.seq 0 (ln_size s)).
(** nothing is on its way *)
Definition quiescent (s : lnet) : Prop := forall i j, ln_q s i j = [].
(** no controller uses the dynamic response mode and none joins *)
Definition static_nop (o : lnop) : bool :=
  match o with NApi _ (LInitDynamic _) | NApi _ (LDynamicResponse _) | NJoin => false | _ => true end.
Definition is_deliver (o : lnop) : bool := match o with NDeliver _ _ => true | _ => false end.
(** the transmissions among the outputs, with the node that sent them *)
Definition transmissions (o : list (nat * lout)) : list (nat * frame * fstatus) :=
  flat_map (fun p => match snd p with OSend (MTransmission f st) => [(fst p, f, st)] | _ => [] end) o.
(** the frame status events a controller has reported *)
Definition statuses (i : nat) (o : list (nat * lout)) : list (frame * fstatus) :=
  flat_map (fun p => if (fst p =? i)%nat then match snd p with OFrameStatus f st => [(f, st)] | _ => [] end else []) o.
(** what a node which does not answer reports about a frame that was transmitted successfully *)
Definition reception (c : ctrl) (f : frame) : list (frame * fstatus) :=
  if cmode_eqb (c_mode c) Inactive || negb (operational c) || (8 <? f_len f) then [] else
  match entry (f_id f) c with
  | Some (mkR g RRx) =>
      if (negb (f_len g =? 255) && negb (f_len g =? f_len f))
         || (negb (csm_eqb (f_csm f) CsUnknown) && negb (csm_eqb (f_csm g) CsUnknown) && negb (csm_eqb (f_csm g) (f_csm f)))
      then [(f, RxError)] else [(f, RxOk)]
  | _ => []
  end.
