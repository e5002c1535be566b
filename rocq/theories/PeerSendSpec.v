From Coq Require Import List NArith Arith Bool.
From Verif Require Import Base PeerSendModel.
Import ListNotations.

Definition msg := (akind * list N)%type.
(** The messages passed to SendSilKitMsg, in call order. *)
Fixpoint sent (l : list txev) : list msg :=
  match l with
  | [] => []
  | ESend k b :: r => (k, b) :: sent r
  | _ :: r => sent r
  end.
Definition bytes_of (l : list msg) : list N := concat (map snd l).
Definition aggregated (m : msg) : bool := match fst m with KOther => false | _ => true end.
(** Nobody ends the connection. *)
Definition quiet (l : list txev) : Prop := ~ In EShut l /\ ~ In EFail l.
(** Everything the peer has passed to the operating system or still has queued for it, in order. *)
Definition outgoing (s : tx) : list N := t_wire s ++ t_cur s ++ concat (t_queue s).
Definition io_event (e : txev) : Prop := match e with ETimer | EDispatch | EWrote _ => True | _ => False end.
(** The number of write completions that suffice to send what is queued. *)
Definition writes_needed (s : tx) : nat :=
  (if t_sending s then S (length (t_cur s)) else 0) + fold_right (fun b n => S (length b) + n) 0 (t_queue s).
