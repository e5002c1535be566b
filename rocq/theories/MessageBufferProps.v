(** C01: wire encoding of basic values. *)
From Coq Require Import List NArith ZArith Bool Lia Sorted.
From Verif Require Import Base MessageBufferModel MessageBufferSpec MessageBufferProofs.
Import ListNotations.
Local Open Scope N_scope.

(** Any value of any wire type is read back identically, consuming exactly the bytes written, whatever precedes and
    follows them in the buffer. *)
Theorem C01_value_roundtrip : forall (t : wty) (v : wval t),
  wty_ok t -> wval_ok t v -> roundtrips_ne (wwrite t v) (wread t) v.
Proof. exact rtne_value. Qed.
Print Assumptions C01_value_roundtrip.

(** Any sequence of writes into a fresh buffer is read back as the same sequence and consumes everything. *)
Theorem C01_sequence_roundtrip : forall (l : list wdyn), Forall wdyn_ok l ->
  exists bs, write_all l mbuf_new = Ok (mkMbuf bs (length bs) 0) /\
    read_all (map (@projT1 _ _) l) (mbuf_of bs) = Ok (l, mkMbuf bs (length bs) (length bs)).
Proof. exact sequence_roundtrip. Qed.
Print Assumptions C01_sequence_roundtrip.

(** Two different values of the same type never have the same encoding. *)
Theorem C01_encoding_injective : forall (t : wty) (v1 v2 : wval t) b,
  wty_ok t -> wval_ok t v1 -> wval_ok t v2 ->
  wwrite t v1 mbuf_new = Ok b -> wwrite t v2 mbuf_new = Ok b -> v1 = v2.
Proof. exact encoding_injective. Qed.
Print Assumptions C01_encoding_injective.

(** A vector of pairs of a string and a signed number, with bytes following. *)
Example C01_example :
  let t := TVec (TPair TBytes (TInt 8)) in
  let v : wval t := [([104; 105], (-5)%Z); ([], 9223372036854775807%Z)] in
  wty_ok t /\ wval_ok t v /\
  exists bs, wwrite t v mbuf_new = Ok (mkMbuf bs (length bs) 0) /\
             wread t (mbuf_of (bs ++ [1; 2; 3])) = Ok (v, mkMbuf (bs ++ [1; 2; 3]) (length bs + 3) (length bs)).
Proof.
  split; [cbn; lia|]. split; [cbn; repeat constructor; cbn; try lia; vm_compute; try discriminate; reflexivity|].
  exists [2; 0; 0; 0; 2; 0; 0; 0; 104; 105; 251; 255; 255; 255; 255; 255; 255; 255; 0; 0; 0; 0; 255; 255; 255; 255; 255;
    255; 255; 127].
  split; vm_compute; reflexivity.
Qed.
(** Strings of 2^32 bytes or more cannot be written. *)
Theorem C01_oversized_rejected : forall bs b, 2 ^ 32 <= Nlen bs -> w_bytes bs b = Exn.
Proof. exact bytes_oversized. Qed.
Print Assumptions C01_oversized_rejected.
