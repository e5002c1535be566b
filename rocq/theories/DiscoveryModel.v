(** Model of S/util/LabelMatching.cpp and S/core/service/SpecificDiscoveryStore.{hpp,cpp} (S = /repo/SilKit/source).
    Strings (label keys and values, topics, function names) are only compared for equality: they are numbers here. The
    YAML text in which a descriptor carries its labels is left out; a descriptor has a list of labels. *)
From Coq Require Import List NArith Arith Bool.
From Verif Require Import Base.
Import ListNotations.
Local Open Scope N_scope.

(** silkit/services/datatypes.hpp MatchingLabel: key, value, kind (Mandatory or Optional). *)
Record label := mkLabel { l_key : N; l_val : N; l_mandatory : bool }.

(** LabelMatching.cpp 13-23; also the std::find_if of SpecificDiscoveryStore.cpp 327-328. *)
Fixpoint find_label (k : N) (ls : list label) : option label :=
  match ls with
  | [] => None
  | l :: r => if l_key l =? k then Some l else find_label k r
  end.
(** LabelMatching.cpp 25-45. *)
Definition label_matches_list (l : label) (ls : list label) : bool :=
  match find_label (l_key l) ls with
  | None => negb (l_mandatory l)
  | Some f => l_val l =? l_val f
  end.
(** LabelMatching.cpp 47-67. *)
Definition match_labels (a b : list label) : bool :=
  forallb (fun l => label_matches_list l b) a && forallb (fun l => label_matches_list l a) b.

(** A service descriptor or a registered handler: an identity and labels. Descriptors are compared with operator==
    (ServiceDescriptor.hpp 265-269), which identifies a service by participant, network, type and service id. *)
Record item := mkItem { i_id : N; i_labels : list label }.

(** SpecificDiscoveryStore.hpp 50-55. *)
Record cluster := mkCluster { c_nodes : list item; c_infos : list item }.
Definition cl_empty : cluster := mkCluster [] [].
Inductive side := Nodes | Infos.
Definition pick (sd : side) (c : cluster) : list item := match sd with Nodes => c_nodes c | Infos => c_infos c end.
(** SpecificDiscoveryStore.cpp 348-349, 382-383: the updaters. *)
Definition put (sd : side) (it : item) (c : cluster) : cluster :=
  match sd with
  | Nodes => mkCluster (c_nodes c ++ [it]) (c_infos c)
  | Infos => mkCluster (c_nodes c) (c_infos c ++ [it])
  end.

(** SpecificDiscoveryStore.hpp 58-69. The label map is a total function: an absent entry behaves as an empty one
    everywhere. In the map of the services without a label it matters whether an entry exists. *)
Record entry := mkEntry { e_label : N -> N -> cluster; e_not : N -> option cluster; e_nolabel : cluster; e_all : cluster }.
Definition e_empty : entry := mkEntry (fun _ _ => cl_empty) (fun _ => None) cl_empty cl_empty.
Definition upd {A} (f : N -> A) (k : N) (v : A) : N -> A := fun x => if x =? k then v else f x.
Definition upd2 {A} (f : N -> N -> A) (k v : N) (x : A) : N -> N -> A :=
  fun a b => if (a =? k) && (b =? v) then x else f a b.
(** operator[] of notLabelMap: creates an empty entry. *)
Definition not_touch (k : N) (e : entry) : entry :=
  match e_not e k with
  | Some _ => e
  | None => mkEntry (e_label e) (upd (e_not e) k (Some cl_empty)) (e_nolabel e) (e_all e)
  end.
Definition not_get (k : N) (e : entry) : cluster := match e_not e k with Some c => c | None => cl_empty end.

(** SpecificDiscoveryStore.cpp 208-245 ([Infos]) and 247-285 ([Nodes]), which are the same up to the member used. *)
Fixpoint greedy_loop (sd : side) (ls : list label) (count : nat) (best : option label) (e : entry) : option label * entry :=
  match ls with
  | [] => (best, e)
  | l :: r =>
      if (count <=? 1)%nat then (best, e) else
      let n := length (pick sd (e_label e (l_key l) (l_val l))) in
      if l_mandatory l then
        if (n <? count)%nat then greedy_loop sd r n (Some l) e else greedy_loop sd r count best e
      else
        let e' := not_touch (l_key l) e in
        let m := (n + length (pick sd (not_get (l_key l) e')))%nat in
        if ((0 <? m) && (m <? count))%nat then greedy_loop sd r m (Some l) e' else greedy_loop sd r count best e'
  end.
Definition greedy (sd : side) (ls : list label) (e : entry) : option label * entry :=
  greedy_loop sd ls (length (pick sd (e_all e))) None e.

(** SpecificDiscoveryStore.cpp 301-323: make sure that all labels are represented. *)
Definition ensure_label (e : entry) (l : label) : entry :=
  match e_not e (l_key l) with
  | Some _ => e
  | None => mkEntry (e_label e) (upd (e_not e) (l_key l) (Some (mkCluster (c_nodes (e_all e)) (c_infos (e_all e)))))
                    (e_nolabel e) (e_all e)
  end.
(** SpecificDiscoveryStore.cpp 287-342. The loop over notLabelMap (324-340) updates one cluster per key, which are
    different clusters for different keys: it is written pointwise. *)
Definition update_clusters (sd : side) (it : item) (e : entry) : entry :=
  let e1 := mkEntry (e_label e) (e_not e) (e_nolabel e) (put sd it (e_all e)) in
  match i_labels it with
  | [] => mkEntry (e_label e1) (e_not e1) (put sd it (e_nolabel e1)) (e_all e1)
  | ls =>
      let e2 := fold_left ensure_label ls e1 in
      mkEntry
        (fun k v => match e_not e2 k, find_label k ls with
                    | Some _, Some f => if l_val f =? v then put sd it (e_label e2 k v) else e_label e2 k v
                    | _, _ => e_label e2 k v
                    end)
        (fun k => match e_not e2 k, find_label k ls with
                  | Some c, None => Some (put sd it c)
                  | o, _ => o
                  end)
        (e_nolabel e2) (e_all e2)
  end.

(** SpecificDiscoveryStore.cpp 352-375. *)
Definition drop_node (id : N) (c : cluster) : cluster :=
  mkCluster (filter (fun x => negb (i_id x =? id)) (c_nodes c)) (c_infos c).
Definition remove_node (id : N) (e : entry) : entry :=
  mkEntry (fun k v => drop_node id (e_label e k v)) (fun k => option_map (drop_node id) (e_not e k))
          (drop_node id (e_nolabel e)) (drop_node id (e_all e)).

(** SpecificDiscoveryStore.hpp 155-157: the controller types that take part. *)
Inductive ctype := CDataPublisher | CRpcClient | CRpcServerInternal.
Definition ctype_eqb (a b : ctype) : bool :=
  match a, b with
  | CDataPublisher, CDataPublisher | CRpcClient, CRpcClient | CRpcServerInternal, CRpcServerInternal => true
  | _, _ => false
  end.

(** SpecificDiscoveryStore.cpp 79-133 ([me] is the new handler, [Nodes]) and 136-190 ([me] is the service, [Infos]): the
    items of the other side to notify about, in order. [skip] is skipLabelCheck of line 149. *)
Definition candidates (sd : side) (skip : bool) (me : item) (e : entry) : list item * entry :=
  let (g, e') := greedy sd (i_labels me) e in
  let ok := fun x => match_labels (i_labels me) (i_labels x) in
  match g with
  | None => (filter (fun x => skip || ok x) (pick sd (e_all e')), e')
  | Some l =>
      if l_mandatory l then (filter ok (pick sd (e_label e' (l_key l) (l_val l))), e')
      else
        let e'' := not_touch (l_key l) e' in
        (filter ok (pick sd (not_get (l_key l) e'')) ++ filter ok (pick sd (e_nolabel e'')) ++
         filter ok (pick sd (e_label e'' (l_key l) (l_val l))), e'')
  end.

(** The store: one entry per controller type and topic / function / client id (SpecificDiscoveryStore.hpp 161). *)
Definition store := ctype -> N -> entry.
Definition st_empty : store := fun _ _ => e_empty.
Definition st_set (st : store) (t : ctype) (k : N) (e : entry) : store :=
  fun t' k' => if ctype_eqb t' t && (k' =? k) then e else st t' k'.

(** Labels of a descriptor: SpecificDiscoveryStore.cpp 33-62 and 386-409; an internal RPC server has none. *)
Definition svc_item (t : ctype) (it : item) : item :=
  match t with CRpcServerInternal => mkItem (i_id it) [] | _ => it end.

Inductive dev := DCreated (t : ctype) (k : N) (s : item) | DRemoved (t : ctype) (k : N) (s : item)
               | DRegister (t : ctype) (k : N) (h : item).
(** A call of a handler: (handler, created or removed, service). *)
Definition note := (N * bool * N)%type.
(** SpecificDiscoveryStore.cpp 22-76 and 411-417. The handlers are called in between; those that create services do so
    for other entries of the store. *)
Definition dstep (e : dev) (st : store) : list note * store :=
  match e with
  | DCreated t k s0 =>
      let s := svc_item t s0 in
      let (hs, en) := candidates Infos (ctype_eqb t CRpcServerInternal) s (st t k) in
      (map (fun h => (i_id h, true, i_id s)) hs, st_set st t k (update_clusters Nodes s en))
  | DRemoved t k s0 =>
      let s := svc_item t s0 in
      let (hs, en) := candidates Infos (ctype_eqb t CRpcServerInternal) s (st t k) in
      (map (fun h => (i_id h, false, i_id s)) hs, st_set st t k (remove_node (i_id s) en))
  | DRegister t k h =>
      let (ss, en) := candidates Nodes false h (st t k) in
      (map (fun s => (i_id h, true, i_id s)) ss, st_set st t k (update_clusters Infos h en))
  end.
Fixpoint drun (l : list dev) (st : store) : store :=
  match l with
  | [] => st
  | e :: r => drun r (snd (dstep e st))
  end.
