(** What is expected of the node store and the ring. *)
From Verif Require Import Nodes_Model.
Local Open Scope N_scope.

Section spec.
Variable rhash : N -> string -> string -> option Z -> N.
Notation hash := (node_hash rhash).

(** What [slice::binary_search_by] promises. *)
Definition searches (search : list N -> N -> nat) : Prop :=
  forall ks k, StronglySorted N.le ks ->
    (k ∈ ks -> ks !! search ks k = Some k) /\
    (k ∉ ks -> search ks k = length (List.filter (fun x => x <? k) ks)).

(** The node that a point of the ring belongs to: the next one on the ring, with the first
    one after the last. *)
Definition next_on_ring (P : rnode -> Prop) (h : N) (n : rnode) : Prop :=
  P n /\
  ((h <= hash n /\ forall m, P m -> h <= hash m -> hash n <= hash m) \/
   ((forall m, P m -> hash m < h) /\ forall m, P m -> hash n <= hash m)).

(** Nodes with different hashes. *)
Definition no_collision (P : rnode -> Prop) : Prop :=
  forall a b, P a -> P b -> hash a = hash b -> a = b.

(** The nodes added in a history and not removed. *)
Definition member (l : list dop) (n : rnode) : Prop := exists ord, DAdd ord n ∈ l.
(** Every record of a node is the same throughout, and only known nodes are updated; no node
    is removed. *)
Definition consistent (l : list dop) : Prop :=
  (forall a b, member l a -> member l b -> r_id a = r_id b -> a = b) /\
  (forall l1 u l2 s, l = l1 ++ DUpdate u :: l2 -> s ∈ u -> member l1 (s_node s)) /\
  (forall n, DRemove n ∉ l).
End spec.

(** The record of a node. *)
Definition record (d : store) (n : N) : option rstate := d_nodes d !! n.
