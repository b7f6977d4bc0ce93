(** Singletons that are restricted to some nodes (coerce/src/singleton with NodeSelector). *)
From Verif Require Export Singleton_Model.
From Verif Require Import Nodes_Model.

(** remote/cluster/node.rs:72-77 as the managers use it (manager/mod.rs:291-293, 336): the
    cluster events carry the nodes themselves, [node_of] gives the node with this id; its
    attributes do not change. *)
Definition selected (node_of : N -> rnode) (sel : selector) (n : N) : bool := includes sel (node_of n).
