(** What is expected of singletons that are restricted to some nodes. *)
From Verif Require Import Singleton_Model.
From Verif Require Import Nodes_Model.
Local Open Scope N_scope.

(** The node has what the selector asks for. *)
Definition carries (node_of : N -> rnode) (sel : selector) (n : N) : Prop :=
  match sel with
  | SelAll => True
  | SelAttribute k v => (k, v) ∈ map_to_list (r_attrs (node_of n))
  end.
(** The event tells that [n] leads the cluster; that [m] is part of it. *)
Definition names_leader (n : N) (i : sinput) : Prop :=
  match i with IMemberUp a _ | ILeader a => a = n | _ => False end.
Definition announces (m : N) (i : sinput) : Prop :=
  match i with IMemberUp _ nodes => m ∈ nodes | IAdded a => a = m | _ => False end.
(** Whoever is told of the cluster is told of [p], and not that it left. *)
Definition always_member (p : N) (l : list sop) : Prop :=
  forall n i, YEvent n i ∈ l ->
    match i with IMemberUp _ nodes => p ∈ nodes | IRemoved a => a <> p | _ => True end.
