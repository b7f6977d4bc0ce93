(** What is expected of the shard coordinator. *)
From Verif Require Import Coord_Model.
Local Open Scope N_scope.

(** The coordinator's map of shards and the lists of the nodes agree. As the former is a
    function, a shard has at most one node; every owner is a known node. *)
Definition consistent (c : coord) : Prop :=
  forall s n, c_shards c !! s = Some n <-> exists h, c_hosts c !! n = Some h /\ s ∈ h_shards h.

Definition holds (c : coord) (n : N) : gset N := match c_hosts c !! n with Some h => h_shards h | None => ∅ end.
Definition status (c : coord) (n : N) : option hstatus := h_status <$> c_hosts c !! n.
Definition ready (c : coord) (n : N) : Prop := status c n = Some SReady.

(** Total number of shards over all nodes. *)
Definition total_held (c : coord) : nat := sum_list (map (fun x => size (h_shards x.2)) (map_to_list (c_hosts c))).

(** Requests to stop a shard. *)
Definition stops (l : list ceffect) : list (N * N) := omap (fun e => match e with CStop s n => Some (s, n) | _ => None end) l.
(** Notifications of new owners. *)
Definition tells (l : list ceffect) : list (N * N * list N) := omap (fun e => match e with CTell s n t => Some (s, n, t) | _ => None end) l.
(** What was written to the journal. *)
Definition persisted_shards (l : list ceffect) : list N := omap (fun e => match e with CPersist s => Some s | _ => None end) l.

Definition fair_share (c : coord) : nat := (size (c_shards c) / size (c_hosts c))%nat.
(** Counts over the ready nodes differ by at most one. *)
Definition balanced (c : coord) : Prop :=
  forall n n', ready c n -> ready c n' -> (size (holds c n) <= S (size (holds c n')))%nat.

Definition is_recover (o : cop) : bool := match o with CORecover _ _ => true | _ => false end.
(** The node comes (back). *)
Definition adds (n : N) (o : cop) : bool := match o with CONodeAdded n' => n' =? n | _ => false end.
(** Reallocations are only requested for shards that were allocated before. *)
Definition honest_rebalancing (c : coord) (ops : list cop) : Prop :=
  forall pre s p ord post c' eff, ops = pre ++ COAllocate s true p ord :: post ->
    crun c pre = Some (c', eff) -> s ∈ persisted_shards eff.
