(** The shard coordinator (coerce/src/sharding/coordinator). *)
From Verif Require Export Arrange.

Local Open Scope N_scope.

(** coordinator/mod.rs:37-43 *)
Inductive hstatus := SUnknown | SStarting | SReady | SUnavailable.
Global Instance hstatus_eq_dec : EqDecision hstatus. Proof. solve_decision. Defined.

(** coordinator/mod.rs:28-35; the actor reference and the tag are left out *)
Record chost := CHost { h_status : hstatus; h_shards : gset N }.

(** coordinator/mod.rs:51-60 without [reallocating_shards], which is never used; the scheduled
    rebalance is an effect *)
Record coord := Coord { c_self : N; c_hosts : gmap N chost; c_shards : gmap N N }.

(** allocation.rs:28-34 *)
Inductive alloc_result :=
| Allocated (s n : N)
| AlreadyAllocated (s n : N)
| NotAllocated
| PersistFailed.

Inductive ceffect :=
| CPersist (s : N)                          (* AllocateShard written to the journal *)
| CTell (s owner : N) (targets : list N)    (* ShardAllocated, sent in this order *)
| CReallocating (s : N) (targets : list N)  (* ShardReallocating, sent in this order *)
| CStop (s node : N)                        (* StopShard; its answer triggers AllocateShard *)
| CSchedule                                 (* a full rebalance in 500 ms *)
| CAnswer (r : alloc_result).

(** mod.rs:161-168 *)
Definition is_ready (h : chost) : bool := bool_decide (h_status h = SReady).

(** allocation.rs:108 *)
Definition fewer_shards (x y : N * chost) : bool := (size (h_shards x.2) <=? size (h_shards y.2))%nat.

(** allocation.rs:43-61, 101-133. [ord] is the iteration order of the table of hosts. The
    hosts are told by [broadcast_allocation] (135-176): the owner comes first in the sorted
    list; its answer is awaited if it is remote; then the others are told. *)
Definition allocate_shard (ord : list N) (c : coord) (s : N) : coord * alloc_result * list ceffect :=
  match c_shards c !! s with
  | Some n => (c, AlreadyAllocated s n, [])
  | None =>
      match stable_sort fewer_shards (List.filter (fun x => is_ready x.2) (arrange ord (c_hosts c))) with
      | [] => (c, NotAllocated, [])
      | (n, h) :: rest =>
          (Coord (c_self c)
                 (<[n := CHost (h_status h) ({[s]} ∪ h_shards h)]> (c_hosts c))
                 (<[s := n]> (c_shards c)),
           Allocated s n,
           if decide (s ∈ h_shards h) then [] else [CTell s n (n :: map fst rest)])
      end
  end.

(** allocation.rs:64-90: [persisted] is whether writing to the journal succeeds *)
Definition on_allocate (ord : list N) (persisted : bool) (c : coord) (s : N) (rebalancing : bool)
  : coord * list ceffect :=
  match c_shards c !! s with
  | Some n => (c, [CAnswer (AlreadyAllocated s n)])
  | None =>
      if rebalancing then
        let '(c', r, eff) := allocate_shard ord c s in (c', eff ++ [CAnswer r])
      else if persisted then
        let '(c', r, eff) := allocate_shard ord c s in (c', CPersist s :: eff ++ [CAnswer r])
      else (c, [CAnswer PersistFailed])
  end.

(** balancing.rs:90-130: one shard of [rebalance_shards]. [None]: the [unwrap] in line 101
    panics. *)
Definition rebalance_shard (ord : list N) (c : coord) (s : N) : option (coord * list ceffect) :=
  let told := CReallocating s (map fst (arrange ord (c_hosts c))) in
  match c_shards c !! s with
  | None => Some (c, [told])
  | Some n =>
      match c_hosts c !! n with
      | None => None
      | Some h =>
          Some (Coord (c_self c) (<[n := CHost (h_status h) (h_shards h ∖ {[s]})]> (c_hosts c)) (delete s (c_shards c)),
                [told; CStop s n])
      end
  end.

Fixpoint rebalance_shards (ord : list N) (c : coord) (l : list N) : option (coord * list ceffect) :=
  match l with
  | [] => Some (c, [])
  | s :: l' =>
      match rebalance_shard ord c s with
      | None => None
      | Some (c', eff) =>
          match rebalance_shards ord c' l' with
          | None => None
          | Some (c'', eff') => Some (c'', eff ++ eff')
          end
      end
  end.

(** balancing.rs:28-57: the shards that [Rebalance::All] moves. [None]: division by zero. *)
Definition shards_to_rebalance (ord sord : list N) (c : coord) : option (list N) :=
  match size (c_hosts c) with
  | O => None
  | S _ =>
      let fair := (size (c_shards c) / size (c_hosts c))%nat in
      Some (concat (map (fun x : N * chost =>
                           take (size (h_shards x.2) - fair)%nat (arrange_set sord (h_shards x.2)))
                        (arrange ord (c_hosts c))))
  end.

Definition rebalance_all (ord sord : list N) (c : coord) : option (coord * list ceffect) :=
  match shards_to_rebalance ord sord c with
  | None => None
  | Some l => rebalance_shards ord c l
  end.

(** balancing.rs:164-168 *)
Fixpoint reallocate (ord : list N) (c : coord) (l : list N) : coord * list ceffect :=
  match l with
  | [] => (c, [])
  | s :: l' =>
      let '(c', _, eff) := allocate_shard ord (Coord (c_self c) (c_hosts c) (delete s (c_shards c))) s in
      let '(c'', eff') := reallocate ord c' l' in
      (c'', eff ++ eff')
  end.

(** balancing.rs:148-174 *)
Definition node_unavailable (ord sord : list N) (c : coord) (n : N) : coord * list ceffect :=
  match c_hosts c !! n with
  | None => (c, [])
  | Some h =>
      reallocate ord (Coord (c_self c) (<[n := CHost SUnavailable ∅]> (c_hosts c)) (c_shards c))
                 (arrange_set sord (h_shards h))
  end.

(** discovery.rs:34-63 *)
Definition node_discovered (c : coord) (n : N) : coord * list ceffect :=
  match c_hosts c !! n with
  | Some h =>
      if is_ready h then (c, [])
      else (Coord (c_self c) (<[n := CHost SReady (h_shards h)]> (c_hosts c)) (c_shards c), [CSchedule])
  | None => (Coord (c_self c) (<[n := CHost SReady ∅]> (c_hosts c)) (c_shards c), [CSchedule])
  end.

(** mod.rs:75-121: the hosts at the start, given the nodes the system knows and whether they
    are healthy or joining *)
Definition coord_init (self : N) (nodes : list (N * bool)) : coord :=
  Coord self
        (fold_left (fun m (x : N * bool) => if x.1 =? self then m
                               else <[x.1 := CHost (if x.2 then SReady else SUnavailable) ∅]> m)
                   nodes {[self := CHost SReady ∅]})
        ∅.

Inductive cop :=
| COAllocate (s : N) (rebalancing persisted : bool) (ord : list N)
| CORebalanceAll (ord sord : list N)
| CORebalanceShards (l ord : list N)
| CONodeUnavailable (n : N) (ord sord : list N)    (* also NodeRemoved (discovery.rs:65-70) *)
| CONodeAdded (n : N)
| CORecover (s : N) (ord : list N).                (* allocation.rs:92-99 *)

Definition cstep (c : coord) (o : cop) : option (coord * list ceffect) :=
  match o with
  | COAllocate s rb p ord => Some (on_allocate ord p c s rb)
  | CORebalanceAll ord sord => rebalance_all ord sord c
  | CORebalanceShards l ord => rebalance_shards ord c l
  | CONodeUnavailable n ord sord => Some (node_unavailable ord sord c n)
  | CONodeAdded n => Some (node_discovered c n)
  | CORecover s ord => let '(c', _, eff) := allocate_shard ord c s in Some (c', eff)
  end.

Fixpoint crun (c : coord) (ops : list cop) : option (coord * list ceffect) :=
  match ops with
  | [] => Some (c, [])
  | o :: ops' =>
      match cstep c o with
      | None => None
      | Some (c', eff) => match crun c' ops' with None => None | Some (c'', eff') => Some (c'', eff ++ eff') end
      end
  end.

(** stats.rs:24-47 *)
Definition stats (c : coord) (ord sord : list N) : nat * list (N * N) * list (N * nat * hstatus) :=
  (size (c_shards c), arrange sord (c_shards c),
   map (fun x => (x.1, size (h_shards x.2), h_status x.2)) (arrange ord (c_hosts c))).

(** A restart: the journal holds the shards of the persisted requests in order; recovery
    replays them (allocation.rs:92-99). *)
Definition recover (self : N) (nodes : list (N * bool)) (journal : list N) (ords : nat -> list N) : coord :=
  (fold_left (fun x s => ((allocate_shard (ords x.2) x.1 s).1.1, S x.2)) journal (coord_init self nodes, O)).1.

(** allocation.rs:313-333: the default allocator. [hash] is the standard library's [DefaultHasher]
    (fixed keys) applied to the id, a 64 bit number. The allocator is passed by mutable
    reference: it returns its new state. [None]: remainder by zero panics. *)
Definition default_allocate (hash : string -> N) (max_shards : N) (id : string) : N * option N :=
  (max_shards, if max_shards =? 0 then None else Some ((hash id mod max_shards) mod 2 ^ 32)).

(** A node's allocator over a sequence of requests. *)
Definition allocator_run (hash : string -> N) (max_shards : N) (ids : list string) : list (option N) :=
  (run (default_allocate hash) max_shards ids).2.
