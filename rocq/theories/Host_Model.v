(** The shard host: one per node and entity type (coerce/src/sharding/host). *)
From Verif Require Export Arrange.

Local Open Scope N_scope.

(** host/mod.rs:37-40: who asked for the stop (request id, node) *)
Definition stop_req : Type := N * N.

(** host/mod.rs:27-35. Shard actors are numbered; [R] is the type of entity requests. *)
Inductive hstate (R : Type) :=
| HStarting (a : N) (buffer : list R) (stop_requested : option stop_req)
| HReady (a : N)
| HStopping.
Arguments HStarting {R}. Arguments HReady {R}. Arguments HStopping {R}.

(** host/mod.rs:42-50. Handler factory, allocator and coordinator reference are left out: an
    entity request comes with its shard, and the coordinator reference is set before the first
    request ([Sharding::try_start]). A remote shard reference is its node. [sh_next] numbers
    the shard actors created by this host. *)
Record host (R : Type) := Host {
  sh_node : N;
  sh_hosted : gmap N (hstate R);
  sh_remote : gmap N N;
  sh_pending : gmap N (list R);
  sh_next : N }.
Arguments Host {R}. Arguments sh_node {R}. Arguments sh_hosted {R}. Arguments sh_remote {R}.
Arguments sh_pending {R}. Arguments sh_next {R}.

Inductive heffect (R : Type) :=
| HStart (s a : N)                                  (* a shard actor is created *)
| HForward (s a : N) (r : R)                        (* task: send the request to the shard actor *)
| HRemote (s n : N) (r : R)                         (* task: send the request to the shard on [n] *)
| HAsk (s : N)                                      (* task: ask the coordinator to allocate *)
| HNotifyStop (s a : N)                             (* the shard actor is told to stop *)
| HStopTask (s a : N) (req : option stop_req)       (* task: stop, notify the host, answer *)
| HLost (s : N) (r : R).                            (* the request is dropped; not visible to anybody *)
Arguments HStart {R}. Arguments HForward {R}. Arguments HRemote {R}. Arguments HAsk {R}.
Arguments HNotifyStop {R}. Arguments HStopTask {R}. Arguments HLost {R}.

(** The messages of the host. *)
Inductive hmsg (R : Type) :=
| MRequest (s : N) (r : R)             (* EntityRequest for a shard *)
| MAllocated (s n : N)                 (* ShardAllocated *)
| MReady (s a : N)                     (* ShardReady *)
| MReallocating (s : N)                (* ShardReallocating *)
| MStop (s : N) (req : stop_req)       (* StopShard *)
| MStopped (s : N).                    (* ShardStopped *)
Arguments MRequest {R}. Arguments MAllocated {R}. Arguments MReady {R}. Arguments MReallocating {R}.
Arguments MStop {R}. Arguments MStopped {R}.

Section host.
Context {R : Type}.
Implicit Types (h : host R) (r : R).

Definition host_init (n : N) : host R := Host n ∅ ∅ ∅ 0.

Definition set_hosted h m : host R := Host (sh_node h) m (sh_remote h) (sh_pending h) (sh_next h).
Definition set_remote h m : host R := Host (sh_node h) (sh_hosted h) m (sh_pending h) (sh_next h).
Definition set_pending h m : host R := Host (sh_node h) (sh_hosted h) (sh_remote h) m (sh_next h).

(** host/request.rs:35-67 *)
Definition handle_request (s : N) (r : R) (st : hstate R) : hstate R * list (heffect R) :=
  match st with
  | HStarting a buf req => (HStarting a (buf ++ [r]) req, [])
  | HReady a => (HReady a, [HForward s a r])
  | HStopping => (HStopping, [HLost s r])
  end.

(** host/request.rs:69-121 *)
Definition on_request h s r : host R * list (heffect R) :=
  match sh_hosted h !! s with
  | Some st =>
      let '(st', eff) := handle_request s r st in
      (set_hosted h (<[s := st']> (sh_hosted h)), eff)
  | None =>
      match sh_remote h !! s with
      | Some n => (h, [HRemote s n r])
      | None => (set_pending h (<[s := default [] (sh_pending h !! s) ++ [r]]> (sh_pending h)), [HAsk s])
      end
  end.

Fixpoint on_requests h s (l : list R) : host R * list (heffect R) :=
  match l with
  | [] => (h, [])
  | r :: l' =>
      let '(h', eff) := on_request h s r in
      let '(h'', eff') := on_requests h' s l' in
      (h'', eff ++ eff')
  end.

(** The buffer that disappears with a state. *)
Definition lost_buffer (s : N) (st : hstate R) : list (heffect R) :=
  match st with HStarting _ buf _ => map (HLost s) buf | _ => [] end.

(** host/mod.rs:151-159 *)
Definition state_ref (st : hstate R) : option N :=
  match st with HReady a => Some a | HStarting a _ _ => Some a | HStopping => None end.

(** host/mod.rs:178-249; [new_actor_deferred] creates the actor and returns at once *)
Definition on_allocated h s n : host R * list (heffect R) :=
  let '(h1, eff1) :=
    if n =? sh_node h then
      let h0 := set_remote h (delete s (sh_remote h)) in
      match sh_hosted h0 !! s with
      | Some _ => (h0, [])
      | None =>
          let a := sh_next h0 in
          (Host (sh_node h0) (<[s := HStarting a [] None]> (sh_hosted h0)) (sh_remote h0) (sh_pending h0) (a + 1),
           [HStart s a])
      end
    else
      (Host (sh_node h) (delete s (sh_hosted h)) (<[s := n]> (sh_remote h)) (sh_pending h) (sh_next h),
       match sh_hosted h !! s with
       | Some st => match state_ref st with Some a => [HNotifyStop s a] | None => [] end ++ lost_buffer s st
       | None => []
       end) in
  match sh_pending h1 !! s with
  | None => (h1, eff1)
  | Some l =>
      let '(h2, eff2) := on_requests (set_pending h1 (delete s (sh_pending h1))) s l in
      (h2, eff1 ++ eff2)
  end.

(** host/mod.rs:252-283 *)
Definition on_ready h s a : host R * list (heffect R) :=
  (set_hosted h (<[s := HReady a]> (sh_hosted h)),
   match sh_hosted h !! s with
   | Some (HStarting _ buf (Some req)) => HStopTask s a (Some req) :: map (HLost s) buf
   | Some (HStarting _ buf None) => map (HForward s a) buf
   | _ => []
   end).

(** host/mod.rs:286-290 *)
Definition on_reallocating h s : host R * list (heffect R) := (set_remote h (delete s (sh_remote h)), []).

(** host/mod.rs:293-326. In the first case the stop request is stored in a field of the old
    state, which is then dropped. *)
Definition on_stop h s (req : stop_req) : host R * list (heffect R) :=
  match sh_hosted h !! s with
  | None => (h, [])
  | Some st =>
      (set_hosted h (<[s := HStopping]> (sh_hosted h)),
       match st with
       | HStarting _ _ _ => lost_buffer s st
       | HReady a => [HStopTask s a (Some req)]
       | HStopping => []
       end)
  end.

(** host/mod.rs:367-372 *)
Definition on_stopped h s : host R * list (heffect R) :=
  (set_hosted h (delete s (sh_hosted h)),
   match sh_hosted h !! s with Some st => lost_buffer s st | None => [] end).

Definition hstep h (m : hmsg R) : host R * list (heffect R) :=
  match m with
  | MRequest s r => on_request h s r
  | MAllocated s n => on_allocated h s n
  | MReady s a => on_ready h s a
  | MReallocating s => on_reallocating h s
  | MStop s req => on_stop h s req
  | MStopped s => on_stopped h s
  end.

Definition hrun h (l : list (hmsg R)) : host R * list (heffect R) :=
  let '(h', evs) := run hstep h l in (h', concat evs).

(** host/stats.rs:38-74: pending, hosted and remote counts, the shard actors that are asked for
    their entities, and the remote shards *)
Definition host_stats (h : host R) (sord rord : list N) : nat * nat * nat * list N * list (N * N) :=
  (size (sh_pending h), size (sh_hosted h), size (sh_remote h),
   omap (fun x => state_ref x.2) (arrange sord (sh_hosted h)), arrange rord (sh_remote h)).

End host.
