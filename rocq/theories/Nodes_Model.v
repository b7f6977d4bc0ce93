(** The nodes a node knows about and the hash ring over them (coerce/src/remote/cluster/node.rs). *)
From Verif Require Export Base Arrange.

Local Open Scope N_scope.

(** node.rs:21-26 *)
Inductive nstatus := Joining | Healthy | Unhealthy | Terminated.
Global Instance nstatus_eq_dec : EqDecision nstatus.
Proof. solve_decision. Defined.

(** node.rs:53-60. Times are nanoseconds since the epoch, durations nanoseconds; the order of
    the attribute table is not observable. *)
Record rnode := RNode {
  r_id : N; r_addr : string; r_tag : string; r_started : option Z; r_attrs : gmap string string
}.
(** node.rs:41-51: the fields it shares with [RemoteNode] are kept as one ([From], 190-200). *)
Record rstate := RState {
  s_node : rnode; s_latency : option N; s_beat : option Z; s_status : nstatus
}.
Definition s_id (s : rstate) : N := r_id (s_node s).

(** node.rs:28-32 *)
Definition is_healthy (s : nstatus) : bool := match s with Healthy => true | _ => false end.

(** node.rs:62-77 *)
Inductive selector := SelAll | SelAttribute (k v : string).
Definition includes (s : selector) (n : rnode) : bool :=
  match s with
  | SelAll => true
  | SelAttribute k v => bool_decide (r_attrs n !! k = Some v)
  end.

(** node.rs:168-187 *)
Definition new_state (n : rnode) : rstate := RState n None None Joining.

Section store.
(** The hash of a node by the ring's hasher (over id, address, tag and start time, node.rs:82-89),
    and that of a key; both are those of the [hashring] crate, the same on every node. *)
Variable rhash : N -> string -> string -> option Z -> N.
Context {K : Type}.
Variable khash : K -> N.
(** [slice::binary_search_by] on the keys of the ring: the position of an equal element, if
    any, otherwise where it would be inserted. *)
Variable search : list N -> N -> nat.

Definition node_hash (n : rnode) : N := rhash (r_id n) (r_addr n) (r_tag n) (r_started n).

(** node.rs:16-19. [d_ring]: the ring's vector. *)
Record store := Store { d_nodes : gmap N rstate; d_ring : list rnode }.

(** [HashRing::add] (hashring 0.3): pushed, then sorted by hash. *)
Definition ring_add (r : list rnode) (n : rnode) : list rnode :=
  stable_sort (fun a b => node_hash a <=? node_hash b) (r ++ [n]).
(** [HashRing::get] *)
Definition ring_get (r : list rnode) (k : K) : option rnode :=
  match r with
  | [] => None
  | first :: _ =>
      let n := search (node_hash <$> r) (khash k) in
      if decide (n = length r) then Some first else r !! n
  end.
(** [HashRing::remove] *)
Definition ring_remove (r : list rnode) (n : rnode) : list rnode :=
  let i := search (node_hash <$> r) (node_hash n) in
  match r !! i with
  | Some m => if node_hash m =? node_hash n then delete i r else r
  | None => r
  end.

(** node.rs:99-111 *)
Definition new_store (l : list rnode) : store :=
  Store (list_to_map (rev ((fun n => (r_id n, new_state n)) <$> l))) (fold_left ring_add l []).
(** node.rs:113-117 *)
Definition update_nodes (d : store) (l : list rstate) : store :=
  Store (fold_left (fun m s => <[s_id s := s]> m) l (d_nodes d)) (d_ring d).
(** node.rs:119-124 *)
Definition node_terminated (d : store) (n : N) : store :=
  Store (alter (fun s => RState (s_node s) (s_latency s) (s_beat s) Terminated) n (d_nodes d)) (d_ring d).
(** node.rs:165-167, in the order [ord] of the table *)
Definition get_all (ord : list N) (d : store) : list rstate := (arrange ord (d_nodes d)).*2.
(** node.rs:149-163 *)
Definition add_node (ord : list N) (d : store) (n : rnode) : store :=
  let l := stable_sort (fun a b => s_id a <=? s_id b) (get_all ord d ++ [new_state n]) in
  Store (list_to_map (rev ((fun s => (s_id s, s)) <$> l))) (fold_left ring_add (s_node <$> l) []).
(** node.rs:138-143 *)
Definition remove_node (d : store) (n : N) : store :=
  match d_nodes d !! n with
  | Some s => Store (delete n (d_nodes d)) (ring_remove (d_ring d) (s_node s))
  | None => d
  end.
(** node.rs:145-147 *)
Definition get_by_key (d : store) (k : K) : option rnode := ring_get (d_ring d) k.

(** The operations of the registry on the store (actor/registry.rs:62-101); [remove_node] has
    no caller. *)
Inductive dop :=
| DAdd (ord : list N) (n : rnode)
| DUpdate (l : list rstate)
| DTerminated (n : N)
| DRemove (n : N).
Definition dstep (d : store) (o : dop) : store :=
  match o with
  | DAdd ord n => add_node ord d n
  | DUpdate l => update_nodes d l
  | DTerminated n => node_terminated d n
  | DRemove n => remove_node d n
  end.
(** actor/registry.rs:30-42: it starts empty *)
Definition drun (l : list dop) : store := fold_left dstep l (new_store []).
End store.
