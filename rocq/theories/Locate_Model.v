(** Where actors are: the registries of the nodes of a cluster (coerce/src/remote/actor/
    registry.rs, system/actor.rs:28-113, actor/scheduler/mod.rs:188-231). *)
From Verif Require Export Nodes_Model.

(** What happens, oldest first: an actor starts, or stops, on a node; a lookup from a
    node is answered ([timed]: because it waited for too long). *)
Inductive levent :=
| LCreated (n : N) (id : string)
| LStopped (n : N) (id : string)
| LAnswer (k : nat) (n : N) (id : string) (r : option N) (timed : bool).

(** All nodes. [w_stores]: their node stores, with the rings; [w_actors]: the entries of their
    registries ([(node, id)] to the node of the actor); [w_live]: the actors their schedulers
    track; [w_local]: registrations their registries have yet to handle; [w_net]: registrations
    on their way to a node; [w_looks]: lookups, with the node they come from and the nodes
    they were passed to, the last one first. *)
Record world := World {
  w_stores : gmap N store; w_actors : gmap (N * string) N; w_live : gset (N * string);
  w_local : list (N * string); w_net : list (N * string * N);
  w_looks : gmap nat (N * list N * string); w_next : nat; w_log : list levent
}.

Section locate.
Variable rhash : N -> string -> string -> option Z -> N.
Variable khash : string -> N.
Variable search : list N -> N -> nat.

(** registry.rs:113-122, 208-209: the node whose registry has the entry of an actor, as node [x]
    sees it *)
Definition owner (w : world) (x : N) (id : string) : N :=
  match w_stores w !! x ≫= fun d => get_by_key rhash khash search d id with
  | Some n => r_id n
  | None => x
  end.

(** An actor starts on a node and its scheduler handles [RegisterActor] (scheduler/mod.rs:
    188-219), an actor stops (221-231); the registry of a node handles a registration
    (registry.rs:192-233); a registration arrives at another node (session/mod.rs:308-314) or is
    lost (no connection); a node store changes; a lookup begins (system/actor.rs:64-82); the
    registry of the node it was passed to handles it (registry.rs:103-190, session/mod.rs:566-588;
    the way back of the answer is left out: the nodes on the path pass it on unchanged, or time
    out); a lookup ends without an answer (system/actor.rs:84-110, within 5 s, or when a task on
    the path panics). The messages of a registry may be handled in any order here. *)
Inductive lop :=
| LCreate (n : N) (id : string)
| LStop (n : N) (id : string)
| LRegister (i : nat)
| LArrive (i : nat)
| LLose (i : nat)
| LStore (n : N) (o : dop)
| LLook (n : N) (id : string)
| LHop (k : nat)
| LTimeout (k : nat).

Definition ltell (w : world) (e : levent) : world :=
  World (w_stores w) (w_actors w) (w_live w) (w_local w) (w_net w) (w_looks w) (w_next w) (w_log w ++ [e]).
Definition with_looks (w : world) (l : gmap nat (N * list N * string)) : world :=
  World (w_stores w) (w_actors w) (w_live w) (w_local w) (w_net w) l (w_next w) (w_log w).

Definition lstep (w : world) (o : lop) : option world :=
  match o with
  | LCreate n id =>
      if decide ((n, id) ∈ w_live w) then Some (ltell w (LCreated n id))
      else Some (World (w_stores w) (w_actors w) ({[ (n, id) ]} ∪ w_live w) (w_local w ++ [(n, id)]) (w_net w)
                   (w_looks w) (w_next w) (w_log w ++ [LCreated n id]))
  | LStop n id =>
      if decide ((n, id) ∈ w_live w) then
        Some (World (w_stores w) (w_actors w) (w_live w ∖ {[ (n, id) ]}) (w_local w) (w_net w)
                (w_looks w) (w_next w) (w_log w ++ [LStopped n id]))
      else None
  | LRegister i =>
      '(n, id) ← w_local w !! i;
      let o := owner w n id in
      if decide (o = n) then
        Some (World (w_stores w) (<[(n, id) := n]> (w_actors w)) (w_live w) (delete i (w_local w)) (w_net w)
                (w_looks w) (w_next w) (w_log w))
      else Some (World (w_stores w) (w_actors w) (w_live w) (delete i (w_local w)) (w_net w ++ [(o, id, n)])
                   (w_looks w) (w_next w) (w_log w))
  | LArrive i =>
      '(o, id, n) ← w_net w !! i;
      Some (World (w_stores w) (<[(o, id) := n]> (w_actors w)) (w_live w) (w_local w) (delete i (w_net w))
              (w_looks w) (w_next w) (w_log w))
  | LLose i =>
      _ ← w_net w !! i;
      Some (World (w_stores w) (w_actors w) (w_live w) (w_local w) (delete i (w_net w))
              (w_looks w) (w_next w) (w_log w))
  | LStore n o =>
      Some (World (<[n := dstep rhash search (default (new_store rhash []) (w_stores w !! n)) o]> (w_stores w))
              (w_actors w) (w_live w) (w_local w) (w_net w) (w_looks w) (w_next w) (w_log w))
  | LLook n id =>
      Some (World (w_stores w) (w_actors w) (w_live w) (w_local w) (w_net w)
              (<[w_next w := (n, [n], id)]> (w_looks w)) (S (w_next w)) (w_log w))
  | LHop k =>
      '(n, path, id) ← w_looks w !! k;
      x ← head path;
      match w_actors w !! (x, id) with
      | Some m => Some (ltell (with_looks w (delete k (w_looks w))) (LAnswer k n id (Some m) false))
      | None =>
          let o := owner w x id in
          if decide (o = x) then Some (ltell (with_looks w (delete k (w_looks w))) (LAnswer k n id None false))
          else Some (with_looks w (<[k := (n, o :: path, id)]> (w_looks w)))
      end
  | LTimeout k =>
      '(n, path, id) ← w_looks w !! k;
      Some (ltell (with_looks w (delete k (w_looks w))) (LAnswer k n id None true))
  end.

Fixpoint lrun (w : world) (l : list lop) : option world :=
  match l with
  | [] => Some w
  | o :: l' => w' ← lstep w o; lrun w' l'
  end.
Definition new_world : world := World ∅ ∅ ∅ [] [] ∅ 0 [].

(** [actor_ref] at node [n] (system/actor.rs:35-62), given the answer of the lookup: a local
    actor if it is tracked there, a reference to another node, or nothing. *)
Inductive found := FLocal | FRemote (n : N) | FNone.
Definition actor_ref (w : world) (n : N) (id : string) (r : option N) : found :=
  match r with
  | Some m => if (m =? n)%N then if decide ((n, id) ∈ w_live w) then FLocal else FNone else FRemote m
  | None => FNone
  end.
End locate.
