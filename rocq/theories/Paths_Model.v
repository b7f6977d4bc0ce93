(** The paths of actors (coerce/src/actor/context.rs:52-80, 162-172, 201-255; actor/supervised.rs;
    actor/system/mod.rs:104-211).

    Actors are numbered in the order in which they are started; what they do, and how they stop,
    is left to the operations. *)
From Verif Require Export Base.

(** How an actor was started: by the system; by the system with a parent (system/mod.rs:181-211);
    by its parent (supervised.rs:60-119). *)
Inductive origin := FromSystem | WithParent (p : nat) | SpawnedBy (p : nat).

Record pactor := PActor {
  pa_id : string;
  pa_path : string;                     (* LocalActorRefInner::path, refs/mod.rs:54-58 *)
  pa_origin : origin;
  pa_below : option string;             (* Supervised::path, set when the first child comes *)
  pa_children : gmap string nat;        (* Supervised::children *)
  pa_alive : bool;
}.

(** context.rs:61-62 *)
Definition path_join (path id : string) : string := (path ++ "/" ++ id)%string.
Definition full_path (a : pactor) : string := path_join (pa_path a) (pa_id a).

Inductive pop :=
| PTop (id : string)                    (* new_actor, new_actor_deferred, new_actor_blocking *)
| PSupervised (p : nat) (id : string)   (* new_supervised_actor *)
| PSpawn (p : nat) (id : string)        (* ctx.spawn, ctx.spawn_deferred *)
| PAdd (p a : nat)                      (* ctx.add_child_ref *)
| PAttach (p a : nat)                   (* ctx.attach_child_ref *)
| PEnd (a : nat)                        (* an actor stops, for whatever reason *)
| PTold (p : nat) (id : string).        (* Terminated *)

(** A new actor has no children. *)
Definition fresh (id path : string) (o : origin) : pactor := PActor id path o None ∅ true.

(** The path given to [Supervised::new] counts only the first time. *)
Definition open (path : string) (a : pactor) : pactor :=
  PActor (pa_id a) (pa_path a) (pa_origin a) (Some (default path (pa_below a))) (pa_children a) (pa_alive a).
Definition set_child (id : string) (r : nat) (a : pactor) : pactor :=
  PActor (pa_id a) (pa_path a) (pa_origin a) (pa_below a) (<[id := r]> (pa_children a)) (pa_alive a).

Section paths.
  Context (system_name : string).

  Definition pstep (s : list pactor) (o : pop) : list pactor :=
    match o with
    | PTop id => s ++ [fresh id system_name FromSystem]
    | PSupervised p id =>
        match s !! p with
        | Some _ => s ++ [fresh id system_name (WithParent p)]
        | None => s
        end
    | PSpawn p id =>
        match s !! p with
        | Some a =>
            if pa_alive a then
              let a' := open (full_path a) a in
              match pa_children a !! id with
              | Some _ => <[p := a']> s
              | None => <[p := set_child id (length s) a']> s ++ [fresh id (default "" (pa_below a')) (SpawnedBy p)]
              end
            else s
        | None => s
        end
    | PAdd p c =>
        match s !! p, s !! c with
        | Some a, Some b => if pa_alive a then <[p := set_child (pa_id b) c (open (full_path a) a)]> s else s
        | _, _ => s
        end
    | PAttach p c =>
        (* context.rs:164-167: the path of the actor itself, not its full path *)
        match s !! p, s !! c with
        | Some a, Some b => if pa_alive a then <[p := set_child (pa_id b) c (open (pa_path a) a)]> s else s
        | _, _ => s
        end
    | PEnd c =>
        match s !! c with
        | Some a => <[c := PActor (pa_id a) (pa_path a) (pa_origin a) (pa_below a) (pa_children a) false]> s
        | None => s
        end
    | PTold p id =>
        match s !! p with
        | Some a => <[p := PActor (pa_id a) (pa_path a) (pa_origin a) (pa_below a) (delete id (pa_children a)) (pa_alive a)]> s
        | None => s
        end
    end.
  Definition prun (ops : list pop) : list pactor := fold_left pstep ops [].
End paths.
