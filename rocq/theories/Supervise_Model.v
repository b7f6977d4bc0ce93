(** A parent actor and its supervised children (coerce/src/actor/supervised.rs,
    actor/context.rs:162-262, 347-429).

    Child actors are numbered; a child ends (stops, fails to start or panics) at any time, and
    its context tells the parent, which it knows only if it was created by it, some time
    later (context.rs:347-366: in a spawned task if it has children itself). The parent
    handles these notifications one at a time. *)
From Verif Require Export Base.

Inductive sphase := SRun | SStopping | SDone.
#[global] Instance sphase_eq_dec : EqDecision sphase.
Proof. solve_decision. Defined.

(** A child actor known to the runtime: its id, whether this parent created it (and is told
    of its end), whether it is running. *)
Record child := Child { c_id : string; c_ours : bool; c_alive : bool }.

Record sup := Sup {
  s_children : gmap string (bool * nat);   (* supervised.rs:14-18: attached flag, reference *)
  s_actors : gmap nat child;               (* actors whose context still exists *)
  s_next : nat;
  s_inbox : list string;                   (* Terminated messages in the parent's mailbox *)
  s_phase : sphase;
}.
Definition sup_init : sup := Sup ∅ ∅ 0 [] SRun.

Inductive sevent :=
| SSpawned (r : nat) (id : string)       (* Ok(actor_ref) *)
| SStartFailed (r : nat) (id : string)   (* ActorStartFailed *)
| SExists (id : string)                  (* AlreadyExists *)
| SAttached (r : nat) (id : string)
| SChildEnded (r : nat)
| STold (id : string)                    (* the parent's on_child_stopped hook *)
| SParentStopped                         (* the parent's stopped hook ran, stop() is answered *)
| SParentReported.                       (* the parent's own end is reported to its parent *)

Inductive sop :=
| SOSpawn (id : string) (starts : bool)
| SOAdd (id : string)
| SOAttach (id : string)
| SOEnd (r : nat)
| SONotify (r : nat)
| SOHandle
| SOStop
| SOFinish.

(** supervised.rs:60-92 and 94-119 (a deferred spawn is the case [starts = true], its failure
    a later [SOEnd]). A child whose start failed stays in the map. *)
Definition sup_spawn (id : string) (starts : bool) (s : sup) : sup * list sevent :=
  match s_children s !! id with
  | Some _ => (s, [SExists id])
  | None =>
      let r := s_next s in
      (Sup (<[id := (false, r)]> (s_children s)) (<[r := Child id true starts]> (s_actors s)) (S r) (s_inbox s) (s_phase s),
       [if starts then SSpawned r id else SStartFailed r id])
  end.

(** supervised.rs:138-141, context.rs:201-213: a child started elsewhere with this actor as its
    parent. *)
Definition sup_add (id : string) (s : sup) : sup * list sevent :=
  let r := s_next s in
  (Sup (<[id := (false, r)]> (s_children s)) (<[r := Child id true true]> (s_actors s)) (S r) (s_inbox s) (s_phase s),
   [SSpawned r id]).

(** supervised.rs:133-136, context.rs:162-172 *)
Definition sup_attach (id : string) (s : sup) : sup * list sevent :=
  let r := s_next s in
  (Sup (<[id := (true, r)]> (s_children s)) (<[r := Child id false true]> (s_actors s)) (S r) (s_inbox s) (s_phase s),
   [SAttached r id]).

Definition running (s : sup) (r : nat) : bool :=
  match s_actors s !! r with Some c => c_alive c | None => false end.

Definition sstep (s : sup) (o : sop) : sup * list sevent :=
  match o with
  | SOSpawn id starts => match s_phase s with SRun => sup_spawn id starts s | _ => (s, []) end
  | SOAdd id => match s_phase s with SRun => sup_add id s | _ => (s, []) end
  | SOAttach id => match s_phase s with SRun => sup_attach id s | _ => (s, []) end
  | SOEnd r =>
      match s_actors s !! r with
      | Some (Child id ours true) =>
          (Sup (s_children s) (<[r := Child id ours false]> (s_actors s)) (s_next s) (s_inbox s) (s_phase s), [SChildEnded r])
      | _ => (s, [])
      end
  | SONotify r =>
      (* context.rs:368-429; sending fails once the parent's mailbox is closed *)
      match s_actors s !! r with
      | Some (Child id ours false) =>
          (Sup (s_children s) (delete r (s_actors s)) (s_next s)
               (if ours then match s_phase s with SRun => s_inbox s ++ [id] | _ => s_inbox s end else s_inbox s) (s_phase s), [])
      | _ => (s, [])
      end
  | SOHandle =>
      (* supervised.rs:48-57, 170-176 *)
      match s_phase s, s_inbox s with
      | SRun, id :: q => (Sup (delete id (s_children s)) (s_actors s) (s_next s) q SRun, [STold id])
      | _, _ => (s, [])
      end
  | SOStop =>
      (* the loop ends (lifecycle.rs:125-175), then the context is dropped: context.rs:347-366 *)
      match s_phase s with
      | SRun => (Sup (s_children s) (s_actors s) (s_next s) (s_inbox s) SStopping, [SParentStopped])
      | _ => (s, [])
      end
  | SOFinish =>
      (* supervised.rs:143-168: all children in the map are sent a stop; [join_all] ends when
         each of them has stopped or was gone *)
      match s_phase s with
      | SStopping =>
          if forallb (fun x => negb (running s (snd (snd x)))) (map_to_list (s_children s))
          then (Sup (s_children s) (s_actors s) (s_next s) (s_inbox s) SDone, [SParentReported])
          else (s, [])
      | _ => (s, [])
      end
  end.

Definition srun (ops : list sop) : sup * list sevent :=
  let '(s, evs) := run sstep sup_init ops in (s, concat evs).
