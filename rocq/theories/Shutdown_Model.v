(** Shutting down an actor system (coerce/src/actor/system/mod.rs:107-227,
    actor/scheduler/mod.rs:50-85, 188-265, actor/lifecycle.rs:48-175).

    The actors, the scheduler and the task that calls [shutdown] run concurrently; each step
    below is one uninterrupted stretch of one of them. Actors are numbered. What a message
    handler does is reduced to what matters here: it finishes, stops the actor, panics, or
    asks the scheduler something and waits for the answer ([get_tracked_actor],
    [new_actor] of a tracked actor, system/mod.rs:149-157, 229-242) before it finishes. The
    starting phase is left out: an actor handles messages as soon as it exists. *)
From Verif Require Export Base.

Inductive reaction := RDone | RStop | RPanic | RAsk.
Inductive amsg := MUser (x : reaction) | MStop.

(** Where an actor's task is. *)
Inductive aphase :=
| ALoop                 (* lifecycle.rs:82-121, waiting for or taking the next message *)
| AAsks                 (* in a message handler, waiting for the scheduler's answer *)
| AHook                 (* the loop is over; the [stopped] hook is about to run *)
| AHookAsks             (* in the [stopped] hook, waiting for the scheduler's answer *)
| ACheck                (* after the hook, about to read the termination flag *)
| ADereg                (* the flag was not set; about to send [DeregisterActor] *)
| AWaits                (* waiting for the answer to it *)
| AEnding               (* about to answer those who asked it to stop *)
| AEnded.               (* the task is gone and its mailbox closed *)
#[global] Instance aphase_eq_dec : EqDecision aphase.
Proof. solve_decision. Defined.

Record actor := Actor {
  a_id : string;
  a_tracked : bool;
  a_asks : bool;        (* does the [stopped] hook ask the scheduler? *)
  a_mail : list amsg;
  a_phase : aphase;
}.

Inductive gmsg := GReg (id : string) (r : nat) | GDereg (id : string) (r : nat) | GGet (r : nat) | GStop.

(** The scheduler: its loop, its [stopped] hook waiting for the actors it asked to stop, over. *)
Inductive gphase := GLoop | GStopping (l : list nat) | GDone.

Record sys := Sys {
  y_actors : gmap nat actor;
  y_next : nat;
  y_mail : list gmsg;
  y_map : gmap string nat;      (* scheduler/mod.rs:24 *)
  y_sched : gphase;
  y_term : bool;                (* system/mod.rs:38 *)
}.
Definition sys_init : sys := Sys ∅ 0 [] ∅ GLoop false.

Inductive yevent :=
| YCreated (r : nat) (id : string) (tracked : bool)
| YRegistered (r : nat) (id : string)     (* the registration is answered: [new_actor] may return *)
| YHook (r : nat)                         (* the [stopped] hook has run *)
| YPanicked (r : nat)
| YEnded (r : nat)                        (* those who asked it to stop are answered *)
| YReturned.                              (* [shutdown] returns, as far as the local system goes *)

Inductive yop :=
| OCreate (id : string) (tracked asks : bool)
| ORegister (r : nat)           (* system/mod.rs:149-157: the creator sends [RegisterActor] *)
| OSend (r : nat) (x : reaction)
| OStop (r : nat)               (* anyone asks the actor to stop *)
| OFlag                         (* shutdown, first line: system/mod.rs:219 *)
| OShutdown                     (* shutdown, second line: system/mod.rs:220 *)
| OActor (r : nat)              (* the actor's task goes on *)
| OSched.                       (* the scheduler's task goes on *)

Definition set_phase (a : actor) (p : aphase) : actor := Actor (a_id a) (a_tracked a) (a_asks a) (a_mail a) p.
Definition set_mail (a : actor) (l : list amsg) : actor := Actor (a_id a) (a_tracked a) (a_asks a) l (a_phase a).
Definition with_actor (y : sys) (r : nat) (a : actor) : sys :=
  Sys (<[r := a]> (y_actors y)) (y_next y) (y_mail y) (y_map y) (y_sched y) (y_term y).
Definition post (y : sys) (m : gmsg) : sys :=
  Sys (y_actors y) (y_next y) (y_mail y ++ [m]) (y_map y) (y_sched y) (y_term y).

(** actor/refs/mod.rs:468-506: sending fails once the task is gone. *)
Definition deliver (a : actor) (m : amsg) : actor :=
  if bool_decide (a_phase a = AEnded) then a else set_mail a (a_mail a ++ [m]).

Definition sched_done (y : sys) : bool := match y_sched y with GDone => true | _ => false end.

(** The actor's task, from where it is to its next wait. *)
Definition actor_step (y : sys) (r : nat) (a : actor) : sys * list yevent :=
  match a_phase a with
  | ALoop =>
      (* lifecycle.rs:82-121 *)
      match a_mail a with
      | [] => (y, [])
      | MUser RDone :: q => (with_actor y r (set_mail a q), [])
      | MUser RStop :: q | MStop :: q => (with_actor y r (set_phase (set_mail a q) AHook), [])
      | MUser RPanic :: q => (with_actor y r (set_phase (set_mail a []) AEnded), [YPanicked r])
      | MUser RAsk :: q =>
          if sched_done y then (with_actor y r (set_mail a q), [])
          else (post (with_actor y r (set_phase (set_mail a q) AAsks)) (GGet r), [])
      end
  | AHook =>
      (* lifecycle.rs:143 *)
      if a_asks a && negb (sched_done y)
      then (post (with_actor y r (set_phase a AHookAsks)) (GGet r), [])
      else (with_actor y r (set_phase a ACheck), [YHook r])
  | ACheck =>
      (* lifecycle.rs:147-151 *)
      (with_actor y r (set_phase a (if a_tracked a && negb (y_term y) then ADereg else AEnding)), [])
  | ADereg =>
      (* lifecycle.rs:154-158: [expect] *)
      if sched_done y then (with_actor y r (set_phase (set_mail a []) AEnded), [YPanicked r])
      else (post (with_actor y r (set_phase a AWaits)) (GDereg (a_id a) r), [])
  | AEnding => (with_actor y r (set_phase (set_mail a []) AEnded), [YEnded r])  (* lifecycle.rs:163-167 *)
  | AAsks | AHookAsks | AWaits | AEnded => (y, [])
  end.

(** An answer of the scheduler reaches the actor. *)
Definition answered (a : actor) : actor * bool :=
  match a_phase a with
  | AAsks => (set_phase a ALoop, false)
  | AHookAsks => (set_phase a ACheck, true)
  | AWaits => (set_phase a AEnding, false)
  | _ => (a, false)
  end.
Definition answer (y : sys) (r : nat) : sys * list yevent :=
  match y_actors y !! r with
  | Some a => let '(a', h) := answered a in (with_actor y r a', if h then [YHook r] else [])
  | None => (y, [])
  end.

(** The scheduler's mailbox is dropped with the requests in it: the lookups return nothing
    (system/mod.rs:238-241), the deregistrations panic (lifecycle.rs:158). *)
Definition unanswered (a : actor) : actor :=
  match a_phase a with
  | AAsks => set_phase a ALoop
  | AHookAsks => set_phase a ACheck
  | AWaits => set_phase (set_mail a []) AEnded
  | _ => a
  end.
Definition unanswered_event (x : nat * actor) : list yevent :=
  match a_phase (snd x) with AHookAsks => [YHook (fst x)] | AWaits => [YPanicked (fst x)] | _ => [] end.

Definition has_ended (y : sys) (r : nat) : bool :=
  match y_actors y !! r with Some a => bool_decide (a_phase a = AEnded) | None => true end.

(** scheduler/mod.rs:58-69: every actor in the map is sent a [Stop] and waited for. *)
Definition stop_in (l : list nat) (r : nat) (a : actor) : actor := if bool_decide (r ∈ l) then deliver a MStop else a.

Definition sched_step (y : sys) : sys * list yevent :=
  match y_sched y with
  | GLoop =>
      match y_mail y with
      | [] => (y, [])
      | m :: q =>
          let y1 := Sys (y_actors y) (y_next y) q (y_map y) GLoop (y_term y) in
          match m with
          | GReg id r => (Sys (y_actors y) (y_next y) q (<[id := r]> (y_map y)) GLoop (y_term y), [YRegistered r id])
          | GDereg id r => answer (Sys (y_actors y) (y_next y) q (delete id (y_map y)) GLoop (y_term y)) r
          | GGet r => answer y1 r
          | GStop =>
              let l := map snd (map_to_list (y_map y)) in
              (Sys (map_imap (fun r a => Some (stop_in l r a)) (y_actors y)) (y_next y) q (y_map y) (GStopping l) (y_term y), [])
          end
      end
  | GStopping l =>
      if forallb (has_ended y) l
      then (Sys (unanswered <$> y_actors y) (y_next y) [] (y_map y) GDone (y_term y),
            concat (map unanswered_event (map_to_list (y_actors y))) ++ [YReturned])
      else (y, [])
  | GDone => (y, [])
  end.

Definition ystep (y : sys) (o : yop) : sys * list yevent :=
  match o with
  | OCreate id tracked asks =>
      (Sys (<[y_next y := Actor id tracked asks [] ALoop]> (y_actors y)) (S (y_next y)) (y_mail y) (y_map y) (y_sched y) (y_term y),
       [YCreated (y_next y) id tracked])
  | ORegister r =>
      match y_actors y !! r with
      | Some a => if a_tracked a && negb (sched_done y) then (post y (GReg (a_id a) r), []) else (y, [])
      | None => (y, [])
      end
  | OSend r x => match y_actors y !! r with Some a => (with_actor y r (deliver a (MUser x)), []) | None => (y, []) end
  | OStop r => match y_actors y !! r with Some a => (with_actor y r (deliver a MStop), []) | None => (y, []) end
  | OFlag => (Sys (y_actors y) (y_next y) (y_mail y) (y_map y) (y_sched y) true, [])
  | OShutdown => if y_term y then if sched_done y then (y, []) else (post y GStop, []) else (y, [])
  | OActor r => match y_actors y !! r with Some a => actor_step y r a | None => (y, []) end
  | OSched => sched_step y
  end.

Definition yrun (ops : list yop) : sys * list yevent :=
  let '(y, evs) := run ystep sys_init ops in (y, concat evs).
