(** The parts of an actor system around the actors: the registry of tracked actors, worker
    pools, timers and the description of actor trees
    (coerce/src/actor/{scheduler,system,worker,describe}). *)
From Verif Require Export Base.

(** * The registry (actor/scheduler/mod.rs)

    Creating a tracked actor starts its task first and then sends [RegisterActor] to the
    scheduler (system/mod.rs:107-179); a stopping actor notifies [DeregisterActor] with its
    id (lifecycle.rs:158-166), a panicking one does not. The scheduler is an actor: it handles
    these messages, and lookups, one at a time in the order of its mailbox. Logging and the
    remote registration are left out, lookups are for the right actor type. *)

Inductive gmsg := GReg (id : string) (r : nat) | GDereg (id : string) | GGet (k : nat) (id : string).

Record tracked_actor := TActor { t_id : string; t_alive : bool; t_sent : bool }.

Record registry := Registry {
  g_actors : gmap nat tracked_actor;
  g_next : nat;
  g_mail : list gmsg;
  g_map : gmap string nat;      (* scheduler/mod.rs: actors *)
}.
Definition registry_init : registry := Registry ∅ 0 [] ∅.

Inductive gop :=
| GOCreate (id : string)    (* start_actor: the task is spawned *)
| GORegister (r : nat)      (* the creator sends RegisterActor *)
| GOStop (r : nat)          (* the actor stops: DeregisterActor is sent *)
| GOCrash (r : nat)         (* the actor panics *)
| GOLookup (k : nat) (id : string)
| GOProcess.                (* the scheduler handles its next message *)

Inductive gevent := GCreated (r : nat) (id : string) | GStopped (r : nat) | GAnswer (k : nat) (res : option nat).

(** scheduler/mod.rs:188-265 *)
Definition g_handle (m : gmsg) (mp : gmap string nat) : gmap string nat * list gevent :=
  match m with
  | GReg id r => (<[id := r]> mp, [])
  | GDereg id => (delete id mp, [])
  | GGet k id => (mp, [GAnswer k (mp !! id)])
  end.

Definition gstep (s : registry) (o : gop) : registry * list gevent :=
  match o with
  | GOCreate id =>
      (Registry (<[g_next s := TActor id true false]> (g_actors s)) (S (g_next s)) (g_mail s) (g_map s),
       [GCreated (g_next s) id])
  | GORegister r =>
      match g_actors s !! r with
      | Some (TActor id a false) =>
          (Registry (<[r := TActor id a true]> (g_actors s)) (g_next s) (g_mail s ++ [GReg id r]) (g_map s), [])
      | _ => (s, [])
      end
  | GOStop r =>
      match g_actors s !! r with
      | Some (TActor id true t) =>
          (Registry (<[r := TActor id false t]> (g_actors s)) (g_next s) (g_mail s ++ [GDereg id]) (g_map s), [GStopped r])
      | _ => (s, [])
      end
  | GOCrash r =>
      match g_actors s !! r with
      | Some (TActor id true t) =>
          (Registry (<[r := TActor id false t]> (g_actors s)) (g_next s) (g_mail s) (g_map s), [GStopped r])
      | _ => (s, [])
      end
  | GOLookup k id => (Registry (g_actors s) (g_next s) (g_mail s ++ [GGet k id]) (g_map s), [])
  | GOProcess =>
      match g_mail s with
      | [] => (s, [])
      | m :: q => let '(mp, ev) := g_handle m (g_map s) in (Registry (g_actors s) (g_next s) q mp, ev)
      end
  end.

Definition grun (ops : list gop) : registry * list gevent :=
  let '(s, evs) := run gstep registry_init ops in (s, concat evs).

(** * Worker pools (actor/worker.rs:117-143): the worker that gets the next message. *)
Definition pool_step {W : Type} (workers : list W) (_ : unit) : list W * option W :=
  match workers with
  | [] => ([], None)
  | w :: ws => (ws ++ [w], Some w)
  end.
(** Who gets each of [n] messages. *)
Definition pool_run {W : Type} (workers : list W) (n : nat) : list (option W) :=
  (run pool_step workers (repeat tt n)).2.

(** * Timers (actor/scheduler/timer.rs:68-125)

    The loop in the mode that all constructors use ([TimerMode::Send]). Times are integers. What
    happens to a tick: [Answered d], handled and answered after [d]; [Lost], accepted but
    dropped by an actor that stops; [Gone], refused as the actor has stopped. [interval.reset]
    (tokio, external) sets the next deadline to now + period. A tick is accepted at its
    deadline (timers are exact). [stop] is the time at which [Timer::stop] was called. *)
Inductive tick_fate := Answered (d : Z) | Lost | Gone.

Definition stop_seen (stop : option Z) (t : Z) : bool := match stop with Some s => s <=? t | None => false end%Z.

(** The times of the accepted ticks. *)
Fixpoint timer_loop (period : Z) (stop : option Z) (t : Z) (fates : list tick_fate) : list Z :=
  match fates with
  | [] => []
  | f :: fates' =>
      if stop_seen stop t then []
      else match f with
           | Gone => []
           | Lost => [t]
           | Answered d => t :: timer_loop period stop (t + d + period)%Z fates'
           end
  end.

(** timer.rs:24-57, 78-84 *)
Definition timer (immediately : bool) (now period : Z) (stop : option Z) (fates : list tick_fate) : list Z :=
  timer_loop period stop (if immediately then now else now + period)%Z fates.

(** actor/mod.rs:489-512: [cancel] is the time at which the handle was cancelled. When both
    are due the runtime may choose either ([select!] polls in random order): [pick]. *)
Definition scheduled_notify (pick : bool) (now delay : Z) (cancel : option Z) : list Z :=
  match cancel with
  | None => [(now + delay)%Z]
  | Some c => if (c <? now + delay)%Z then [] else if (now + delay <? c)%Z then [(now + delay)%Z]
              else if pick then [(now + delay)%Z] else []
  end.

(** * Description of actor trees (actor/describe/mod.rs) *)

(** How an actor reacts to [Describe]: its mailbox is closed; it drops the request (stops)
    after [d]; it never gets to it; it handles it after [d] milliseconds. *)
Inductive reaction := Refuses | Drops (d : N) | Silent | Handles (d : N).

(** An actor, whether it is attached to its parent, and its children in the order in which
    the parent's map yields them. *)
Inductive tree := Tree (id : string) (attached : bool) (re : reaction) (children : list tree).

Inductive description := Desc (id : string) (supervised : list dresult)
with dresult := DOk (d : description) | DErr (id : string) | DTimeout (id : string).

Record options := Options { max_depth : option nat; max_children : option nat; describe_attached : bool }.

(** describe/mod.rs:203-213 *)
Definition describable {A : Type} (attached : A -> bool) (o : options) (l : list A) : list A :=
  let l := List.filter (fun t => describe_attached o || negb (attached t)) l in
  match max_children o with None => l | Some n => take n l end.

(** describe/mod.rs:168-172 *)
Definition describe_timeout (depth : nat) : N := if (0 <? depth)%nat then 5000%N else 10000%N.

Definition tree_id (t : tree) : string := let 'Tree id _ _ _ := t in id.
Definition is_attached (t : tree) : bool := let 'Tree _ a _ _ := t in a.
Definition children_of (t : tree) : list tree := let 'Tree _ _ _ l := t in l.

(** What the sender of a description request gets, and when: [None] if it waits for ever. *)
Inductive outcome := OValue (d : description) | ORefused | OClosed.

(** describe/mod.rs:174-199: the result for one actor and the time it takes. *)
Definition await_child (timeout : N) (id : string) (x : option (N * outcome)) : N * dresult :=
  match x with
  | Some (t, r) =>
      if (t <=? timeout)%N then
        (t, match r with OValue d => DOk d | ORefused | OClosed => DErr id end)
      else (timeout, DTimeout id)
  | None => (timeout, DTimeout id)
  end.

(** describe/mod.rs:86-137: [depth] is [current_depth] of the request. A description without
    children has an empty list ([supervised: None]). The model describes all children before
    it selects the describable ones, which makes no difference. *)
Fixpoint describe (o : options) (depth : nat) (t : tree) : option (N * outcome) :=
  match t with
  | Tree id _ re ch =>
      match re with
      | Refuses => Some (0%N, ORefused)
      | Drops d => Some (d, OClosed)
      | Silent => None
      | Handles d =>
          let below := match max_depth o with Some m => (m <? S depth)%nat | None => false end in
          if below then Some (d, OValue (Desc id []))
          else
            let rs := map (fun c => (is_attached c, await_child (describe_timeout depth) (tree_id c) (describe o (S depth) c))) ch in
            let rs' := map snd (describable fst o rs) in
            Some (fold_right (fun x m => N.max (fst x) m) 0%N rs' + d, OValue (Desc id (map snd rs')))%N
      end
  end.
