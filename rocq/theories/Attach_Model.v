(** Streams attached to an actor (coerce/src/actor/context.rs:431-470).

    [attach_stream] spawns a task that reads the stream, converts each element and notifies
    the actor; the task runs beside the actor and all its other callers. Any number of streams
    may be attached: they are numbered, and the task of stream [k] makes a step with [WPull k].
    A stream attached later is one whose task makes its first step later. The elements of a
    stream become available over time ([WArrive]), and it may end ([WEnd]). The stream itself
    and tokio are external: elements are read in the order in which they became available. *)
From Verif Require Export Actor_Model.

(** The elements of a stream, [Result<R, E>]. *)
Inductive sitem (R : Type) := SOk (x : R) | SErr.
Arguments SOk {R} _.
Arguments SErr {R}.

(** context.rs:456-466: the field is private to the module and [Default] is the only way to
    make the options: it is always set. *)
Record attach_options := AttachOptions { stop_on_stream_end : bool }.
Definition default_options : attach_options := AttachOptions true.

(** What is available of a stream and has not been read, whether nothing more will come, and
    whether the task is over (the stream and the reference have been dropped). *)
Record stream (R : Type) := Stream { st_items : list (sitem R); st_closed : bool; st_over : bool }.
Arguments Stream {R} _ _ _.
Arguments st_items {R} _.
Arguments st_closed {R} _.
Arguments st_over {R} _.
Definition new_stream {R : Type} : stream R := Stream [] false false.

Section attach.
  Context {St Msg Res R : Type}.
  Context (started : St -> St * effect) (handler : St -> Msg -> St * Res * effect) (tracked : bool).
  (** The message converters of the streams. *)
  Context (conv : nat -> R -> option Msg).
  Context (opts : attach_options).

  Record world := World { w_actor : actor St Msg; w_streams : gmap nat (stream R) }.
  Definition new_world (u : St) : world := World (spawn u) ∅.
  Definition stream_at (k : nat) (w : world) : stream R := default new_stream (w_streams w !! k).

  Inductive wop :=
  | WSend (r : request Msg)             (* somebody else's call *)
  | WTick                               (* the actor's task *)
  | WArrive (k : nat) (x : sitem R)     (* an element of stream [k] becomes available *)
  | WEnd (k : nat)                      (* stream [k] ends *)
  | WPull (k : nat).                    (* the task of stream [k] *)

  (** Who did it: the task of a stream, or somebody else. *)
  Definition tagged : Type := option nat * event Msg Res.

  (** The call of a task: what it returns is ignored (context.rs:447, 452). *)
  Definition task_call (k : nat) (r : request Msg) (s : stream R) (w : world) : world * list tagged :=
    let '(a, ev) := send r (w_actor w) in (World a (<[k := s]> (w_streams w)), map (pair (Some k)) ev).

  (** After the loop, context.rs:451-453 *)
  Definition task_end (k : nat) (w : world) : world * list tagged :=
    let s := Stream [] (st_closed (stream_at k w)) true in
    if stop_on_stream_end opts then task_call k (RStop false) s w
    else (World (w_actor w) (<[k := s]> (w_streams w)), []).

  (** One turn of the loop, context.rs:445-449 *)
  Definition pull (k : nat) (w : world) : world * list tagged :=
    let s := stream_at k w in
    if st_over s then (w, [])
    else match st_items s with
         | [] => if st_closed s then task_end k w else (w, [])
         | SErr :: _ => task_end k w
         | SOk x :: l =>
             let s' := Stream l (st_closed s) false in
             match conv k x with
             | Some m => task_call k (RUser m false) s' w
             | None => (World (w_actor w) (<[k := s']> (w_streams w)), [])
             end
         end.

  Definition wstep (w : world) (o : wop) : world * list tagged :=
    match o with
    | WSend r => let '(a, ev) := send r (w_actor w) in (World a (w_streams w), map (pair None) ev)
    | WTick => let '(a, ev) := tick started handler tracked (w_actor w) in (World a (w_streams w), map (pair None) ev)
    | WArrive k x =>
        let s := stream_at k w in
        if st_closed s || st_over s then (w, [])
        else (World (w_actor w) (<[k := Stream (st_items s ++ [x]) false false]> (w_streams w)), [])
    | WEnd k =>
        let s := stream_at k w in
        (World (w_actor w) (<[k := Stream (st_items s) true (st_over s)]> (w_streams w)), [])
    | WPull k => pull k w
    end.

  Definition wrun (u : St) (ops : list wop) : world * list tagged :=
    let '(w, evs) := run wstep (new_world u) ops in (w, concat evs).
End attach.
Arguments world : clear implicits.
Arguments wop : clear implicits.
Arguments tagged : clear implicits.
