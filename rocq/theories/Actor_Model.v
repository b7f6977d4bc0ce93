(** A local actor: its mailbox, its loop and its lifecycle
    (coerce/src/actor/{lifecycle,context}.rs, actor/refs/mod.rs, actor/message/mod.rs,
    actor/watch/*.rs).

    The mailbox is tokio's unbounded channel (external): accepted messages are received in
    the order in which they were accepted. The actor task and its callers are interleaved
    by the list of operations: [OSend] is a call on an actor reference by anybody, [OTick]
    lets the actor task make its next step (a hook, or one message: the loop awaits the
    handler before it receives again, lifecycle.rs:81-123). Tracing and metrics are left
    out. The [stopped] hook may do anything but panic. *)
From Verif Require Export Base.

(** What user code (a hook or a handler) may do to the actor: nothing, call [ctx.stop(None)],
    or panic. A panic unwinds the actor task: its context, its mailbox and the message being
    handled are dropped. *)
Inductive effect := Continue | StopSelf | Panic.

(** actor/context.rs:24-29 *)
Inductive status := Starting | Started | Stopping | Stopped.

(** Where the task is in [ActorLoop::run]. *)
Inductive phase :=
| PNew        (* spawned, before [started] *)
| PRunning    (* in the receive loop *)
| PStopping   (* left the loop, before [stopped] *)
| PCleanup    (* after [stopped], lifecycle.rs:147-174 *)
| PClosing    (* everybody has been told, the mailbox still exists *)
| PDone       (* the task has ended, the mailbox is closed *).

#[global] Instance phase_eq_dec : EqDecision phase.
Proof. solve_decision. Defined.

Section actor.
  Context {St Msg Res : Type}.
  (** The user's code. *)
  Context (started : St -> St * effect) (handler : St -> Msg -> St * Res * effect).
  (** [ActorType::Tracked] or not. *)
  Context (tracked : bool).

  (** Messages an actor understands; the flag says that the caller awaits the answer
      ([send] resp. [stop]) or not ([notify], refs/mod.rs:382-475, 498-523). A watch request
      carries the id of the watching actor and its reference. *)
  Inductive request :=
  | RUser (m : Msg) (answer : bool)
  | RStatus
  | RStop (answer : bool)
  | RWatch (id : string) (watcher : nat)
  | RUnwatch (id : string).

  (** What can be observed. Requests are numbered in the order of their acceptance. *)
  Inductive event :=
  | EAccepted (i : nat) (r : request)   (* the call put the message into the mailbox *)
  | ERefused (r : request)              (* the call returned InvalidRef *)
  | EStartedHook
  | EStartReported                      (* creation returns Ok *)
  | EHandled (i : nat)
  | EReply (i : nat) (r : Res)          (* the send resolves to the handler's result *)
  | EStatusReply (i : nat) (s : status)
  | EStoppedHook
  | EDeregistered
  | EStopAnswered (i : nat)
  | ETold (watcher : nat)               (* ActorTerminated sent to the watcher *)
  | EDiscarded (i : nat)                (* dropped: an awaiting caller gets an error *)
  | EStartFailed                        (* creation returns ActorStartFailed *)
  | ECrashed.

  Record actor := Actor {
    a_phase : phase;
    a_user : St;
    a_queue : list (nat * request);
    a_next : nat;                  (* number of accepted requests *)
    a_on_stopped : list nat;       (* context.rs: on_actor_stopped *)
    a_watchers : gmap string nat;  (* watch/watchers.rs:6-8 *)
    a_reported : bool;             (* on_start has been sent *)
  }.

  Definition spawn (u : St) : actor := Actor PNew u [] 0 [] ∅ false.

  (** refs/mod.rs:394-415, 427-437, 466-474: the channel is closed when the receiver, a local
      of [run], is dropped. *)
  Definition send (r : request) (a : actor) : actor * list event :=
    match a_phase a with
    | PDone => (a, [ERefused r])
    | _ => (Actor (a_phase a) (a_user a) (a_queue a ++ [(a_next a, r)]) (S (a_next a))
                  (a_on_stopped a) (a_watchers a) (a_reported a),
            [EAccepted (a_next a) r])
    end.

  (** The task ends: queued messages are dropped with the mailbox, and [on_start], if it was
      not sent, with the arguments of [run]. *)
  Definition finish (a : actor) : actor * list event :=
    (Actor PDone (a_user a) [] (a_next a) [] ∅ true,
     map (fun x => EDiscarded x.1) (a_queue a) ++ (if a_reported a then [] else [EStartFailed])).

  (** A panic: handlers waiting for the stop are dropped as well. *)
  Definition crash (a : actor) : actor * list event :=
    let '(a', ev) := finish a in (a', ECrashed :: map EDiscarded (a_on_stopped a) ++ ev).

  (** lifecycle.rs:67-79 *)
  Definition run_started (a : actor) : actor * list event :=
    let '(u, e) := started (a_user a) in
    let a' ph rep := Actor ph u (a_queue a) (a_next a) (a_on_stopped a) (a_watchers a) rep in
    match e with
    | Continue => (a' PRunning true, [EStartedHook; EStartReported])
    | StopSelf => (a' PStopping false, [EStartedHook])
    | Panic => let '(a2, ev) := crash (a' PNew false) in (a2, EStartedHook :: ev)
    end.

  (** The handlers every actor has: Status and Stop (lifecycle.rs:30-45), Watch and Unwatch
      (watch/mod.rs:33-44), and the user's; message/mod.rs:162-191 sends the result. *)
  Definition run_message (i : nat) (r : request) (a : actor) : actor * list event :=
    let upd ph u ons ws := Actor ph u (a_queue a) (a_next a) ons ws (a_reported a) in
    match r with
    | RStatus => (a, [EStatusReply i Started])
    | RStop ans => (upd PStopping (a_user a) (a_on_stopped a ++ (if ans then [i] else [])) (a_watchers a), [])
    | RWatch id w => (upd PRunning (a_user a) (a_on_stopped a) (<[id := w]> (a_watchers a)), [])
    | RUnwatch id => (upd PRunning (a_user a) (a_on_stopped a) (delete id (a_watchers a)), [])
    | RUser m ans =>
        let '(u, res, e) := handler (a_user a) m in
        let reply := if ans then [EReply i res] else [] in
        match e with
        | Continue => (upd PRunning u (a_on_stopped a) (a_watchers a), reply)
        | StopSelf => (upd PStopping u (a_on_stopped a) (a_watchers a), reply)
        | Panic => let '(a2, ev) := crash (upd PRunning u (a_on_stopped a) (a_watchers a)) in
                   (a2, EDiscarded i :: ev)
        end
    end.

  (** lifecycle.rs:138-175 after the hook. The iteration order of the watchers (a HashMap) is
      that of [map_to_list]; each notification goes to a different mailbox. *)
  Definition run_cleanup (a : actor) : actor * list event :=
    (Actor PClosing (a_user a) (a_queue a) (a_next a) [] ∅ (a_reported a),
     (if tracked then [EDeregistered] else []) ++ map EStopAnswered (a_on_stopped a) ++
     map (fun x => ETold x.2) (map_to_list (a_watchers a))).

  (** One step of the task. [receiver.recv()] never returns [None] while the task runs: the
      context itself holds a reference to the actor. *)
  Definition tick (a : actor) : actor * list event :=
    match a_phase a with
    | PNew => run_started a
    | PRunning =>
        match a_queue a with
        | [] => (a, [])
        | (i, r) :: q =>
            let '(a', ev) := run_message i r (Actor PRunning (a_user a) q (a_next a) (a_on_stopped a)
                                                (a_watchers a) (a_reported a)) in
            (a', EHandled i :: ev)
        end
    | PStopping => (Actor PCleanup (a_user a) (a_queue a) (a_next a) (a_on_stopped a) (a_watchers a)
                          (a_reported a), [EStoppedHook])
    | PCleanup => run_cleanup a
    | PClosing => finish a
    | PDone => (a, [])
    end.

  Inductive op := OSend (r : request) | OTick.

  Definition astep (a : actor) (o : op) : actor * list event :=
    match o with OSend r => send r a | OTick => tick a end.

  (** A run of an actor created with state [u]: the final state and everything observed. *)
  Definition arun (u : St) (ops : list op) : actor * list event :=
    let '(a, evs) := run astep (spawn u) ops in (a, concat evs).
End actor.
Arguments request : clear implicits.
Arguments op : clear implicits.
Arguments event : clear implicits.
Arguments actor : clear implicits.
