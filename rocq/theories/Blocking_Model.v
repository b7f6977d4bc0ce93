(** The blocking api (coerce/src/actor/blocking.rs), used by threads beside an actor.

    Tokio is external; of its documentation this is used: [oneshot::Receiver::blocking_recv]
    panics on a thread that runs async code, and [tokio::spawn] panics on a thread without a
    runtime. Any number of threads makes calls, each a list of them, one after the other; the
    list of operations interleaves them with the actor's task. *)
From Verif Require Export Actor_Model.
From Verif Require Import ActorSys_Model.

(** Where a call is made: in async code (a task, such as the handler of an actor); on a thread
    that has a runtime but runs no async code ([spawn_blocking]); on any other thread. *)
Inductive place := InTask | WithRuntime | Outside.
#[global] Instance place_eq_dec : EqDecision place.
Proof. solve_decision. Defined.

(** [blocking_recv] panics *)
Definition must_not_block (p : place) : bool := match p with InTask => true | _ => false end.
(** [tokio::spawn] panics *)
Definition cannot_spawn (p : place) : bool := match p with Outside => true | _ => false end.

(** [send(..).await], [stop().await] or the blocking call. *)
Inductive style := Await | Block.

Section blocking.
  Context {St Msg Res : Type}.
  Context (started : St -> St * effect) (handler : St -> Msg -> St * Res * effect) (tracked : bool).

  (** [send]/[send_blocking] and, as a message, [exec]/[exec_blocking]; [status]; [stop]/[stop_blocking] *)
  Inductive ask := AMsg (m : Msg) | AStatus | AStop.
  Definition to_request (a : ask) : request Msg :=
    match a with AMsg m => RUser m true | AStatus => RStatus | AStop => RStop true end.

  Inductive result := Value (r : Res) | StatusIs (s : status) | IsStopped | ChannelClosed | InvalidRef.

  (** What the caller of request [i] gets from an event: blocking.rs:66-78, 81-88, 97;
      refs/mod.rs:394-415, 498-506. [stop] has an error of its own if the channel is dropped. *)
  Definition result_of (a : ask) (i : nat) (e : event Msg Res) : option result :=
    match e with
    | EReply j r => if Nat.eqb i j then Some (Value r) else None
    | EStatusReply j s => if Nat.eqb i j then Some (StatusIs s) else None
    | EStopAnswered j => if Nat.eqb i j then Some IsStopped else None
    | EDiscarded j => if Nat.eqb i j then Some (match a with AStop => InvalidRef | _ => ChannelClosed end) else None
    | _ => None
    end.
  Fixpoint result_in (a : ask) (i : nat) (tr : list (event Msg Res)) : option result :=
    match tr with
    | [] => None
    | e :: tr' => match result_of a i e with Some r => Some r | None => result_in a i tr' end
    end.

  (** A thread: where it runs, the calls it has still to make, those it has made with the numbers
      under which they were accepted, and what those returned; a panic ends it. *)
  Record thread := Thread {
    th_place : place;
    th_todo : list (style * ask);
    th_made : list (ask * option nat);
    th_results : list result;
    th_panicked : bool;
  }.

  Record bsys := BSys { b_actor : actor St Msg; b_trace : list (event Msg Res); b_threads : gmap nat thread }.

  Inductive bop := BTick | BThread (t : nat).

  (** The next call: blocking.rs:52-79, 81-89. *)
  Definition make_call (s : bsys) (t : nat) (th : thread) (st : style) (a : ask) (todo : list (style * ask)) : bsys :=
    let '(ac, ev) := send (to_request a) (b_actor s) in
    let th' :=
      match a_phase (b_actor s) with
      | PDone => Thread (th_place th) todo (th_made th ++ [(a, None)]) (th_results th ++ [InvalidRef]) false
      | _ => Thread (th_place th) todo (th_made th ++ [(a, Some (a_next (b_actor s)))]) (th_results th)
                    (match st with Block => must_not_block (th_place th) | Await => false end)
      end in
    BSys ac (b_trace s ++ ev) (<[t := th']> (b_threads s)).

  Definition thread_step (s : bsys) (t : nat) (th : thread) : bsys :=
    if th_panicked th then s
    else if (length (th_results th) <? length (th_made th))%nat then
      match last (th_made th) with
      | Some (a, Some i) =>
          match result_in a i (b_trace s) with
          | Some r => BSys (b_actor s) (b_trace s)
                           (<[t := Thread (th_place th) (th_todo th) (th_made th) (th_results th ++ [r]) false]> (b_threads s))
          | None => s
          end
      | _ => s
      end
    else match th_todo th with
         | [] => s
         | (st, a) :: todo => make_call s t th st a todo
         end.

  Definition bstep (s : bsys) (o : bop) : bsys :=
    match o with
    | BTick => let '(a, ev) := tick started handler tracked (b_actor s) in BSys a (b_trace s ++ ev) (b_threads s)
    | BThread t => match b_threads s !! t with Some th => thread_step s t th | None => s end
    end.

  Definition start_threads (progs : gmap nat (place * list (style * ask))) : gmap nat thread :=
    (fun x => Thread x.1 x.2 [] [] false) <$> progs.

  Definition brun (u : St) (progs : gmap nat (place * list (style * ask))) (ops : list bop) : bsys :=
    fold_left bstep ops (BSys (spawn u) [] (start_threads progs)).
End blocking.
Arguments ask : clear implicits.
Arguments result : clear implicits.
Arguments thread : clear implicits.
Arguments bsys : clear implicits.

(** * Creation (blocking.rs:12-47), over the registry of tracked actors (ActorSys_Model) *)

(** The call panics before or after the actor has been started, or waits for the answer of the
    scheduler and for the start of the actor. *)
Inductive creating := PanicNothing | PanicStarted (r : nat) | WaitStart (r : nat).

Definition create_blocking (p : place) (tracked : bool) (id : string) (s : registry) : registry * creating :=
  if cannot_spawn p then (s, PanicNothing)       (* start_actor spawns: scheduler/mod.rs:284-312 *)
  else
    let r := g_next s in
    let s1 := (gstep s (GOCreate id)).1 in
    let s2 := if tracked then (gstep s1 (GORegister r)).1 else s1 in
    (s2, if must_not_block p then PanicStarted r else WaitStart r).
