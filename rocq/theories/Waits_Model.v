(** Who waits for whom: actors whose handlers and hooks wait for other actors (coerce/src/actor/lifecycle.rs:48-175,
    actor/refs/mod.rs:382-475, actor/system/mod.rs:107-190, actor/supervised.rs:58-115, actor/blocking.rs). *)
From Verif Require Export Base.

(** ** What a task does

    The task of an actor, or any other tokio task, is reduced to the points at which it meets other tasks. What it
    computes in between, and which branch it takes, is left open: a handler may do any of a set of such lists. *)
Inductive action {K M : Type} :=
| Ask (q : K) (m : M)             (* [send(m).await], [stop().await]: refs/mod.rs:382-420, 491-512; blocking.rs:51-88 *)
| Tell (q : K) (m : M)            (* [notify]: refs/mod.rs:461-475 *)
| Begin (y : K)                   (* [new_actor(..).await], [ctx.spawn(..).await]: system/mod.rs:155-190, supervised.rs:58-88 *)
| Launch (y : K)                  (* [new_actor_deferred], [spawn_deferred]: system/mod.rs:107-137, supervised.rs:90-115 *)
| Fork (l : list action)          (* [tokio::spawn] *)
| Delegate (l : list action)      (* [tokio::spawn] of a task that gets the channel for the answer *)
| Forward (q : K) (m : M)         (* [notify] of a message that carries the channel for the answer along *)
| Reply                           (* the answer is given before the task is done *)
| Pause                           (* a wait for something outside that ends: a timeout, a timer, a write *)
| Hang                            (* a wait for something outside that may never end: a read without a timeout *)
| Die.                            (* the task ends, with its mailbox: a panic, or the end of an actor that stops *)
Arguments action : clear implicits.

Section Model.
  Context {K M : Type} `{Countable K}.
  Notation act := (action K M).

  (** Tasks: the actors, by name, and all others, by number. A name stands for one incarnation. *)
  Notation pid := (K + N)%type.

  (** A handler or hook that runs: who waits for its answer, what is left to do, and whether it waits (then for
      the first of what is left). *)
  Record running := Run { r_for : option pid; r_todo : list act; r_waits : bool }.
  (** A task: its mailbox, each message with who waits for the answer, and what it runs. *)
  Inductive proc := Live (mail : list (M * option pid)) (r : option running) | Dead.

  Record state := State { s_procs : gmap pid proc; s_next : N }.

  (** What the handlers and the [started] hooks may do. *)
  Variable handler : K -> M -> list act -> Prop.
  Variable started : K -> list act -> Prop.

  (** The channel for the answer is used or dropped: in both cases the wait is over
      (refs/mod.rs:402-420: a result or [ResultChannelClosed]; system/mod.rs:176-189). *)
  Definition resume (x : proc) : proc :=
    match x with
    | Live l (Some (Run k (_ :: s) true)) => Live l (Some (Run k s false))
    | _ => x
    end.
  Definition wake (k : option pid) (ps : gmap pid proc) : gmap pid proc :=
    match k with Some p => alter resume p ps | None => ps end.
  (** A mailbox is dropped with the channels in it (lifecycle.rs:51: [receiver] ends with the loop). *)
  Definition wake_all (l : list (M * option pid)) (ps : gmap pid proc) : gmap pid proc :=
    foldr (fun x ps => wake (snd x) ps) ps l.

  Definition put (p : pid) (m : M) (k : option pid) (ps : gmap pid proc) : gmap pid proc :=
    alter (fun x => match x with Live l r => Live (l ++ [(m, k)]) r | Dead => Dead end) p ps.
  Definition alive (ps : gmap pid proc) (p : pid) : bool :=
    match ps !! p with Some (Live _ _) => true | _ => false end.

  (** One step of task [p]. *)
  Inductive pstep (s : state) (p : pid) : state -> Prop :=
  | PTake q m k l todo :
      (* lifecycle.rs:81: the next message *)
      p = inl q -> s_procs s !! p = Some (Live ((m, k) :: l) None) -> handler q m todo ->
      pstep s p (State (<[p := Live l (Some (Run k todo false))]> (s_procs s)) (s_next s))
  | PAsk l k q m todo :
      s_procs s !! p = Some (Live l (Some (Run k (Ask q m :: todo) false))) -> alive (s_procs s) (inl q) = true ->
      pstep s p (State (put (inl q) m (Some p) (<[p := Live l (Some (Run k (Ask q m :: todo) true))]> (s_procs s))) (s_next s))
  | PAskDead l k q m todo :
      (* refs/mod.rs:418: [InvalidRef] *)
      s_procs s !! p = Some (Live l (Some (Run k (Ask q m :: todo) false))) -> alive (s_procs s) (inl q) = false ->
      pstep s p (State (<[p := Live l (Some (Run k todo false))]> (s_procs s)) (s_next s))
  | PTell l k q m todo :
      s_procs s !! p = Some (Live l (Some (Run k (Tell q m :: todo) false))) ->
      pstep s p (State (put (inl q) m None (<[p := Live l (Some (Run k todo false))]> (s_procs s))) (s_next s))
  | PBegin l k y todo todo' :
      s_procs s !! p = Some (Live l (Some (Run k (Begin y :: todo) false))) -> s_procs s !! inl y = None -> started y todo' ->
      pstep s p (State (<[inl y := Live [] (Some (Run (Some p) todo' false))]>
                         (<[p := Live l (Some (Run k (Begin y :: todo) true))]> (s_procs s))) (s_next s))
  | PBegun l k y todo :
      (* there is such an actor already: supervised.rs:65-67 *)
      s_procs s !! p = Some (Live l (Some (Run k (Begin y :: todo) false))) -> is_Some (s_procs s !! inl y) ->
      pstep s p (State (<[p := Live l (Some (Run k todo false))]> (s_procs s)) (s_next s))
  | PLaunch l k y todo todo' :
      s_procs s !! p = Some (Live l (Some (Run k (Launch y :: todo) false))) -> s_procs s !! inl y = None -> started y todo' ->
      pstep s p (State (<[inl y := Live [] (Some (Run None todo' false))]>
                         (<[p := Live l (Some (Run k todo false))]> (s_procs s))) (s_next s))
  | PLaunched l k y todo :
      s_procs s !! p = Some (Live l (Some (Run k (Launch y :: todo) false))) -> is_Some (s_procs s !! inl y) ->
      pstep s p (State (<[p := Live l (Some (Run k todo false))]> (s_procs s)) (s_next s))
  | PFork l k todo' todo :
      s_procs s !! p = Some (Live l (Some (Run k (Fork todo' :: todo) false))) ->
      pstep s p (State (<[inr (s_next s) := Live [] (Some (Run None todo' false))]>
                         (<[p := Live l (Some (Run k todo false))]> (s_procs s))) (s_next s + 1))
  | PDelegate l k todo' todo :
      s_procs s !! p = Some (Live l (Some (Run k (Delegate todo' :: todo) false))) ->
      pstep s p (State (<[inr (s_next s) := Live [] (Some (Run k todo' false))]>
                         (<[p := Live l (Some (Run None todo false))]> (s_procs s))) (s_next s + 1))
  | PForward l k q m todo :
      s_procs s !! p = Some (Live l (Some (Run k (Forward q m :: todo) false))) -> alive (s_procs s) (inl q) = true ->
      pstep s p (State (put (inl q) m k (<[p := Live l (Some (Run None todo false))]> (s_procs s))) (s_next s))
  | PForwardDead l k q m todo :
      (* the message is dropped with the channel *)
      s_procs s !! p = Some (Live l (Some (Run k (Forward q m :: todo) false))) -> alive (s_procs s) (inl q) = false ->
      pstep s p (State (wake k (<[p := Live l (Some (Run None todo false))]> (s_procs s))) (s_next s))
  | PReply l k todo :
      s_procs s !! p = Some (Live l (Some (Run k (Reply :: todo) false))) ->
      pstep s p (State (wake k (<[p := Live l (Some (Run None todo false))]> (s_procs s))) (s_next s))
  | PPause l k todo :
      s_procs s !! p = Some (Live l (Some (Run k (Pause :: todo) false))) ->
      pstep s p (State (<[p := Live l (Some (Run k todo false))]> (s_procs s)) (s_next s))
  | PHang l k todo :
      s_procs s !! p = Some (Live l (Some (Run k (Hang :: todo) false))) ->
      pstep s p (State (<[p := Live l (Some (Run k todo false))]> (s_procs s)) (s_next s))
  | PDie l k todo :
      s_procs s !! p = Some (Live l (Some (Run k (Die :: todo) false))) ->
      pstep s p (State (wake_all l (wake k (<[p := Dead]> (s_procs s)))) (s_next s))
  | PEnd l k :
      (* lifecycle.rs:110-121: the result is sent when the handler returns (actor/message/mod.rs); other tasks are over *)
      s_procs s !! p = Some (Live l (Some (Run k [] false))) ->
      pstep s p (State (wake k (<[p := match p with inl _ => Live l None | inr _ => Dead end]> (s_procs s))) (s_next s)).

  (** The world outside starts tasks: the program's own, and what the network brings. *)
  Inductive estep (s : state) : state -> Prop :=
  | ENothing : estep s s
  | ETask todo : estep s (State (<[inr (s_next s) := Live [] (Some (Run None todo false))]> (s_procs s)) (s_next s + 1)).

  Definition step (s : state) (p : option pid) (s' : state) : Prop :=
    match p with Some p => pstep s p s' | None => estep s s' end.

  (** The actors that exist at first, with empty mailboxes. *)
  Definition init (l : list K) : state := State (list_to_map ((fun k => (inl k, Live [] None)) <$> l)) 0.
End Model.
Arguments proc : clear implicits.
Arguments state K M {_ _}.
Arguments running : clear implicits.
