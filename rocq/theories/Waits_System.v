(** Who waits for whom among the actors of the framework itself: scheduler, mediator, registry, clients, discovery,
    heartbeat, sessions, shards, singletons (coerce/src/actor/scheduler, remote/, sharding/, singleton/). *)
From Verif Require Export Waits_Spec.

(** ** Sets of scripts *)
Section Shapes.
  Context {K M : Type}.
  Notation act := (action K M).

  (** What a handler may do, as a set of lists: branches are alternatives, loops repeat any number of times. *)
  Inductive shape :=
  | Nil
  | Do (P : act -> Prop)
  | Then (a b : shape)
  | Or (a b : shape)
  | Many (a : shape)
  | Spawns (a : shape)        (* a task of its own *)
  | Hands (a : shape).        (* a task of its own that is to give the answer *)

  Inductive does : shape -> list act -> Prop :=
  | DNil : does Nil []
  | DDo (P : act -> Prop) a : P a -> does (Do P) [a]
  | DThen a b l l' : does a l -> does b l' -> does (Then a b) (l ++ l')
  | DOrL a b l : does a l -> does (Or a b) l
  | DOrR a b l : does b l -> does (Or a b) l
  | DMany0 a : does (Many a) []
  | DMany a l l' : does a l -> does (Many a) l' -> does (Many a) (l ++ l')
  | DSpawns a l : does a l -> does (Spawns a) [Fork l]
  | DHands a l : does a l -> does (Hands a) [Delegate l].

  (** Code may also panic anywhere: the task ends, and with it the actor (lifecycle.rs runs handlers without
      [catch_unwind]). *)
  Definition may (a : shape) (todo : list act) : Prop :=
    exists l, does a l /\ (todo = l \/ exists l1 l2, l = l1 ++ l2 /\ todo = l1 ++ [Die]).
End Shapes.
Arguments shape : clear implicits.

(** ** The actors *)
Inductive name :=
| Scheduler | Mediator | Registry | Clients | Discovery | Heartbeat
| Client (n : N) | Store | Session (n : N)
| Host (n : N) | Shard (n : N) | Coordinator (n : N) | Manager (n : N) | Proxy (n : N)
| User (n : N).       (* an actor of the program *)
Global Instance name_eq : EqDecision name.
Proof. solve_decision. Defined.
Global Instance name_countable : Countable name.
Proof.
  refine (inj_countable'
    (fun q => match q with
      | Scheduler => (0, 0) | Mediator => (1, 0) | Registry => (2, 0) | Clients => (3, 0) | Discovery => (4, 0) | Heartbeat => (5, 0)
      | Client n => (6, n) | Store => (7, 0) | Session n => (8, n) | Host n => (9, n) | Shard n => (10, n)
      | Coordinator n => (11, n) | Manager n => (12, n) | Proxy n => (13, n) | User n => (14, n) end)%N
    (fun x => match fst x with
      | 0 => Scheduler | 1 => Mediator | 2 => Registry | 3 => Clients | 4 => Discovery | 5 => Heartbeat
      | 6 => Client (snd x) | 7 => Store | 8 => Session (snd x) | 9 => Host (snd x) | 10 => Shard (snd x)
      | 11 => Coordinator (snd x) | 12 => Manager (snd x) | 13 => Proxy (snd x) | _ => User (snd x) end%N) _).
  by intros [].
Defined.

Inductive msg :=
| Stop | Status                                        (* actor/lifecycle.rs:19-46: of any actor *)
| SetRemote                                            (* remote/actor/message.rs *)
| Event                                                (* [Receive<SystemTopic>]: stream/pubsub.rs *)
| RegisterActor | DeregisterActor | GetActor           (* actor/scheduler/mod.rs *)
| Publish | PublishRaw | Subscribe                     (* remote/stream/mediator/mod.rs *)
| GetNodes | RegisterNode | UpdateNodes | NodeTerminated | GetActorNode | PutActor    (* remote/actor/registry.rs *)
| NewClient (n : N) | RemoveClient | ClientConnected | ClientWrite (n : N)            (* remote/actor/clients.rs *)
| DiscoverAddr | DiscoverNodes | Forget | NodeDiscovered                              (* remote/cluster/discovery/mod.rs *)
| NodePing | OnLeaderChanged | Tick | GetHealth | RegisterHealthCheck | RemoveHealthCheck  (* remote/heartbeat *)
| Connect | Disconnected | Identify | Handshake | PingTick | Write                    (* remote/net/client *)
| NewSession (n : N) | SessionClosed | SessionWrite                                   (* remote/net/server/session *)
| ShardAllocated (n : N) | StopShard (n : N) | ShardMessage (n : N) | HostOther       (* sharding/host *)
| EntityStart (n : N) | EntityRequest (n : N) | ShardOther                            (* sharding/shard *)
| AllocateShard | Rebalance | CoordinatorOther                                        (* sharding/coordinator *)
| Lease | ManagerOther                                                                (* singleton/manager *)
| Deliver (n : N) | ProxyOther                                                        (* singleton/proxy *)
| Own (n : N).                                         (* a message of the program *)
Global Instance msg_eq : EqDecision msg.
Proof. solve_decision. Defined.

Notation script := (shape name msg).

Definition ask (q : name) (m : msg) : script := Do (fun a => a = Ask q m).
Definition tell (q : name) (m : msg) : script := Do (fun a => a = Tell q m).
Definition pause : script := Do (fun a => a = Pause).
Definition hang : script := Do (fun a => a = Hang).
Definition reply : script := Do (fun a => a = Reply).
Definition maybe (a : script) : script := Or Nil a.
(** What the program's own actors do: anything. *)
Definition anything : script := Many (Do (fun _ => True)).
Notation "a >> b" := (Then a b) (at level 60, right associativity).

(** lifecycle.rs:137-175: the hook, the deregistration unless the system is terminated, then those who wait for the
    stop are told, and the mailbox is dropped. The children are stopped by a task of its own (context.rs:346-362). *)
Definition stopping (hook : script) : script :=
  hook >> maybe (ask Scheduler DeregisterActor) >> reply >> Spawns anything >> Do (fun a => a = Die).
(** actor/system/mod.rs:139-190: [new_actor] registers a tracked actor and waits for its start, which runs meanwhile; here it runs after. *)
Definition new_actor (P : name -> Prop) : script := ask Scheduler RegisterActor >> Do (fun a => exists y, P y /\ a = Begin y).
(** system/mod.rs:107-137: [new_actor_deferred] does not wait for the start. *)
Definition new_actor_deferred (P : name -> Prop) : script :=
  Do (fun a => exists y, P y /\ a = Launch y) >> ask Scheduler RegisterActor.
(** remote/system/cluster.rs: [notify_node] waits until the clients' registry has taken the message. *)
Definition notify_node : script := Do (fun a => exists n, a = Ask Clients (ClientWrite n)).
(** remote/system/cluster.rs: [get_remote_client]. *)
Definition get_client : script := Do (fun a => exists n, a = Ask Clients (NewClient n)).
Definition tell_client (m : msg) : script := Do (fun a => exists n, a = Tell (Client n) m).

(** Messages that other actors than the one they belong to never get: nothing. *)
Section Scripts.
  (** Whether the program shuts the system down. If not, the scheduler and the clients' registry are not asked to stop. *)
  Variable shutdown : bool.
  (** The actors that are registered for health checks. *)
  Variable checked : name -> Prop.

  (** actor/scheduler/mod.rs:50-260 *)
  Definition scheduler (m : msg) : script :=
    match m with
    | RegisterActor => maybe (tell Registry PutActor)      (* :165-215: tells the remote registry *)
    | Stop =>
        (* :57-85: waits for the stop of all tracked actors, at once; here one after the other *)
        if shutdown then Many (Do (fun a => exists q, a = Ask q Stop)) >> reply >> Do (fun a => a = Die) else Nil
    | _ => Nil
    end.

  (** remote/stream/mediator/mod.rs:127-265. Subscribers get events through broadcast channels (pubsub.rs:100-230). *)
  Definition mediator (m : msg) : script :=
    match m with
    | SetRemote => tell Heartbeat RegisterHealthCheck >> Spawns anything
    | Publish => maybe (Spawns (Many notify_node))
    | Subscribe => Spawns anything
    | Stop => stopping Nil
    | _ => Nil
    end.

  (** remote/actor/registry.rs:46-260 *)
  Definition registry (m : msg) : script :=
    match m with
    | SetRemote => ask Mediator Subscribe
    | GetActorNode => Or reply (Hands (notify_node >> hang))          (* :104-181: the answer of the node is awaited without a timeout *)
    | PutActor => maybe (Spawns notify_node)
    | Stop => stopping Nil
    | _ => Nil
    end.

  (** remote/actor/clients.rs:18-120 *)
  Definition clients (m : msg) : script :=
    match m with
    | NewClient n => maybe (new_actor (fun y => exists n, y = Client n))
    | ClientWrite n => maybe (tell_client Write)
    | Stop => if shutdown then stopping (Many (Do (fun a => exists n, a = Ask (Client n) Stop))) else Nil   (* :19-24 *)
    | _ => Nil
    end.

  (** remote/cluster/discovery/mod.rs:49-330 *)
  Definition get_identity : script := get_client >> tell_client Identify >> pause.        (* :289-330: one second at most *)
  Definition discovery (m : msg) : script :=
    match m with
    | DiscoverAddr =>
        (* :61-110 *)
        Or reply (get_identity >> Many get_identity >> Or reply (Do (fun a => a = Forward Discovery DiscoverNodes)))
    | DiscoverNodes =>
        (* :112-168; a handshake is tried five times, three seconds each: client/mod.rs:105-165 *)
        ask Registry GetNodes >> Many (get_client >> ask Registry RegisterNode >> ask Registry GetNodes) >>
        Hands (Many (tell_client Handshake >> pause) >> Many (tell Discovery NodeDiscovered))
    | Forget => maybe (Spawns (ask Mediator Publish))                (* :172-200 *)
    | NodeDiscovered => maybe (ask Mediator Publish)                 (* :212-234 *)
    | Stop => stopping Nil
    | _ => Nil
    end.

  (** remote/heartbeat/mod.rs:88-345, health.rs:40-135 *)
  Definition tick : script :=
    ask Registry GetNodes >> ask Registry UpdateNodes >> Many (Spawns (ask Mediator Publish)).
  Definition heartbeat (m : msg) : script :=
    match m with
    | SetRemote => Spawns (Many (pause >> tell Heartbeat Tick)) >> tell Heartbeat Tick
    | NodeTerminated => ask Registry NodeTerminated >> tick
    | Tick => tick
    | GetHealth =>
        (* health.rs:50-107: all registered actors are asked for their status, without a timeout *)
        Hands (Many (Do (fun a => exists q, checked q /\ a = Ask q Status)) >> ask Registry GetNodes)
    | Stop => stopping Nil
    | _ => Nil
    end.

  (** remote/net/client/mod.rs:198-246, connect.rs:30-345, ping.rs:30-130, send.rs *)
  Definition client (n : N) (m : msg) : script :=
    match m with
    | Connect =>
        (* connect.rs:97: the identity is awaited without a timeout; :137-145: then the registry of clients *)
        maybe (pause >> hang >> Or (tell (Client n) Disconnected) (ask Clients ClientConnected >> tell Discovery DiscoverAddr >> Many pause))
    | Disconnected =>
        (* connect.rs:318-341 *)
        Or (Spawns (pause >> ask (Client n) Connect)) (ask Clients RemoveClient >> tell (Client n) Stop)
    | Identify | Handshake => maybe pause
    | PingTick => maybe (tell Heartbeat NodePing) >> maybe (tell Discovery Forget) >> maybe pause >> maybe (Spawns (pause >> tell Heartbeat NodePing))
    | Write => maybe hang
    | Stop => stopping (maybe pause)
    | _ => Nil
    end.

  (** remote/net/server/session/store.rs:42-110, session/mod.rs:72-240 *)
  Definition store (m : msg) : script :=
    match m with
    | NewSession n => Do (fun a => a = Begin (Session n))
    | SessionWrite => maybe (Do (fun a => exists n, a = Tell (Session n) Write))
    | Stop => stopping Nil
    | _ => Nil
    end.
  Definition session (n : N) (m : msg) : script :=
    match m with
    | Write => hang
    | Stop => stopping (hang >> ask Store SessionClosed)
    | _ => Nil
    end.

  (** sharding/host/mod.rs:120-380, request.rs:50-120, stats.rs *)
  Definition host (n : N) (m : msg) : script :=
    match m with
    | ShardAllocated x => maybe (new_actor_deferred (fun y => y = Shard x)) >> maybe (tell (Shard x) Stop) >> Many (tell (Shard x) ShardOther)
    | StopShard x => maybe (Spawns (ask (Shard x) Stop >> tell (Host n) HostOther))
    | ShardMessage x => Many (tell (Shard x) (EntityRequest x)) >> maybe (Spawns notify_node)
    | HostOther => Or (Many (Do (fun a => exists x, a = Tell (Shard x) ShardOther))) (Spawns anything)
    | Stop => stopping Nil
    | _ => Nil
    end.

  (** sharding/shard/mod.rs:95-420, message.rs. Storage gives an answer in the end. *)
  Definition shard (n : N) (m : msg) : script :=
    match m with
    | EntityStart x => maybe pause >> maybe (Spawns (Do (fun a => a = Begin (User x)) >> tell (Shard n) ShardOther))
    | EntityRequest x => maybe pause >> maybe (Spawns (Do (fun a => a = Begin (User x)) >> tell (Shard n) ShardOther)) >>
        maybe (Spawns (ask (User x) (Own x)))
    | ShardOther => maybe pause >> Many (Spawns anything)
    | Stop => stopping Nil
    | _ => Nil
    end.

  (** sharding/coordinator/mod.rs:78-126, allocation.rs:65-180, balancing.rs:23-160 *)
  Definition coordinator (n : N) (m : msg) : script :=
    match m with
    | AllocateShard => maybe pause >> maybe (Spawns (Many (Or notify_node (Do (fun a => exists x y, a = Ask (Host x) (ShardAllocated y))))))
    | Rebalance | Event => Many (Spawns (Many (Or notify_node (Do (fun a => exists x y, a = Ask (Host x) (StopShard y) \/ a = Ask (Coordinator n) AllocateShard)))))
    | CoordinatorOther => Many pause
    | Stop => stopping (tell Heartbeat RemoveHealthCheck)
    | _ => Nil
    end.

  (** singleton/manager/mod.rs:60-260, lease.rs, start.rs, status.rs: the other managers are told, over the network *)
  Definition manager (n : N) (m : msg) : script :=
    match m with
    | Event | Lease | ManagerOther =>
        Many notify_node >> maybe (Spawns (Do (fun a => exists x, a = Begin (User x)) >> tell (Manager n) ManagerOther)) >>
        maybe (tell (Proxy n) ProxyOther) >> maybe (Do (fun a => exists x, a = Tell (User x) Stop))
    | Stop => stopping Nil
    | _ => Nil
    end.
  (** singleton/proxy/mod.rs:30-110, send.rs:15-60 *)
  Definition proxy (n : N) (m : msg) : script :=
    match m with
    | Deliver x => maybe (Spawns (Or notify_node (ask (User x) (Own x))))
    | ProxyOther => Many (Spawns (Or notify_node (Do (fun a => exists x, a = Ask (User x) (Own x)))))
    | Stop => stopping Nil
    | _ => Nil
    end.

  Definition script_of (q : name) (m : msg) : script :=
    match m with
    | Status => Nil                                    (* lifecycle.rs:33-46 *)
    | _ => match q with
      | Scheduler => scheduler m
      | Mediator => mediator m
      | Registry => registry m
      | Clients => clients m
      | Discovery => discovery m
      | Heartbeat => heartbeat m
      | Client n => client n m
      | Store => store m
      | Session n => session n m
      | Host n => host n m
      | Shard n => shard n m
      | Coordinator n => coordinator n m
      | Manager n => manager n m
      | Proxy n => proxy n m
      | User n => anything
      end
    end.
  (** The [started] hooks. *)
  Definition start_of (q : name) : script :=
    match q with
    | Client n => tell (Client n) Connect                                            (* client/mod.rs:198-201 *)
    | Session n => hang >> ask Registry GetNodes >> pause >> Spawns anything          (* session/mod.rs:72-129 *)
    | Shard n => Many pause >> maybe (Do (fun a => exists x, a = Tell (Host x) HostOther)) >> Many (tell (Shard n) (EntityStart n))
                                                                                     (* persistent/actor.rs:73-124, shard/mod.rs:150-230 *)
    | Coordinator n => tell Heartbeat RegisterHealthCheck >> ask Mediator Subscribe >> ask Registry GetNodes >> Many pause >> maybe (Spawns anything)
                                                                                     (* coordinator/mod.rs:78-120 *)
    | Manager n => ask Mediator Subscribe                                            (* manager/mod.rs:230-245 *)
    | User n => anything
    | _ => Nil
    end.

  Definition handler (q : name) (m : msg) : list (action name msg) -> Prop := may (script_of q m).
  Definition started (q : name) : list (action name msg) -> Prop := may (start_of q).
End Scripts.

(** The actors that a remote system starts with (remote/system/builder.rs:95-260). *)
Definition services : list name := [Scheduler; Mediator; Registry; Clients; Discovery; Heartbeat; Store].
