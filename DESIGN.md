# Formal model of Coerce-rs in Rocq (Coq 8.16.1)

The source modelled is the Rust code in `/repo` (LeonHartley/Coerce-rs, pinned
copy, read as text only). Properties are listed in `properties.jsonl`, their
state in `MANIFEST.json`, the mutation experiments in `seeded/LOG.jsonl`.

## Method

* Every modelled component is a small total, computable Gallina function
  (`step : state -> op -> state * output`), written in the order of the Rust
  code; each definition cites the file and the lines it models.
* A Rust panic (`unwrap`, `expect`, `panic!`, division by zero) is an explicit
  error value, never a default.
* Asynchrony is made explicit: what the Rust runtime may reorder (mailboxes of
  different senders, spawned tasks, network delivery, hash map iteration order)
  is an input of the model (an operation list, a schedule, an ordering
  argument) and theorems quantify over it.
* Calls to code outside the repository (hash functions, JWT signatures, user
  handlers and (de)serialisers, storage and transport failures, clocks) are
  Section variables or operation arguments: theorems hold for all of them.
* Properties are stated against small separate specifications (`*_Spec.v`)
  which do not use the model's helpers.
* When the code does not satisfy a property, the file holds
  `..._refuted : exists ...` with a concrete witness computed by the model, and
  `..._partial` for the strongest part that does hold (the comment next to it
  says what is missing).

## Layout

For an area `X`: `X_Model.v` (definitions only), `X_Spec.v` (independent
specification), `X_Proofs*.v` (lemmas), `X_Props.v` (the property theorems, with
`Print Assumptions`, and `Example`s showing that the hypotheses are met by a
concrete non-trivial case). `Base.v` and `Arrange.v` are shared.

Paths are relative to `coerce/src` unless they start with `providers`.

| area | code modelled | properties |
|---|---|---|
| Journal | persistent/journal/{mod,types,provider,storage,snapshot}.rs, persistent/batch.rs | C01-C03 C05 C07 C08 |
| Persist | persistent/{actor,recovery,failure,context}.rs | C04 C10 (in Journal_Props) |
| Redis | providers/persistence/coerce-redis/src/journal/{actor,mod}.rs | C05-C08 |
| Proto, Codec | the generated code in protocol/*.rs (proto3 encoding) | used by Wire, ShardWire |
| Wire | remote/net/message.rs, remote/net/mod.rs, remote/actor/message.rs, error codes, journal entries | C09 C21-C23 |
| ShardWire | sharding/*: encoders and decoders of messages, snapshots; singleton messages | C52 C57 (in Wire_Props) |
| Actor | actor/{mod,lifecycle,refs,message,context}.rs, actor/watch | C11-C14 |
| Supervise | actor/supervised.rs, children in actor/{context,lifecycle}.rs | C15 |
| Shutdown | actor/system/mod.rs:shutdown with actor/scheduler/mod.rs:stopped and actor/lifecycle.rs:actor_stopped | C61 |
| ActorSys | actor/scheduler/{mod,timer}.rs, actor/worker.rs, actor/describe | C16-C19 |
| Heart | remote/heartbeat/{mod,health}.rs, remote/system/cluster.rs | C20 C32-C35 |
| Nodes | remote/cluster/node.rs | C29 C58 |
| Discovery | remote/cluster/discovery/mod.rs | C36 |
| Mesh | the discovery actors of all nodes and the handshakes between them (discovery/mod.rs, session/mod.rs:session_handshake, builder/worker.rs) | C60 |
| Locate | remote/actor/registry.rs | C30 |
| Deploy | remote/system/actor.rs, remote/handler.rs (actor creation) | C31 |
| Rpc | remote/actor/{mod,message}.rs (requests), remote/system/rpc.rs | C24 C25 |
| Client | remote/net/client/{mod,connect,send,ping,receive}.rs, remote/actor/clients.rs | C27 C28 C59 |
| Session | remote/net/server/{mod,session/mod,session/store}.rs, remote/net/security/auth | C39 C40 |
| Delivery | remote/net/server/session/mod.rs (messages), remote/handler.rs, remote/system/rpc.rs | C26 C41 |
| Stream | remote/stream/{pubsub,system,mediator/mod}.rs | C37 C38 |
| Coord | sharding/coordinator/{mod,allocation,balancing,discovery,stream}.rs | C42-C45 C47 C51 |
| Host | sharding/host/{mod,request}.rs | C48 C49 |
| ShardSys | a coordinator and any number of hosts with the messages between them | C46 C48 C49 |
| Entity | sharding/shard/{mod,message,recovery,passivation}.rs | C50 |
| Sharded | the hosts, shards and entities of all nodes with the requests between them: sharding/mod.rs:send, host/request.rs, shard/mod.rs, the answers in remote/net | C62 |
| Singleton | singleton/manager/{mod,lease,start,status}.rs, singleton/proxy, singleton/factory.rs | C53-C56 |
| Selector | the managers with remote/cluster/node.rs:NodeSelector | C63 |
| Config | remote/system/builder.rs (registrations), remote/config/mod.rs, ids in remote/handler.rs, singleton/mod.rs:singleton | C64 |
| Refs | actor/refs/mod.rs (send, notify), remote/actor_ref.rs, remote/system/rpc.rs:168-190, remote/handler.rs:200-304, remote/net/server/session/mod.rs:520-563 | C65 |
| Durable | persistent/journal/mod.rs, persistent/recovery.rs:84-101 over both storages, with each storing call split into issue, performance and answer | C66 |
| Frame | the bytes of a connection: tokio-util's LengthDelimitedCodec as used by remote/net/mod.rs, client/send.rs, server/session/mod.rs, with Wire on top | C67 |
| Stats | remote/api/sharding/{cluster,node}.rs, sharding/{coordinator,host,shard}/stats.rs: statistics collected while coordinator, shards and entities go on | C68 |
| Chat | examples/coerce-sharded-chat-example: clients, rooms as sharded persistent actors, publications to the members on all nodes | C69–C71 |
| Lead | remote/net/client/ping.rs, remote/heartbeat/mod.rs and the pongs of remote/net/server/session/mod.rs on all nodes, in time (on Heart) | C72 C73 |
| Pool | actor/worker.rs: pools of workers from dispatch to answer, with local references and mailboxes | C74–C76 |
| Join | cluster/builder/worker.rs start and discover_peers, with the acknowledgement of handshakes (client/mod.rs, connect.rs, session/mod.rs), on top of Mesh | C77, C78 |
| Vault | persistent entities behind sharding: Sharded and Durable in one system (shard/mod.rs creation of entities, persistent/actor.rs start, recovery and persist) | C79, C80 |
| Twin | several singletons of one actor type, such as the coordinators of several sharded entity types (sharding/mod.rs try_start, singleton/mod.rs builder, actor/scheduler/mod.rs registration), on top of Singleton | C81, C82 |
| Json | JSON messages, results and snapshots (coerce/macros/src/message/json.rs, snapshot/json.rs): the text written for a value, the reader, types and values, versions of a type | C83, C84 |
| ChatWire | the bytes of the sharded chat (examples/coerce-sharded-chat-example: peer/message.rs, websocket/, pubsub.rs, stream/mod.rs, bin/client.rs), on top of Chat, Codec and Json | C85, C86 |
| Handles | the handles of an actor system and the contexts of its actors (actor/system/mod.rs, actor/system/builder.rs, remote/system/builder.rs, remote/system/mod.rs, persistent/mod.rs, actor/context.rs) | C87, C88, C89 |
| Upgrade | journals under successive versions of a program (persistent/journal/types.rs, persistent/journal/mod.rs, persistent/recovery.rs), over Journal and Json | C90, C91, C92 |
| K8s | Kubernetes discovery (providers/discovery/coerce-k8s/src/lib.rs, config.rs), the node identity and seed of the chat example (examples/coerce-sharded-chat-example/src/app.rs), over Mesh | C93, C94, C95 |
| Waits | which task waits for which (actor/lifecycle.rs, refs/mod.rs, system/mod.rs, supervised.rs): progress and deadlock; Waits_System: the framework's own actors (scheduler, mediator, registry, clients, discovery, heartbeat, sessions, sharding, singletons) as sets of scripts | C96–C98 |
| Views | api/{mod,builder}.rs, api/cluster/mod.rs, api/system/actors.rs: queries of requests (as `form_urlencoded` and serde read them), the lists of nodes and of actors, start and stop of the server | C99–C101 |
| Attach | actor/context.rs:431-470: streams attached to an actor, over the Actor model | C102 |
| Blocking | actor/blocking.rs: threads that call an actor and wait, creation; over the Actor and ActorSys models | C103 |
| Paths | actor/context.rs, supervised.rs, system/mod.rs: the paths of actors | C104 |
| JsonText | JSON text by RFC 8259 and what it says about a value, without a model of its own: the reader of Json on text that other programs wrote | C105 |
| ClientAsk | net/client/mod.rs, connect.rs: answers to requests for identities and handshakes, over the Client model | C106 |
| Text | strings: the bytes that `String::from_utf8` takes are the sequences of Unicode characters; over the Proto model | C21 |
| Told | what the proxies of a cluster are told of the singleton (singleton/manager/start.rs, status.rs, proxy/mod.rs), over the Singleton model; proofs in Singleton_Told and Singleton_Everyone | C56 |
| SysWire | malformed events of the system topic (remote/stream/system.rs), over the Wire model | C23 |
| Uuid | which texts are taken for ids of requests, over the ShardWire model | C52 |

## Plan per property

C01 journal + in-memory store as state machine over histories (persist, batch, failed write, restart, clear) with an abstract log as specification; invariant: stored payloads of the id = acknowledged log; induction over the history.
C02 same machine with snapshots; expected to fail (the first message after a snapshot is written with the snapshot's sequence id): refutation witness, exact characterisation of what is recovered as the partial theorem.
C03 same machine; refutation (restart, batch) and partial theorem for one incarnation.
C04 persist loop over an oracle (list of storage outcomes) with the three policies; induction on the oracle.
C05 in-memory: recovery commutes with clear_old_messages, by case analysis on sorted journals; redis: refutation.
C06 redis sorted set as list ordered by (score, bytes); single incarnation without restart proved; restart refuted.
C07 refutation and panic witness; partial theorem for the cases that work; read_message proved.
C08 frame theorem over the map of journals, injectivity of redis keys.
C09 instance of the generic protobuf round trip (see C21).
C10 start-up as state machine over load and decode oracles.
C11-C13 actor loop with mailbox, senders and a schedule of operations; trace invariants.
C14 watcher set and notification log. C15 supervised map with child events. C16 scheduler registry against the spec "latest live". C17 round-robin index arithmetic. C18 timer loop as a step machine. C19 structural induction on actor trees.
C20 decision table over response-time lists.
C21 C22 C52 C57 a generic protobuf (proto3) encoder/decoder driven by message descriptors; round trip by induction over descriptors; each message of the code is an instance, with the Rust conversion functions around it.
C23 decoder totality: result is one of event / nothing / crash; crash is refuted as absent.
C24 C25 request table as state machine over issue/answer/fail events; at-most-once by invariants; leak refutations.
C26 session with spawned tasks and a schedule; refutation; partial: FIFO if each send awaits its reply.
C27 C28 client state machine over write/connect/disconnect/transport oracle.
C29 hash ring over an abstract hash function; permutation invariance given distinct ids and distinct hashes.
C30 registry of several nodes; partial while membership is stable; refuted across a join and after a stop.
C31 decision table for creation; refutation of "always answered".
C32-C35 heartbeat functions over Z times; refutations of inverted comparisons.
C36 discovery state machine.
C37 C38 broadcast queue with bounded capacity, subscribers with cursors.
C39 C40 session and session store state machines over arbitrary frames.
C41 retry loop over lookup oracle.
C42-C47 coordinator state machine (hosts, shards, pending stop replies) and a distributed system of coordinator and hosts for C46.
C48 C49 shard host state machine. C50 shard state machine. C51 arithmetic on an abstract hash.
C53-C55 manager state machine and a cluster of managers with message queues. C56 proxy state machine.
C58 C59 finite map state machines.
C60 the nodes' discovery actors with handshakes in flight; invariant: who told whom is closed under handshakes, hence a full mesh per component; termination measure.
C61 scheduler and actors as interleaved step machines; invariant for what has stopped when shutdown returns, termination measure for when it does; an invariant of waiting in a circle for the refutations.
C62 Host and Entity of every node composed with requests in flight; a weight of tickets conserved by every step (at most once, nothing unaccounted), an invariant for where Ok results come from, termination measure.
C63 the manager and cluster machines of C53-C55 with the selector made concrete; invariants about who writes to whom and who was told to lead.
C64 a list of registrations and the tables built from it; what is in force is defined on the list.
C65 calls as small state machines over actors, schedulers and registrations; events are the call, the handling and the return.
C66 any number of incarnations over one storage; each storing call is issued, performed (late or never) and answered (perhaps wrongly) in separate steps; the expected state is a fold over the calls and answers in the trace; invariants: what redis holds comes from calls in the trace, holds all acknowledged messages, and is exact for a writer that retries.
C67 encoder and decoder of frames as functions; the decoder's result is a function of the concatenated bytes (induction over the work left); a prefix of written frames decodes to the complete ones; composed with the round trips of C21 and the receive loop.
C68 the call as a state machine interleaved with steps of the coordinator (Coord), shard actors and entities (Entity); invariant: what has been collected so far was true at a moment after the call began; hosts (Host) separately.
C69–C71 clients, rooms, mediators and subscriptions of all nodes as one transition system; invariants over the history: where every message comes from, publications as sub-multisets of what was accepted, subscriptions as positions in a channel, one member followed through its stay.
C72 C73 nodes with their own clocks, pings, answers and heartbeats as steps with a true time; invariants per node (what its records say about a ping) and over all nodes (the last answered ping is recent for running nodes, old for others); the calm period is a predicate over the states of a run; witness for the split.
C74–C76 callers, supervisor, forwarding tasks and workers as one transition system; invariant: where the message of each dispatch is; a measure for termination; witnesses for overtaking and dead workers.
C77, C78 handshakes as a tree by what caused them; a run of Join is a run of Mesh; the last open handshake can always go on; a measure of pairs that do not know each other, open handshakes and phases.
C79, C80 an invariant that links entity actors to incarnations (entity, state, call under way); a run of Vault is a run of Sharded and one of Durable; what is true when a handler ends; the order of the events of an incarnation.
C81, C82 an invariant of a manager that no message reaches; what a step does to one kind on one node; counting requests; references to other nodes lead to other nodes; a simulation by the singleton model.
C83, C84 the reader undoes the writer, for every tree, by induction on its depth with enough fuel; then reading a tree at another version of the type is a function on values, total for newer versions.
C85, C86 soundness of the readers (whatever bytes arrive, what is read is a value of the type: Codec_Sound, Json_Sound), then the origin invariant of the chat carries it to every message; the client program by induction over the lines.
C87, C88, C89 one invariant scheme over all handles and contexts (`obeys`: a predicate that every step keeps), used with "holds the remote system that was built", "belongs to a system that exists" and "has the persistence given at the start"; then induction over programs for the registry, the context ids and the journals.

C90, C91, C92 simulation: the upgraded program runs its journals as one program that registers all identifiers of all versions, with identifiers for types; C02 for that program gives what a start finds, and the registrations of the running version what it makes of it. The values follow with C84.
C93 induction over the list of pods and of containers. C94 the decimal notation is read back. C95 the seeds join all nodes, so C60 applies; an invariant of all histories with honest answers: known nodes are connected by seeds.
C96 well-founded induction on ranks, in each a count of what is left to do and of the mailbox in front, over an invariant that says for each wait who is to answer it; deadlocks by induction over steps. C97, C98 ranks for the framework's actors, checked on the scripts; witnesses by running scripts.
C99 strictly sorted lists with the same elements are equal; the leader stays in the registry by an invariant over histories of the heartbeat model. C100 induction over the ways to write a query; each field of the options against the values given for it; trees by induction. C101 one server per address is an invariant; what a server is after each operation.
C102 an invariant: what was called and what is still to be called make up what is expected; numbers of accepted calls rise; only the stream can stop the actor; a simulation for errors.
C103 every run with threads is a run of the actor; an invariant ties what a thread got to the trace; a simulation for programs that differ in the style of calls.
C104 an invariant: spawned children are at the path that their parent opened first; join of paths is injective for ids without slashes.
C105 by induction on the grammar the reader accepts each text with the tree it denotes, and by induction on its fuel accepts no others; then by induction on what a tree shows.
C106 by one lemma on what a step does to the requests (`step_did`) and three inductions over runs: the two counts, and the connection a client has with what was done on it since.

## Trusted base

* Coq 8.16.1's kernel, and the `vm_compute` machine used for concrete witnesses.
* std++ (definitions and lemmas; it adds no axioms). `Print Assumptions` is run
  under every property theorem and answers "Closed under the global context" for
  all of them: no axiom is used, neither of the standard library nor any other.
  `coqchk` over all files lists the `Coq.ssr.ssrunder.Under_rel` constants, which
  are parameters of a module type of the standard library that std++ loads; no
  theorem depends on them.
* The correspondence between the model and the Rust text, made by hand,
  documented by the file/line citations at each definition. Where a definition
  simplifies, its comment says so; the list below collects these.

### Simplifications, by area

* All: integers are N or Z. Where a Rust width matters (sequence ids, node ids
  compared as i64, lengths of frames, dates) the range is explicit. Hash map
  iteration orders are arbitrary (`Arrange.v`). Clones, locks and memory are not
  modelled; the OS never runs out of memory. Metrics, tracing and log output are
  left out.
* Journal: the in-memory store is a map guarded by one lock, so its calls are
  atomic. User (de)serialisers are oracles.
* Redis: a command is atomic; sorted set scores are integers (ids below 2^53);
  the journal reads keys as the code builds them.
* Actor: an actor is one task; its turns interleave arbitrarily with senders.
  User handlers are oracles and may panic, stop the actor or reply late. The
  `stopped` hook itself does not panic.
* ActorSys: the registry handles messages in the order sent by one sender, in any
  order otherwise. Timers fire exactly at their time. A description request takes
  no time but for actors that do not answer.
* Shutdown: a handler does nothing, stops, panics or asks the scheduler once; the
  stop of the remote system that follows is left out; actors have no children.
* Sharded: the coordinator is replaced by arbitrary allocation and stop messages to
  the hosts; a host takes the requests of its mailbox in any order; an error that
  crosses the network arrives as it was sent; what an entity actor does with a
  request is one step with any of the possible outcomes.
* Heart: dates are in Z, every node has its own clock (oracle).
* Nodes: the hashring crate is modelled from its documented behaviour; the hash
  and the search on the ring are oracles with that behaviour.
* Discovery: what the network answers, and when, is an oracle indexed by time;
  a handshake always ends; the seed nodes sent along with a handshake are left
  out.
* Locate: messages between registries arrive in any order or never; the way back
  of an answer is left out; a timeout is an operation.
* Deploy: spawning and registering are one step; results of the factory and of
  the start are arguments; both end; `NodeErr` is left out.
* Rpc: parsing of uuids is an oracle; fresh ids are pairs (node, number), so they
  never collide.
* Client: whether a write gets through is an oracle per write. TCP either delivers
  in order or the connection breaks.
* Session: signature verification is an oracle; times are in Z with the ranges of
  the date library.
* Delivery: the lookup in the handler cache is one step; actors are instances that
  are open or not, registered or not.
* Refs: messages in a mailbox are handled in any order (the order is C12); what the cache
  of references holds is over-approximated by the actors whose mailbox is open; the
  answer with an error that a node sends to a notification is left out.
* Durable: a start is two reads and nothing else (retries of recovery are C10); issued redis
  commands may be performed in any order, which is more than one connection allows; redis
  itself keeps what it performed.
* Frame: LengthDelimitedCodec is external code; its defaults (4 bytes, big endian, 8 MiB) and
  the behaviour of FramedRead at the end of input are taken from its documentation.
* Chat: one running incarnation of a room at a time; the journal is shared by the nodes and in order (Journal, Durable); the token of a join and the creator of a room are shown to nobody and left out; frames are already parsed (the two cases that do not parse are kept); a request reaches the room or fails (Delivery, ShardSys); the mediator keeps the nodes it was told of (Stream).
* Pool: the wait for the supervisor and the wait for the result are one wait; the runtime does not drop tasks; handlers are functions of the state, the message and an arbitrary input.
* Join: sending and receiving an acknowledgement are one step; the attempts of one handshake are one handshake, given up at any time; the identity and the peers of a seed are any set of started nodes with the seed in it; panics of start (port in use, discovery actor gone) are left out.
* Vault: an entity stores at most one message per request and no snapshots; its state is the list of what it recovered and stored; how a message changes the answer is any function of that list; a result that cannot be encoded is left out; an actor may be started more than once for one creation, and every creation may fail; the actors of a node disappear with it.
* Twin: actor ids are left out where they are the same for all kinds; the registry holds one manager and one singleton per node; an actor that stops leaves the registry at once; a kind is started once per node; managers and proxies are not stopped.
* Json: serde and serde_json are libraries outside /repo; their compact writer, reader (with its nesting limit of 128) and derived data format are modelled from their documentation. Floats, 128-bit integers, byte strings and serde attributes are left out. A map is the list of its entries in the order in which it is iterated.
* ChatWire: websocket frames are whole messages; a Rust string is its bytes; the token and creator of a room are not followed; frames are below 4 GiB; hops between actors of one node, which are not encoded in the code, are covered as well.
* Handles: an operation is one step; services, sessions and the remote handler are there as far as they create actors; how actors stop is left to Shutdown, what events are encoded as to Persist; the types of the actors found by id, tags and the actors' paths are left out; deployed actors are assumed to be of registered types and not to exist yet.
* Upgrade: registrations are given per persistence id and version; the storage is the in-memory one and outlives the process; what a recovery handler does when it cannot decode the bytes is left to Persist.
* K8s: the answer of the API server is a parameter (a list of pods or an error), its label selection is not modelled; environment variables are a record; nodes are numbered by incarnation.
* Waits: handlers are sets of lists of the points at which tasks meet, data is left out; a name is one incarnation of an actor; things awaited at once (join_all, select) are awaited one after the other; the actors of the program may do anything; storage answers in the end.
* Views: JSON is left out, and of the lines of the list of actors all but id, path, status and children; bytes above 127 in queries stay as they are; axum's router is two predicates on paths; a stopped server ends at once; /system/stats, /health, the sharding routes and the OpenAPI document are not here (health is C20, sharding C68).
* Attach: streams are lists to which elements are added over time; what an error carries is left out, as the code drops it.
* Blocking: where tokio panics (blocking_recv in async code, spawn without a runtime) is taken from its documentation.
* Paths: how actors stop, and when a parent hears of it, is free; the scheduler is a top-level actor like others.
* JsonText: the members of an object that are read as a map keep their order; texts with fractions or exponents are not among the documents.
* ClientAsk: an acknowledgement may arrive whenever the client runs, also from the receive loop of an earlier connection; the timeouts and retries of `RemoteClientRef::handshake` are requests of the run.
* Lead: a heartbeat reads the clock once; the clock of a node differs from true time by a constant; ids of nodes are
  used once; a crash also stands for a shutdown; the request of a ping is always written or the connection is lost.
* Stats: one call at a time (calls change nothing); answers arrive unchanged (C52) or fail;
  sums wrap around (release build); a panic of a handler is a call without an answer.
* Stream: a tokio broadcast channel is its full history of which the last 1024 are
  kept. Topics and message types are numbers. Links are FIFO and may lose packets.
* Proto: the proto3 wire format of rust-protobuf, driven by descriptors transcribed
  from the .proto files.
* Coord, Host, ShardSys: mailboxes are FIFO, packets between nodes are unordered;
  balancing is driven by the operations of the model; hashes are oracles.
* Entity: results of starting entities may be handled in any order; the shard never
  writes a snapshot (nor does the code).
* Singleton: the retry of a notification is a packet that arrives later or never.

### Not modelled

* Of remote/api: the OpenAPI document, the metrics route, the JSON of answers. Metrics, tracing,
  actor/event (an empty skeleton), the derive macros except JsonMessage, coerce/tools, the
  examples except the sharded chat.
* Of remote/cluster/builder the plain configuration; remote/cluster/discovery/dns.rs (commented out).
* TLS, the `tokio` scheduler, the JWT, redis and hashring crates themselves.
