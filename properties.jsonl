{"id": "C01", "title": "Replay of a snapshot-free journal", "statement": "For a persistent actor backed by the in-memory journal that never takes a snapshot: whenever the actor is (re)started, recovery replays exactly the messages whose persist or persist_batch call returned Ok since the journal was last cleared, each exactly once, in the order in which they were acknowledged, whatever restarts happened in between; messages whose persist failed are never replayed.", "quantifier": "every finite history of persist, persist_batch, failed writes, clears and restarts, for every actor identity, with other actors using the same storage in between", "why_tests_cant": "the history (interleaving of restarts, batches and failures) is unbounded; a test fixes one", "anchors": ["coerce/src/persistent/journal/mod.rs:Journal::persist_message", "coerce/src/persistent/journal/mod.rs:Journal::persist_batch", "coerce/src/persistent/journal/mod.rs:Journal::recover_messages", "coerce/src/persistent/journal/provider.rs:InMemoryJournalStorage", "coerce/src/persistent/recovery.rs:ActorRecovery::recover_journal"]}
{"id": "C02", "title": "Replay with snapshots", "statement": "After a persistent actor acknowledged a snapshot, the next start recovers the latest acknowledged snapshot followed by exactly the messages acknowledged after it, in order.", "quantifier": "every finite history of persist, persist_batch, snapshot and restart", "why_tests_cant": "the position of the snapshot relative to messages and restarts ranges over all histories", "anchors": ["coerce/src/persistent/journal/mod.rs:Journal::persist_snapshot", "coerce/src/persistent/journal/mod.rs:Journal::recover_snapshot", "coerce/src/persistent/journal/mod.rs:Journal::recover_messages", "coerce/src/persistent/journal/provider.rs:InMemoryJournalStorage::read_latest_messages"]}
{"id": "C03", "title": "Sequence ids identify journal entries", "statement": "Within one persistence id the sequence ids of the messages written to the journal are strictly increasing, so that a sequence id names at most one message, across snapshots, batches and restarts.", "quantifier": "every finite history of persist, persist_batch, snapshot and restart", "why_tests_cant": "uniqueness is a property of all pairs of writes in all histories", "anchors": ["coerce/src/persistent/journal/mod.rs:Journal::persist_message", "coerce/src/persistent/journal/mod.rs:Journal::persist_batch", "coerce/src/persistent/journal/mod.rs:Journal::recover_messages"]}
{"id": "C04", "title": "Persist failure policy", "statement": "When a storage write fails, the configured policy decides: with retry the write is attempted again, never more than the configured number of attempts; the call returns Ok if and only if some attempt succeeded, in which case the message is in the journal exactly once; if it gives up, the journal and the actor's sequence position are unchanged, and the policy's outcome (return the error, stop the actor, panic) is what the caller observes.", "quantifier": "every policy, every attempt limit, every finite or infinite pattern of storage failures", "why_tests_cant": "failure patterns are unbounded; tests inject one or two failures", "anchors": ["coerce/src/persistent/actor.rs:PersistentActor::persist", "coerce/src/persistent/actor.rs:check", "coerce/src/persistent/failure.rs:should_retry", "coerce/src/persistent/failure.rs:PersistFailurePolicy", "coerce/src/persistent/failure.rs:Retry"]}
{"id": "C05", "title": "Deleting old messages does not change what is recovered", "statement": "Calling clear_old_messages after a snapshot only removes messages that recovery would not replay: the state rebuilt by the next start is the same with and without the call, and the journals of other actors are untouched.", "quantifier": "every reachable journal content and every point at which clear_old_messages is called", "why_tests_cant": "depends on the relation of all stored sequence ids to the snapshot id in all histories", "anchors": ["coerce/src/persistent/journal/mod.rs:Journal::clear_old_messages", "coerce/src/persistent/journal/provider.rs:InMemoryJournalStorage::delete_messages_to", "providers/persistence/coerce-redis/src/journal/mod.rs:RedisJournalStorage::delete_messages_to"]}
{"id": "C06", "title": "Replay through the redis journal", "statement": "With the redis journal, a start replays exactly the acknowledged messages (since the last snapshot), each once, in acknowledgement order.", "quantifier": "every finite history of persist, snapshot and restart, and every payload", "why_tests_cant": "redis keys messages by (score, bytes), so the answer depends on equalities between payloads and sequence ids of all pairs of messages", "anchors": ["providers/persistence/providers/persistence/coerce-redis/src/journal/actor.rs:RedisJournal", "providers/persistence/coerce-redis/src/journal/mod.rs:RedisJournalStorage", "coerce/src/persistent/journal/mod.rs:Journal::recover_messages"]}
{"id": "C07", "title": "Journal range reads", "statement": "Reading the range [from, to] of a journal returns exactly the stored messages whose sequence id lies in the range, in order, and reading one sequence id returns the message written with it; no read crashes or changes the journal.", "quantifier": "every journal content and every pair of bounds", "why_tests_cant": "the result depends on the position of both bounds relative to all stored ids", "anchors": ["coerce/src/persistent/journal/provider.rs:InMemoryJournalStorage::read_messages", "coerce/src/persistent/journal/provider.rs:InMemoryJournalStorage::read_message", "coerce/src/persistent/journal/mod.rs:Journal::read_messages"]}
{"id": "C08", "title": "Journals are isolated by persistence id", "statement": "An operation on the journal of one persistence id (write, delete, clear, read) never changes what any operation on a different persistence id observes; with redis, two different persistence ids, or the message and snapshot sets of one, never share a redis key.", "quantifier": "all pairs of distinct persistence ids (arbitrary strings) and all operation sequences", "why_tests_cant": "ranges over all strings and all interleavings", "anchors": ["coerce/src/persistent/journal/provider.rs:InMemoryJournalStorage", "providers/persistence/coerce-redis/src/journal/mod.rs:RedisJournalStorage", "providers/persistence/coerce-redis/src/journal/mod.rs:RedisJournalStorage::read_message"]}
{"id": "C09", "title": "Journal entry encoding", "statement": "Every journal entry written through the byte encoding is read back identical (sequence id, payload type, payload); no two different entries have the same encoding.", "quantifier": "every sequence id in i64, every payload type string, every payload", "why_tests_cant": "the set of entries is infinite", "anchors": ["coerce/src/persistent/journal/storage.rs:JournalEntry::write_to_bytes", "coerce/src/persistent/journal/storage.rs:JournalEntry::read_from_bytes", "coerce/src/protocol/persistent/journal.proto"]}
{"id": "C10", "title": "Recovery precedes message handling", "statement": "A persistent actor handles no user message before its snapshot and journal have been replayed completely; when recovery fails the configured policy is followed, retries are bounded by the policy, and if recovery gives up the actor stops without running its post-recovery hook or handling any message.", "quantifier": "every recovery policy, every pattern of load failures and of payload decoding failures, every mailbox content", "why_tests_cant": "failure patterns and journals are unbounded", "anchors": ["coerce/src/persistent/actor.rs:started", "coerce/src/persistent/recovery.rs:ActorRecovery::recover_journal", "coerce/src/persistent/recovery.rs:load_journal", "coerce/src/persistent/failure.rs:RecoveryFailurePolicy"]}
{"id": "C11", "title": "Local mailbox order and exactly-once handling", "statement": "Messages accepted by a local actor reference are handled one at a time, each at most once, in the order in which they were accepted; while the actor keeps running every accepted message is handled; in particular two messages sent one after the other by one sender are handled in that order.", "quantifier": "every number of senders, every interleaving of their sends with the actor loop, every message sequence", "why_tests_cant": "interleavings are unbounded", "anchors": ["coerce/src/actor/lifecycle.rs:ActorLoop::run", "coerce/src/actor/refs/mod.rs:LocalActorRef::send", "coerce/src/actor/refs/mod.rs:LocalActorRef::notify", "coerce/src/actor/message/mod.rs:ActorMessage::handle"]}
{"id": "C12", "title": "A send returns the result of its own message", "statement": "A send on a local actor reference resolves to the value computed by the handler for exactly that message, or to an error; it never receives the result of another message, and it gets an error whenever the actor stops before handling the message.", "quantifier": "every interleaving of sends, handling and stopping", "why_tests_cant": "interleavings are unbounded", "anchors": ["coerce/src/actor/refs/mod.rs:LocalActorRef::send", "coerce/src/actor/message/mod.rs:ActorMessage::handle", "coerce/src/actor/lifecycle.rs:ActorLoop::run"]}
{"id": "C13", "title": "Actor lifecycle order", "statement": "The started hook of an actor runs before any of its messages; when it stops itself while starting no message is handled and creation reports failure; the stopped hook runs exactly once, after the last handled message; after it no message is handled and sends fail; every stop request made by stop() is answered after the stopped hook ran.", "quantifier": "every sequence of sends, stop requests and handler behaviours", "why_tests_cant": "histories are unbounded", "anchors": ["coerce/src/actor/lifecycle.rs:ActorLoop::run", "coerce/src/actor/lifecycle.rs:actor_stopped", "coerce/src/actor/context.rs:ActorContext::stop", "coerce/src/actor/scheduler/mod.rs:start_actor"]}
{"id": "C14", "title": "Watchers are told once", "statement": "When a watched actor stops, every actor that watched it and did not unwatch afterwards receives exactly one termination notification carrying the id of the stopped actor; no other actor receives one.", "quantifier": "every sequence of watch and unwatch requests by any number of watchers (including repeated ones), interleaved with messages, before the stop", "why_tests_cant": "unbounded histories of watch and unwatch", "anchors": ["coerce/src/actor/watch/mod.rs:Watch", "coerce/src/actor/watch/watchers.rs", "coerce/src/actor/lifecycle.rs:actor_stopped", "coerce/src/actor/context.rs:ActorContext::on_context_dropped"]}
{"id": "C15", "title": "Supervised children", "statement": "A parent has at most one live child per actor id: spawning an id it already has fails and leaves the existing child alone; a child that terminates is removed and the parent is told exactly once; when the parent stops all of its children are stopped first.", "quantifier": "every history of spawns (with succeeding and failing starts), attaches, child terminations and parent stops", "why_tests_cant": "unbounded histories", "anchors": ["coerce/src/actor/supervised.rs:Supervised::spawn", "coerce/src/actor/supervised.rs:Supervised::stop_all", "coerce/src/actor/supervised.rs:Supervised::on_child_stopped", "coerce/src/actor/context.rs:on_context_dropped"]}
{"id": "C16", "title": "Tracked actor registry", "statement": "Looking up a tracked actor by id returns the reference of the most recently created actor with that id that has not stopped, and nothing otherwise; stopping an actor never makes another running actor unreachable by id.", "quantifier": "every history of actor creations and stops, with repeated ids, and every order in which the registry processes the resulting requests", "why_tests_cant": "message orders and histories are unbounded", "anchors": ["coerce/src/actor/scheduler/mod.rs:RegisterActor", "coerce/src/actor/scheduler/mod.rs:DeregisterActor", "coerce/src/actor/scheduler/mod.rs:GetActor", "coerce/src/actor/system/mod.rs:ActorSystem::new_actor"]}
{"id": "C17", "title": "Worker pool dispatch", "statement": "A pool of n>0 workers hands every message to exactly one worker, and the numbers of messages given to any two workers never differ by more than one.", "quantifier": "every pool size and every number of messages", "why_tests_cant": "fairness quantifies over all message counts", "anchors": ["coerce/src/actor/worker.rs:Worker::dispatch", "coerce/src/actor/worker.rs:Worker::new"]}
{"id": "C18", "title": "Timers and scheduled notifications", "statement": "A timer delivers one tick per elapsed period, never a tick that was produced after its stop completed, and stops by itself when the receiver is gone; a delayed notification is delivered exactly once.", "quantifier": "every number of periods and every point at which the timer is stopped or the receiver dies", "why_tests_cant": "unbounded time and interleavings", "anchors": ["coerce/src/actor/scheduler/timer.rs:timer_loop", "coerce/src/actor/scheduler/timer.rs:Timer::stop", "coerce/src/actor/mod.rs:scheduled_notify"]}
{"id": "C19", "title": "Describing an actor tree is bounded and complete", "statement": "Describing an actor returns, for each actor, at most the configured number of children and no actor below the configured depth, every actor above the limits appears under its own parent exactly once and in its parent's order, and an actor that fails to answer is reported as such without affecting the others.", "quantifier": "every finite actor tree, every option setting and every set of unresponsive actors", "why_tests_cant": "trees and options are unbounded", "anchors": ["coerce/src/actor/describe/mod.rs:Describe", "coerce/src/actor/describe/mod.rs:describe_all", "coerce/src/actor/describe/mod.rs:get_describable_actors"]}
{"id": "C20", "title": "System health status", "statement": "The reported health is Unhealthy exactly when a registered actor did not answer its health check, otherwise Degraded exactly when one of them took longer than the threshold, otherwise Healthy, and the report lists every registered actor with its own response time.", "quantifier": "every set of registered actors and every combination of response times", "why_tests_cant": "unbounded combinations", "anchors": ["coerce/src/remote/heartbeat/health.rs:GetHealth", "coerce/src/remote/heartbeat/health.rs:RegisterHealthCheck", "coerce/src/remote/heartbeat/health.rs:RemoveHealthCheck"]}
{"id": "C21", "title": "Cluster wire events round trip", "statement": "Every event that one node writes to a connection is decoded by the other side to the same event with the same contents; an event is never decoded as an event of another kind.", "quantifier": "every client event and session event with every field content (ids in u64, arbitrary strings, byte payloads, node lists, attributes, optional fields)", "why_tests_cant": "the message space is infinite", "anchors": ["coerce/src/remote/net/message.rs:ClientEvent", "coerce/src/remote/net/message.rs:SessionEvent", "coerce/src/protocol/network.proto"]}
{"id": "C22", "title": "Remote errors keep their meaning", "statement": "An actor error that crosses the network is reported to the caller as the same error with the same details as a local call would give.", "quantifier": "every error variant with every detail content", "why_tests_cant": "details are arbitrary strings and durations; nested wrap errors", "anchors": ["coerce/src/remote/net/message.rs:From<ActorRefErr>", "coerce/src/actor/refs/mod.rs:ActorRefErr", "coerce/src/protocol/network.proto:ActorRefErr"]}
{"id": "C23", "title": "Malformed input from the network", "statement": "Bytes received from the network that are not an encoded event are rejected; they neither crash the receiver nor get interpreted as an event.", "quantifier": "every finite byte string", "why_tests_cant": "all byte strings cannot be enumerated", "anchors": ["coerce/src/remote/net/message.rs:StreamData", "coerce/src/remote/net/mod.rs:receive_loop"]}
{"id": "C24", "title": "Remote responses reach their requester", "statement": "Every response, error or pong received by a node completes the one outstanding request that carries the same id, at most once, and never another request; duplicates and responses to unknown ids have no effect.", "quantifier": "every sequence of requests and responses in every order, with duplicates and strays", "why_tests_cant": "orders are unbounded", "anchors": ["coerce/src/remote/actor/mod.rs:RemoteHandler", "coerce/src/remote/system/rpc.rs:push_request", "coerce/src/remote/system/rpc.rs:pop_request", "coerce/src/remote/net/client/receive.rs:on_receive"]}
{"id": "C25", "title": "Requests do not accumulate", "statement": "Once every remote request issued through a node has been answered or has failed, the node holds no outstanding request: issuing, answering and failing requests leaves no residue.", "quantifier": "every history of requests, answers and failures on requesting and responding nodes", "why_tests_cant": "leaks only show in unbounded histories", "anchors": ["coerce/src/remote/system/rpc.rs:node_rpc_raw", "coerce/src/remote/system/rpc.rs:notify_raw_rpc_result", "coerce/src/remote/system/rpc.rs:notify_rpc_err", "coerce/src/remote/actor_ref.rs:RemoteActorRef::send", "coerce/src/remote/net/server/session/mod.rs:send_result"]}
{"id": "C26", "title": "Remote message order", "statement": "Messages sent by one sender to one remote actor over one connection are handled by the actor in the order in which they were sent.", "quantifier": "every sequence of messages and every schedule of the receiving node", "why_tests_cant": "depends on the scheduler of the receiving node", "anchors": ["coerce/src/remote/net/server/session/mod.rs:on_receive", "coerce/src/remote/net/server/session/mod.rs:session_handle_message", "coerce/src/remote/handler.rs:RemoteActorMessageHandler::handle_attempt", "coerce/src/remote/actor_ref.rs:RemoteActorRef::notify"]}
{"id": "C27", "title": "Client connection buffer", "statement": "A message written to a client connection that has not been terminated is, at any time, either handed to the transport exactly once or still buffered, and messages are handed to the transport in the order in which they were written, across connects, disconnects and failed writes.", "quantifier": "every sequence of writes, connects, disconnects and transport failures", "why_tests_cant": "failure points and interleavings are unbounded", "anchors": ["coerce/src/remote/net/client/send.rs:RemoteClient::write", "coerce/src/remote/net/client/send.rs:RemoteClient::flush_buffered_writes", "coerce/src/remote/net/client/connect.rs:Connect", "coerce/src/remote/net/client/connect.rs:Disconnected"]}
{"id": "C28", "title": "Reconnection is bounded", "statement": "A client keeps retrying a lost connection until it succeeds or the configured number of consecutive attempts has failed; then, and only then, it terminates, is removed from the client registry and stops.", "quantifier": "every pattern of successes and failures of connection attempts", "why_tests_cant": "patterns are unbounded", "anchors": ["coerce/src/remote/net/client/connect.rs:Disconnected", "coerce/src/remote/net/client/connect.rs:Connect", "coerce/src/remote/actor/clients.rs:RemoveClient"]}
{"id": "C29", "title": "Agreement on actor placement", "statement": "Two nodes that know the same set of cluster nodes assign every actor id to the same node, independently of the order in which they learned about the nodes, and the assigned node is a known node.", "quantifier": "every set of nodes, every discovery order, every actor id", "why_tests_cant": "orders and sets are unbounded", "anchors": ["coerce/src/remote/cluster/node.rs:RemoteNodeStore::add", "coerce/src/remote/cluster/node.rs:RemoteNodeStore::get_by_key", "coerce/src/remote/cluster/node.rs:RemoteNodeStore::remove"]}
{"id": "C30", "title": "Registered actors can be located", "statement": "After an actor has been registered with the cluster, a lookup of its id from any node answers the node on which it was registered, until the actor stops; after it stopped, lookups find nothing.", "quantifier": "every history of registrations, stops, membership changes and lookups from any node", "why_tests_cant": "histories over a distributed state", "anchors": ["coerce/src/remote/actor/registry.rs:GetActorNode", "coerce/src/remote/actor/registry.rs:RegisterActor", "coerce/src/remote/system/actor.rs:locate_actor_node", "coerce/src/remote/actor/registry.rs:RemoteRegistry"]}
{"id": "C31", "title": "Remote actor deployment", "statement": "Deploying an actor on a node answers the caller in every case: with a reference on success, with the matching error if the actor already exists, the type is unknown or the recipe is invalid; a failed deployment creates no actor.", "quantifier": "every request (id, type, recipe) and every registry state", "why_tests_cant": "input space is infinite", "anchors": ["coerce/src/remote/system/actor.rs:deploy_actor", "coerce/src/remote/system/actor.rs:handle_create_actor", "coerce/src/remote/net/server/session/mod.rs:session_create_actor"]}
{"id": "C32", "title": "Node health classification", "statement": "A node that answers pings promptly is Healthy, one that answers late is Unhealthy, one that has not answered for the termination timeout is Terminated, a disconnected node is Terminated, and a node is never declared Terminated while its last heartbeat is more recent than the termination timeout.", "quantifier": "every configuration, every ping history and every pair of times", "why_tests_cant": "ranges over all times and histories", "anchors": ["coerce/src/remote/heartbeat/mod.rs:Heartbeat", "coerce/src/remote/heartbeat/mod.rs:node_status", "coerce/src/remote/heartbeat/mod.rs:update_node"]}
{"id": "C33", "title": "Leader election", "statement": "On every heartbeat a node elects as leader the healthy node that started first (ties broken by id); two nodes with the same view of the healthy nodes elect the same leader, in whatever order they hold it; a node that is not healthy is never elected.", "quantifier": "every cluster view and every ordering of it", "why_tests_cant": "all cluster views", "anchors": ["coerce/src/remote/heartbeat/mod.rs:HeartbeatTick", "coerce/src/remote/heartbeat/mod.rs:update_leader", "coerce/src/remote/cluster/node.rs:RemoteNodeState"]}
{"id": "C34", "title": "The leader is reported", "statement": "Once a leader has been elected the node reports exactly that node id as current leader, a LeaderChanged event is published when and only when the leader changes, and a pending leader callback runs exactly once.", "quantifier": "every node id in u64 and every sequence of elections", "why_tests_cant": "ranges over all ids and histories", "anchors": ["coerce/src/remote/system/cluster.rs:current_leader", "coerce/src/remote/system/cluster.rs:update_leader", "coerce/src/remote/heartbeat/mod.rs:update_leader", "coerce/src/remote/heartbeat/mod.rs:OnLeaderChanged"]}
{"id": "C35", "title": "Minimum cluster size", "statement": "With a configured minimum cluster size n, MemberUp is published once and only after the node has seen at least n nodes including itself.", "quantifier": "every n and every growth history of the cluster", "why_tests_cant": "unbounded histories", "anchors": ["coerce/src/remote/heartbeat/mod.rs:HeartbeatTick", "coerce/src/remote/heartbeat/mod.rs:on_min_cluster_size_reached"]}
{"id": "C36", "title": "Node discovery", "statement": "Discovering a node by seed address contacts it at most once while it is known, every reachable node reported by it is eventually discovered, a node that failed or was forgotten can be discovered again, and discovery callbacks are answered once.", "quantifier": "every sequence of discover, forget and completion events", "why_tests_cant": "event orders are unbounded", "anchors": ["coerce/src/remote/cluster/discovery/mod.rs:Discover", "coerce/src/remote/cluster/discovery/mod.rs:Forget", "coerce/src/remote/cluster/discovery/mod.rs:NodeDiscovered"]}
{"id": "C37", "title": "Local publish/subscribe", "statement": "A subscriber of a topic receives every message published on its node to that topic and key after its subscription, each once and in publication order, and no message of another key.", "quantifier": "every sequence of subscriptions and publications and every speed of the subscriber", "why_tests_cant": "interleavings and queue lengths are unbounded", "anchors": ["coerce/src/remote/stream/pubsub.rs:TopicSubscriberStore", "coerce/src/remote/stream/pubsub.rs:Subscription", "coerce/src/remote/stream/mediator/mod.rs:Publish", "coerce/src/remote/stream/mediator/mod.rs:Subscribe"]}
{"id": "C38", "title": "Cluster publish", "statement": "A cluster-wide publication is delivered to the local subscribers and sent exactly once to every other known node and to no removed node; publications of one publisher arrive at a remote subscriber in order.", "quantifier": "every membership history and publication sequence, every schedule", "why_tests_cant": "unbounded histories and schedules", "anchors": ["coerce/src/remote/stream/mediator/mod.rs:Publish", "coerce/src/remote/stream/mediator/mod.rs:PublishRaw", "coerce/src/remote/stream/pubsub.rs:PubSub::publish", "coerce/src/remote/net/server/session/mod.rs:session_stream_publish"]}
{"id": "C39", "title": "Connections are authenticated first", "statement": "With token authentication configured, no event received on a connection has any effect unless the first event carried a token that was signed with the node's key and had not expired; a valid token is accepted up to and including its expiry second.", "quantifier": "every sequence of frames, every token, every clock reading, every signature scheme", "why_tests_cant": "attacker-controlled inputs", "anchors": ["coerce/src/remote/net/server/session/mod.rs:RemoteSession::started", "coerce/src/remote/net/server/session/mod.rs:validate_session_token", "coerce/src/remote/net/security/auth/jwt.rs:Jwt::validate", "coerce/src/remote/net/security/auth/jwt.rs:is_token_still_valid"]}
{"id": "C40", "title": "A rejected connection does not affect others", "statement": "A client that fails authentication or disconnects early has no effect on other connections: sessions that are open stay open and later valid clients are accepted.", "quantifier": "every sequence of connection attempts, valid or not, in any order", "why_tests_cant": "unbounded sequences", "anchors": ["coerce/src/remote/net/server/session/store.rs:NewSession", "coerce/src/remote/net/server/session/mod.rs:RemoteSession::started", "coerce/src/remote/net/server/mod.rs:server_loop", "coerce/src/actor/supervised.rs:Supervised::spawn"]}
{"id": "C41", "title": "Delivery to an actor that is not there yet", "statement": "A remote message for an actor id that is not running is retried a bounded number of times: it is handled once as soon as a lookup finds the actor, otherwise the caller gets a not-found error; an unknown message type or an undecodable message is reported as an error and never handled.", "quantifier": "every pattern of lookup results and every message", "why_tests_cant": "unbounded patterns", "anchors": ["coerce/src/remote/handler.rs:RemoteActorMessageHandler::handle_attempt", "coerce/src/remote/handler.rs:handle_direct", "coerce/src/remote/system/rpc.rs:handle_message"]}
{"id": "C42", "title": "Shard ownership bookkeeping", "statement": "At every moment the shard coordinator assigns a shard to at most one node, the node's own list and the coordinator's map agree, and every owner is a known node; no operation of the coordinator fails because of missing bookkeeping.", "quantifier": "every history of node arrivals, departures, allocations, rebalances and replies", "why_tests_cant": "unbounded histories", "anchors": ["coerce/src/sharding/coordinator/mod.rs:ShardCoordinator", "coerce/src/sharding/coordinator/allocation.rs:allocate_shard", "coerce/src/sharding/coordinator/balancing.rs:rebalance_shards", "coerce/src/sharding/coordinator/discovery.rs:on_node_removed"]}
{"id": "C43", "title": "Shard allocation policy", "statement": "Allocating an unallocated shard gives it to a ready node that has the fewest shards among the ready nodes, tells that node first and then every other ready node, and reports it; allocating an allocated shard changes nothing and reports its owner; with no ready node nothing is allocated.", "quantifier": "every coordinator state, every shard and every iteration order of its tables", "why_tests_cant": "unbounded states and hash orders", "anchors": ["coerce/src/sharding/coordinator/allocation.rs:AllocateShard", "coerce/src/sharding/coordinator/allocation.rs:allocate", "coerce/src/sharding/coordinator/allocation.rs:broadcast_allocation"]}
{"id": "C44", "title": "Failover of a node's shards", "statement": "When a node becomes unavailable every shard it owned is moved to a ready node if there is one, shards of other nodes stay where they are, and the unavailable node is given no shard until it comes back.", "quantifier": "every coordinator state", "why_tests_cant": "unbounded states", "anchors": ["coerce/src/sharding/coordinator/balancing.rs:rebalance_unavailable_node", "coerce/src/sharding/coordinator/discovery.rs:on_node_removed", "coerce/src/sharding/coordinator/discovery.rs:on_node_discovered"]}
{"id": "C45", "title": "Full rebalance", "statement": "A full rebalance moves shards only away from nodes that hold more than the fair share and only the excess, never touches the other nodes' shards, and does nothing when the allocation is already balanced.", "quantifier": "every coordinator state and iteration order", "why_tests_cant": "unbounded states", "anchors": ["coerce/src/sharding/coordinator/balancing.rs:Rebalance", "coerce/src/sharding/coordinator/balancing.rs:rebalance_shards"]}
{"id": "C46", "title": "A shard runs on one node at a time", "statement": "At no time do two nodes run the same shard: a shard being moved is started on its new node only after the old node has stopped it.", "quantifier": "every interleaving of rebalancing, allocation requests and messages between coordinator and hosts", "why_tests_cant": "needs all interleavings of a distributed protocol", "anchors": ["coerce/src/sharding/coordinator/balancing.rs:rebalance_shards", "coerce/src/sharding/coordinator/allocation.rs:AllocateShard", "coerce/src/sharding/host/mod.rs:ShardHost", "coerce/src/sharding/host/mod.rs:StopShard"]}
{"id": "C47", "title": "Coordinator restart", "statement": "When the coordinator is restarted and recovers its journal, every shard that had been allocated is allocated again to the node that owned it.", "quantifier": "every allocation history and every membership at recovery time", "why_tests_cant": "unbounded histories", "anchors": ["coerce/src/sharding/coordinator/allocation.rs:Recover<AllocateShard>", "coerce/src/sharding/coordinator/mod.rs:ShardCoordinator::pre_recovery", "coerce/src/sharding/coordinator/allocation.rs:AllocateShard"]}
{"id": "C48", "title": "Requests for a shard are buffered in order", "statement": "Entity requests that arrive at a shard host before their shard is available are kept and, once the shard is ready, forwarded exactly once in arrival order before any later request of that shard; requests of other shards are not affected.", "quantifier": "every interleaving of requests with allocation and ready notifications, any number of shards", "why_tests_cant": "interleavings are unbounded", "anchors": ["coerce/src/sharding/host/mod.rs:ShardAllocated", "coerce/src/sharding/host/mod.rs:ShardReady", "coerce/src/sharding/host/request.rs:handle_request", "coerce/src/sharding/host/request.rs:EntityRequest"]}
{"id": "C49", "title": "Stopping a shard", "statement": "A request to stop a shard is always answered once the shard is no longer running on the host, whatever state the shard was in, and after the answer the host does not run the shard.", "quantifier": "every state of the shard on the host and every interleaving with its start", "why_tests_cant": "races between start and stop", "anchors": ["coerce/src/sharding/host/mod.rs:StopShard", "coerce/src/sharding/host/mod.rs:ShardReady", "coerce/src/sharding/host/mod.rs:stop_shard", "coerce/src/sharding/host/mod.rs:ShardStopped"]}
{"id": "C50", "title": "Entities of a shard", "statement": "A shard has at most one live actor per entity id; the first request carrying a recipe starts it, requests arriving while it starts are delivered in arrival order once it is running, requests without a recipe for an unknown entity fail; an entity that was started is started again when the shard recovers.", "quantifier": "every history of entity requests, start results, passivations and shard restarts", "why_tests_cant": "unbounded histories", "anchors": ["coerce/src/sharding/shard/mod.rs:Shard", "coerce/src/sharding/shard/mod.rs:EntityRequest", "coerce/src/sharding/shard/mod.rs:EntityStartResult", "coerce/src/sharding/shard/recovery.rs:Recover"]}
{"id": "C51", "title": "Entity to shard mapping", "statement": "Every entity id is mapped to the same shard on every node, the shard id is below the configured number of shards, and the mapping needs no coordination.", "quantifier": "every entity id and every configured shard count", "why_tests_cant": "infinite ids", "anchors": ["coerce/src/sharding/coordinator/allocation.rs:DefaultAllocator", "coerce/src/sharding/host/mod.rs:shard_actor_id", "coerce/src/sharding/mod.rs:Sharded"]}
{"id": "C52", "title": "Sharding messages round trip", "statement": "Every sharding control message, allocation result, shard snapshot and statistics record decodes to what was encoded.", "quantifier": "every field content", "why_tests_cant": "infinite message space", "anchors": ["coerce/src/sharding/coordinator/allocation.rs", "coerce/src/sharding/host/mod.rs", "coerce/src/sharding/host/request.rs", "coerce/src/sharding/shard/recovery.rs", "coerce/src/sharding/coordinator/stats.rs", "coerce/src/protocol/sharding.proto"]}
{"id": "C53", "title": "Singleton starts only with all leases", "statement": "A singleton manager starts the singleton only after every manager it knows about has acknowledged its lease request (or it knows none), and starts it once per leadership.", "quantifier": "every sequence of cluster events and lease messages", "why_tests_cant": "unbounded histories", "anchors": ["coerce/src/singleton/manager/lease.rs:request_lease", "coerce/src/singleton/manager/lease.rs:on_lease_ack", "coerce/src/singleton/manager/mod.rs:SystemTopic", "coerce/src/singleton/manager/start.rs:start_actor"]}
{"id": "C54", "title": "At most one singleton", "statement": "At any time at most one node of the cluster runs the singleton.", "quantifier": "every interleaving of cluster events, lease messages and actor starts and stops over all nodes", "why_tests_cant": "a safety property of all interleavings", "anchors": ["coerce/src/singleton/manager/mod.rs:Manager", "coerce/src/singleton/manager/lease.rs", "coerce/src/singleton/manager/start.rs"]}
{"id": "C55", "title": "Singleton handover completes", "statement": "When leadership moves to another node, the old leader stops its singleton, grants the lease when it has stopped, and the new leader starts the singleton.", "quantifier": "every fair schedule of the handover", "why_tests_cant": "a progress property of all fair schedules", "anchors": ["coerce/src/singleton/manager/mod.rs:begin_stopping", "coerce/src/singleton/manager/mod.rs:on_child_stopped", "coerce/src/singleton/manager/lease.rs:grant_lease", "coerce/src/singleton/manager/start.rs:start_actor"]}
{"id": "C56", "title": "Singleton proxy buffering", "statement": "Messages sent to a singleton while it is not running are kept and delivered exactly once, in order, when it becomes available; a send resolves to the singleton's answer; a notification (no reply expected) is delivered like any other message.", "quantifier": "every interleaving of sends, notifications, starts and stops", "why_tests_cant": "unbounded interleavings", "anchors": ["coerce/src/singleton/proxy/mod.rs:SingletonStarted", "coerce/src/singleton/proxy/mod.rs:SingletonStopping", "coerce/src/singleton/proxy/send.rs:Deliver", "coerce/src/singleton/mod.rs:Singleton::notify"]}
{"id": "C57", "title": "Singleton messages round trip", "statement": "Every message exchanged between singleton managers decodes to what was encoded, and every manager status is preserved.", "quantifier": "every node id and status", "why_tests_cant": "infinite id space", "anchors": ["coerce/src/singleton/manager/mod.rs", "coerce/src/singleton/manager/lease.rs", "coerce/src/singleton/manager/status.rs", "coerce/src/protocol/singleton.proto"]}
{"id": "C58", "title": "Cluster node registry", "statement": "Updating, terminating or removing a node affects only that node's record; status updates of unknown nodes add nothing; a removed node is neither reported nor assigned actors.", "quantifier": "every sequence of registry operations", "why_tests_cant": "unbounded histories", "anchors": ["coerce/src/remote/cluster/node.rs:RemoteNodeStore", "coerce/src/remote/cluster/node.rs:NodeSelector"]}
{"id": "C59", "title": "Client registry routing", "statement": "A write addressed to a node is handed to the one client connected to that node, in order; clients are created once per address; after a client is removed nothing is routed to it.", "quantifier": "every sequence of connects, identifications, writes and removals", "why_tests_cant": "unbounded histories", "anchors": ["coerce/src/remote/actor/clients.rs:RemoteClientRegistry", "coerce/src/remote/system/cluster.rs:notify_node"]}
{"id": "C60", "title": "Cluster formation", "statement": "Nodes that join a cluster through seed nodes end up knowing each other: once every handshake has been handled, any two nodes connected by a chain of seeds have each other in their list of nodes; nodes only ever know nodes that started; the handshakes come to an end.", "quantifier": "every number of nodes, every choice of seeds, every interleaving and order of handshakes", "why_tests_cant": "the number of nodes and interleavings is unbounded; tests use two or three nodes and one schedule", "anchors": ["coerce/src/remote/cluster/discovery/mod.rs:NodeDiscovery", "coerce/src/remote/net/server/session/mod.rs:session_handshake", "coerce/src/remote/cluster/builder/worker.rs:ClusterWorkerBuilder::start"]}
{"id": "C61", "title": "System shutdown", "statement": "When shutting down an actor system returns, every tracked actor of it has run its stopped hook; and shutting down returns whenever the actors' handlers and hooks return.", "quantifier": "every number of actors, every interleaving of creation, messages, stopping and shutdown", "why_tests_cant": "a wrong order of a few steps is enough, and a shutdown that hangs shows only under a rare schedule", "anchors": ["coerce/src/actor/system/mod.rs:ActorSystem::shutdown", "coerce/src/actor/scheduler/mod.rs:ActorScheduler", "coerce/src/actor/lifecycle.rs:actor_stopped"]}
{"id": "C62", "title": "Requests to sharded entities, end to end", "statement": "A message sent to a sharded entity, from any node, is handled at most once, by an actor of that entity; the call returns at most once, an Ok result is the one the entity gave to this message, and nothing of it is handled after the call has returned; once the shard and the entity have started and nothing is lost, the call returns.", "quantifier": "every number of nodes, shards, entities and calls, every interleaving of requests, allocation, reallocation, entity starts, shard stops, losses and crashes", "why_tests_cant": "requests are buffered in three places and cross nodes; the interleavings with shards that move are unbounded", "anchors": ["coerce/src/sharding/mod.rs:Sharded::send", "coerce/src/sharding/host/request.rs:EntityRequest", "coerce/src/sharding/host/request.rs:RemoteEntityRequest", "coerce/src/sharding/shard/mod.rs:Shard", "coerce/src/remote/net/client/receive.rs"]}
{"id": "C63", "title": "Singletons restricted to some nodes", "statement": "With a selector by attribute, the managers of a singleton negotiate with exactly the other nodes that carry the attribute, the singleton runs only on nodes that carry it, and it runs somewhere while such nodes are part of the cluster.", "quantifier": "every assignment of attributes, every selector, every number of nodes and every interleaving of cluster events and messages", "why_tests_cant": "tests use the default selector; what happens depends on who is elected and on the interleaving of events", "anchors": ["coerce/src/remote/cluster/node.rs:NodeSelector", "coerce/src/singleton/manager/mod.rs:Manager", "coerce/src/singleton/manager/lease.rs"]}
{"id": "C64", "title": "Names of messages and actors", "statement": "A message is sent to other nodes under a name that was registered for it, and a node that registered the same names takes it for a message of the same type; what a node says it can handle is what it handles; the name of a registered actor type can be looked up; singletons of different factories do not disturb each other.", "quantifier": "every sequence of registrations on every node and every order in which the hash tables are iterated", "why_tests_cant": "registrations that clash, the seed of the hash tables and nodes that run different versions are not varied by tests", "anchors": ["coerce/src/remote/system/builder.rs:RemoteSystemConfigBuilder", "coerce/src/remote/config/mod.rs:RemoteSystemConfig", "coerce/src/remote/handler.rs:RemoteActorHandler", "coerce/src/singleton/mod.rs:singleton"]}
{"id": "C65", "title": "Messages through references, from the call to the answer", "statement": "A message sent through a reference is handled at most once, by the actor the reference stands for, as the message that was sent, whether the actor is on the own node or on another one; the caller gets what the handler returned; a call that fails was not handled; a call returns; a message that notify accepted is handled unless the actor stops; a reference stands for one actor.", "quantifier": "every interleaving of any number of calls, actors that start, stop and start again under the same id on any number of nodes, lost connections, any registrations and any codecs", "why_tests_cant": "the interleavings of stopping actors, retried lookups, lost connections and answers, and nodes with different registrations, are not enumerated by tests", "anchors": ["coerce/src/actor/refs/mod.rs:ActorRef::send", "coerce/src/actor/refs/mod.rs:ActorRef::notify", "coerce/src/remote/actor_ref.rs:RemoteActorRef", "coerce/src/remote/system/rpc.rs:RemoteActorSystem::handle_message", "coerce/src/remote/handler.rs:RemoteActorMessageHandler", "coerce/src/remote/net/server/session/mod.rs:session_handle_message"]}
{"id": "C66", "title": "Persistent state survives crashes, lost answers and overlapping incarnations", "statement": "Whatever is acknowledged as stored for a persistence id is found by every later start of that actor, in order and once, and nothing is found that no actor with that id tried to store; a call that was not acknowledged is found completely or not at all; this holds although actors crash with calls on their way, answers of the storage are lost, writes are performed late, and an old incarnation still runs while a new one starts.", "quantifier": "all interleavings of any number of incarnations of any number of persistence ids, with crashes at any point, writes performed at any time after they were issued or never, and answers that say failed although the write was performed; any payloads; both storages", "why_tests_cant": "crashes between the write and its answer, late writes and two live incarnations need a fault-injecting storage and exact timing; tests use one actor and an in-memory storage that never fails", "anchors": ["coerce/src/persistent/journal/mod.rs:Journal", "coerce/src/persistent/recovery.rs:load_journal", "coerce/src/persistent/actor.rs:PersistentActor", "coerce/src/persistent/journal/provider.rs:InMemoryJournalStorage", "providers/persistence/coerce-redis/src/journal/actor.rs:RedisJournal"]}
{"id": "C67", "title": "A connection carries what was written", "statement": "On a connection between two nodes the receiving side handles exactly the events that the other side wrote and that the connection accepts (at most 8 MiB), unchanged and in the order they were written, up to the point where the connection breaks; however the network splits the bytes. What any bytes at all mean does not depend on the pieces they arrive in, and a peer cannot make a node buffer more than 8 MiB of them.", "quantifier": "all lists of events of all kinds in both directions, all ways to cut the bytes into pieces, all points at which the connection breaks; all byte strings", "why_tests_cant": "the pieces in which TCP delivers bytes, and where a connection is cut, depend on timing; a test over loopback gets whole writes", "anchors": ["coerce/src/remote/net/mod.rs:receive_loop", "coerce/src/remote/net/message.rs:StreamData", "coerce/src/remote/net/client/send.rs:write_bytes", "coerce/src/remote/net/server/session/mod.rs:RemoteSession::write"]}
{"id": "C68", "title": "Sharding statistics", "statement": "Asking a node for the sharding statistics of an entity type gives an answer, and the answer is true of the cluster at the time of the call: the numbers of shards, nodes and entities agree with each other and with the coordinator, every allocated shard is listed once, with its node and exactly the entities it has, and no entity is listed twice; this also holds while shards and entities start, stop and move.", "quantifier": "all histories of the coordinator, shards and entities of any number of nodes, interleaved in any way with the steps of a call", "why_tests_cant": "the answer is put together from many actors on several nodes that change meanwhile; a test asks an idle cluster", "anchors": ["coerce/src/remote/api/sharding/cluster.rs:GetClusterStats", "coerce/src/remote/api/sharding/node.rs:GetStats", "coerce/src/sharding/host/stats.rs:GetStats", "coerce/src/sharding/shard/stats.rs:GetShardStats", "coerce/src/sharding/coordinator/stats.rs:GetShardingStats"]}
{"id": "C69", "title": "What members of a chat room are shown", "statement": "After joining a room a client of the sharded chat is shown the history of the room and then every message that the room accepts, once and in the order of the room, until it leaves; after it has left or gone away it is shown nothing more; a message that is not accepted is reported to its sender.", "quantifier": "all histories of any number of clients, rooms and nodes: frames, stops and crashes of rooms, publications that arrive in any order or are lost", "why_tests_cant": "the answer to a join, the subscription and the publications are separate steps on several nodes; a test sees one schedule", "anchors": ["examples/coerce-sharded-chat-example/src/actor/peer/mod.rs:Handler<JoinChat>", "examples/coerce-sharded-chat-example/src/actor/peer/mod.rs:Handler<Receive<ChatReceive>>", "examples/coerce-sharded-chat-example/src/actor/stream/mod.rs:Handler<ChatMessage>", "coerce/src/remote/stream/pubsub.rs:PubSub"]}
{"id": "C70", "title": "Chat messages are genuine", "statement": "Whatever a client of the sharded chat is shown is the welcome of a room that it asked to join, or a message of such a room that a client sent which had joined the room itself, under the name with which that client connected; nothing is shown of rooms that a client did not ask for.", "quantifier": "all histories of any number of clients, rooms and nodes", "why_tests_cant": "it speaks of everything that can ever reach a client, over all interleavings", "anchors": ["examples/coerce-sharded-chat-example/src/actor/peer/mod.rs:Handler<ChatMessage>", "examples/coerce-sharded-chat-example/src/actor/stream/mod.rs:Handler<ChatMessage>", "examples/coerce-sharded-chat-example/src/websocket/mod.rs:start"]}
{"id": "C71", "title": "The history of a chat room", "statement": "Messages that a room of the sharded chat accepted stay in its history in the same order, through stops and crashes of the room; a client that joins is shown a history that has everything accepted before it asked; the messages of one client are accepted in the order in which it sent them.", "quantifier": "all histories of any number of clients, rooms and nodes, with stops and crashes of rooms at any time", "why_tests_cant": "crashes between storing and answering, and restarts on other nodes, in combination", "anchors": ["examples/coerce-sharded-chat-example/src/actor/stream/mod.rs:ChatStream", "examples/coerce-sharded-chat-example/src/actor/stream/mod.rs:RecoverSnapshot", "examples/coerce-sharded-chat-example/src/actor/peer/mod.rs:Handler<JoinChat>"]}
{"id": "C72", "title": "Agreement on the leader in time", "statement": "Once the running nodes of a cluster know one another, their pings are answered promptly and no node starts or stops, then after one ping time, the time after which a silent node counts as unhealthy and one heartbeat, every running node reports the same leader, namely the running node that was started first; from then on the leader does not change and is not announced again, the running nodes are exactly those seen as healthy, and no heartbeat stops.", "quantifier": "all histories with any number of nodes before and during that period (starts, crashes, lost connections, late and lost answers), all ids, start times, configurations and constant clock differences", "why_tests_cant": "the claim is about all interleavings of pings, time-outs, heartbeats and clocks of many nodes over unbounded time", "anchors": ["coerce/src/remote/heartbeat/mod.rs:Handler<HeartbeatTick>", "coerce/src/remote/heartbeat/mod.rs:Handler<NodeTerminated>", "coerce/src/remote/heartbeat/mod.rs:update_leader", "coerce/src/remote/net/client/ping.rs:Handler<PingTick>", "coerce/src/remote/net/server/session/mod.rs:318-350"]}
{"id": "C73", "title": "At most one running leader", "statement": "At any time at most one running node takes itself for the leader.", "quantifier": "all histories with any number of nodes, crashes, lost connections and late answers", "why_tests_cant": "a split needs a particular schedule of lost connections and heartbeats on several nodes", "anchors": ["coerce/src/remote/heartbeat/mod.rs:Handler<HeartbeatTick>", "coerce/src/remote/heartbeat/mod.rs:update_leader", "coerce/src/remote/system/cluster.rs:current_leader"]}
{"id": "C74", "title": "Dispatching to a pool of workers", "statement": "A dispatch to a pool returns the result that exactly one worker gave for that message, handled once, in a state reached from a copy of the initial state by the messages that worker handled before; message number i goes to worker i mod n; a dispatch that fails is not handled, then or later, and it fails only if the pool is empty or stopped or the worker whose turn it is has stopped; every dispatch comes to an end.", "quantifier": "all pools, messages, handlers (also those that panic) and schedules: concurrent dispatches, dispatches that are given up, workers and pool stopping at any time", "why_tests_cant": "it speaks of all interleavings of callers, pool, forwarding tasks and workers", "anchors": ["coerce/src/actor/worker.rs:WorkerRefExt::dispatch", "coerce/src/actor/worker.rs:Handler<WorkerMessage<M>>", "coerce/src/actor/worker.rs:Worker::new"]}
{"id": "C75", "title": "A pool outlives its workers", "statement": "As long as the pool and one of its workers run, a dispatch gets a result.", "quantifier": "all pools and schedules, with workers stopping or panicking at any time", "why_tests_cant": "needs a worker that stops between two dispatches", "anchors": ["coerce/src/actor/worker.rs:Handler<WorkerMessage<M>>", "coerce/src/actor/worker.rs:Worker::new"]}
{"id": "C76", "title": "Order in a pool", "statement": "The messages that a pool gives to one worker are handled in the order in which they were dispatched.", "quantifier": "all pools and schedules", "why_tests_cant": "the two orders differ only under particular schedules of the forwarding tasks", "anchors": ["coerce/src/actor/worker.rs:Handler<WorkerMessage<M>>"]}
{"id": "C77", "title": "A worker that has been started is in the cluster", "statement": "When starting a worker with a seed returns, the worker and its seed have each other in their lists of nodes; once all workers have been started, any two that are linked by their seeds have.", "quantifier": "every number of workers, every choice of seeds (also circular), every interleaving of starts, look-ups, handshakes and acknowledgements, with failures at any point", "why_tests_cant": "the interleavings of concurrent starts are unbounded, and what a start hides shows only when a look-up, the seed or a handshake fails", "anchors": ["coerce/src/remote/cluster/builder/worker.rs:ClusterWorkerBuilder::start", "coerce/src/remote/cluster/builder/worker.rs:discover_peers", "coerce/src/remote/cluster/discovery/mod.rs:NodeDiscovery", "coerce/src/remote/net/server/session/mod.rs:session_handshake", "coerce/src/remote/net/client/mod.rs:RemoteClientRef::handshake"]}
{"id": "C78", "title": "Starting a worker returns", "statement": "Workers that start at the same time never wait for one another in a circle: as long as a start has not returned some step is possible without anyone giving up, the steps are bounded in number, and so every start returns; the seed is looked up eleven times.", "quantifier": "every number of workers, seeds and interleavings, from every reachable state, also after handshakes were lost", "why_tests_cant": "a deadlock needs a particular interleaving of handshakes that wait for one another across nodes", "anchors": ["coerce/src/remote/cluster/builder/worker.rs:ClusterWorkerBuilder::start", "coerce/src/remote/cluster/builder/worker.rs:discover_peers", "coerce/src/remote/cluster/discovery/mod.rs:Handler<Discover>", "coerce/src/remote/net/server/session/mod.rs:session_handshake"]}
{"id": "C79", "title": "Confirmed writes to persistent sharded entities survive", "statement": "When a call to a persistent sharded entity that makes it store a message has returned a success, every later actor of this entity, on whatever node, recovers that message, as often as it was written and in the order of the confirmed writes; and nothing is recovered that was not sent to this entity.", "quantifier": "every number of nodes, entities and calls, every interleaving of calls, shard moves, entity creations, storage calls performed late, twice or never, retries, stopped actors, lost messages and crashed nodes", "why_tests_cant": "the loss shows only when an entity moves between nodes or restarts between two writes, or when storage and caller disagree on what was performed; the combinations of sharding and persistence are unbounded", "anchors": ["coerce/src/persistent/actor.rs:PersistentActor::persist", "coerce/src/persistent/actor.rs:persistence_key", "coerce/src/persistent/journal/mod.rs:Journal::persist_message", "coerce/src/persistent/journal/mod.rs:Journal::recover_messages", "providers/persistence/coerce-redis/src/journal/actor.rs:RedisJournal", "coerce/src/sharding/shard/mod.rs:EntityRequest", "coerce/src/sharding/mod.rs:Sharded::send"]}
{"id": "C80", "title": "A later call to a persistent sharded entity sees earlier confirmed writes", "statement": "When a call that stores a message has returned a success, every call to the entity made afterwards, from and on whatever node, is answered in a state that includes the message; and no answer depends on anything that was not sent to the entity.", "quantifier": "every number of nodes, entities and calls, every interleaving of calls, shard moves, entity creations, storage calls, stopped actors, lost messages and crashed nodes", "why_tests_cant": "it depends on which of several actors of one entity, on several nodes, gets a request, and on when each of them read the journal", "anchors": ["coerce/src/persistent/actor.rs:PersistentActor::persist", "coerce/src/persistent/recovery.rs:Recovery", "coerce/src/persistent/journal/mod.rs:Journal::recover_messages", "coerce/src/sharding/shard/mod.rs:EntityRequest", "coerce/src/sharding/host/mod.rs:ShardHost", "coerce/src/sharding/mod.rs:Sharded::send"]}
{"id": "C81", "title": "Every sharded entity type of a cluster is served", "statement": "When several sharded entity types (or several singletons of one actor type) are started on the nodes of a cluster, each of them gets a coordinator (an instance) and requests sent for it are handled, whatever other types are started beside it.", "quantifier": "every number of nodes and entity types, every order in which they are started on each node, every interleaving of cluster events, lease messages, creations, stops and requests", "why_tests_cant": "the tests start one entity type; whether a second one takes anything away from the first depends on ids shared through the actor system and on messages between all nodes", "anchors": ["coerce/src/sharding/mod.rs:Sharding::try_start", "coerce/src/singleton/mod.rs:SingletonBuilder::new", "coerce/src/singleton/mod.rs:SingletonBuilder::build", "coerce/src/singleton/manager/lease.rs:Manager::on_lease_ack", "coerce/src/actor/scheduler/mod.rs:RegisterActor"]}
{"id": "C82", "title": "A request to a singleton is handled by that singleton", "statement": "A request sent through the handle of a singleton (of the coordinator of an entity type) is handled at most as often as it was sent, by an instance that was created for this singleton, and the end of the instance of another singleton does not cut it off.", "quantifier": "every number of nodes and singletons of one actor type, every order of starting them on each node, every interleaving of cluster events, lease messages, creations, stops and requests", "why_tests_cant": "it needs several singletons on several nodes, started in different orders; which of them is found under the shared id changes with every creation and stop", "anchors": ["coerce/src/sharding/mod.rs:Sharding::try_start", "coerce/src/singleton/mod.rs:SingletonBuilder::new", "coerce/src/singleton/mod.rs:Singleton::send", "coerce/src/singleton/proxy/mod.rs:Proxy", "coerce/src/singleton/manager/mod.rs:SingletonStarted", "coerce/src/actor/scheduler/mod.rs:DeregisterActor"]}
{"id": "C83", "title": "JSON messages, results and snapshots are read back as written", "statement": "For a type that derives JsonMessage or JsonSnapshot, reading what was written for a value gives this value: what a remote handler receives is what was sent, what the sender gets back is what the handler returned, and what recovery applies is what was persisted. Different values are written differently, and what is written is one line of UTF-8 text.", "quantifier": "every type made of booleans, integers, strings, (), options, vectors, maps with string keys, tuples, structs and enums, and every value of it, of any size and depth", "why_tests_cant": "tests send a few small messages; the space of types and of strings (quotes, control characters, characters of several bytes) and the depth of nesting are unbounded", "anchors": ["coerce/macros/src/message/json.rs:derive JsonMessage", "coerce/macros/src/snapshot/json.rs:derive JsonSnapshot", "coerce/src/actor/message/mod.rs:Message::as_bytes", "coerce/src/actor/message/mod.rs:Message::from_bytes", "coerce/src/persistent/journal/snapshot.rs:Snapshot"]}
{"id": "C84", "title": "A newer version of a JSON type reads what an older version wrote", "statement": "After fields were reordered, left out, made optional or added as options, integers widened and variants added, every value written with the older type is read: a field both versions have keeps its value, a new field is empty. A variant that the reader does not know, or a field it requires and the writer has not, is rejected; nothing is guessed.", "quantifier": "all pairs of versions of a type without options of options and all values of the older version nested less than 128 levels deep", "why_tests_cant": "journals and rolling upgrades bring versions together that no test run contains at the same time; the pairs of types and values are unbounded", "anchors": ["coerce/macros/src/message/json.rs:derive JsonMessage", "coerce/macros/src/snapshot/json.rs:derive JsonSnapshot", "coerce/src/actor/message/mod.rs:Message::as_bytes", "coerce/src/actor/message/mod.rs:Message::from_bytes", "coerce/src/persistent/journal/snapshot.rs:Snapshot"]}
{"id": "C85", "title": "The chat reads every message as it was sent, at every hop", "statement": "Whatever bytes the clients of the chat send, each message is the same in the request to its room, in the journal, in the history given to those who join, in the publications to other nodes and in what the other clients read; what is written to a client is a line of UTF-8 text. A frame that is not understood ends the connection.", "quantifier": "all runs of any number of clients, rooms and nodes, all byte strings sent by the clients as handshakes and frames", "why_tests_cant": "the encodings differ from hop to hop (protobuf, two forms of JSON, an option read where none was written); tests use short ASCII messages", "anchors": ["examples/coerce-sharded-chat-example/src/actor/peer/message.rs:parse_inbound_message", "examples/coerce-sharded-chat-example/src/actor/peer/message.rs:SendChatMessage", "examples/coerce-sharded-chat-example/src/websocket/client/mod.rs:ChatClient", "examples/coerce-sharded-chat-example/src/actor/stream/mod.rs:ChatMessage", "examples/coerce-sharded-chat-example/src/actor/pubsub.rs:ChatReceive", "examples/coerce-sharded-chat-example/src/websocket/mod.rs:handle_connection"]}
{"id": "C86", "title": "What is read in the chat was typed by someone, and what is typed is sent", "statement": "Everything a client reads is a welcome to a room it asked to join, or was sent as bytes by a client that asked to join the same room, under the name of its handshake. The client program sends what is typed: a line that is no command goes unchanged to the room that was joined last.", "quantifier": "all runs of any number of clients, rooms and nodes, all byte strings they send, and all sequences of lines typed into the client program", "why_tests_cant": "it needs every interleaving of clients and every text; the tests follow a fixed conversation", "anchors": ["examples/coerce-sharded-chat-example/bin/client.rs:main", "examples/coerce-sharded-chat-example/bin/client.rs:process_command", "examples/coerce-sharded-chat-example/src/websocket/client/mod.rs:ChatClient", "examples/coerce-sharded-chat-example/src/actor/peer/mod.rs:Peer", "examples/coerce-sharded-chat-example/src/actor/peer/message.rs:parse_inbound_message"]}
{"id": "C87", "title": "An actor of a cluster node can reach the cluster", "statement": "An actor that was created on a node of a cluster, by whatever way (created, spawned, deployed by the node itself or by another node), can use the remote system of its context, for instance to subscribe to a topic, and it is that of its node.", "quantifier": "all programs that build nodes and create, spawn and deploy actors through any of the handles they hold", "why_tests_cant": "which of several wrapped copies of the system an actor gets depends on the way it was created; tests create actors through one of them", "anchors": ["coerce/src/remote/system/builder.rs:RemoteActorSystemBuilder::build", "coerce/src/actor/system/mod.rs:ActorSystem::remote", "coerce/src/actor/system/mod.rs:ActorSystem::to_remote", "coerce/src/remote/net/server/session/mod.rs:RemoteSession", "coerce/src/remote/net/server/session/store.rs:RemoteSessionStore", "coerce/src/remote/system/actor.rs:deploy_local"]}
{"id": "C88", "title": "All handles of an actor system share one system", "statement": "Every handle got from another one (a copy with persistence, the remote system built over it, its inner system, the system of an actor's context) stands for the same system: actors created through one are found through all others, context ids are never used twice, a shutdown through one is seen through all, and it stops the actors of the node.", "quantifier": "all programs, all sequences of operations on any handles of any number of systems", "why_tests_cant": "the copies are structures that share some fields and not others; tests hold one handle", "anchors": ["coerce/src/actor/system/mod.rs:ActorSystem", "coerce/src/actor/system/mod.rs:ActorSystem::shutdown", "coerce/src/actor/system/mod.rs:ActorSystem::get_tracked_actor", "coerce/src/actor/context.rs:ActorContext::new", "coerce/src/remote/system/mod.rs:RemoteActorSystem::actor_system"]}
{"id": "C89", "title": "An actor type with its own storage provider uses it", "statement": "With a persistence that has a provider for an actor type, the persistent actors of that type store to and recover from that provider, all others use the default one; a persistent actor recovers exactly the events that actors of its type and id have stored.", "quantifier": "all programs with one system, all assignments of providers to actor types", "why_tests_cant": "tests configure a single provider", "anchors": ["coerce/src/persistent/mod.rs:Persistence::actor_provider", "coerce/src/persistent/mod.rs:Persistence::provider", "coerce/src/actor/context.rs:ActorContext::with_persistence", "coerce/src/persistent/actor.rs:PersistentActor"]}
{"id": "C90", "title": "Persistent actors survive upgrades of the program that keep the identifiers", "statement": "However often the program is stopped and started as another version: if the version that runs registers every identifier that the versions before it registered, for a type that takes its place, a start of a persistent actor gives the latest snapshot any of them acknowledged and replays the messages they acknowledged behind it, each once and in order, up to the loss of C02; and if the newer types only gain optional fields and variants, the values read are those written, carried over.", "quantifier": "all numbers of versions and their registrations, all sequences of upgrades and rollbacks, all journal operations of all actors in all of them", "why_tests_cant": "a test has one version of the program; two versions of a type cannot even have the same name in it", "anchors": ["coerce/src/persistent/journal/types.rs:JournalTypes::message", "coerce/src/persistent/journal/types.rs:JournalTypes::snapshot", "coerce/src/persistent/journal/types.rs:init_journal_types", "coerce/src/persistent/journal/mod.rs:Journal::recover_messages", "coerce/src/persistent/journal/mod.rs:Journal::recover_snapshot", "coerce/src/persistent/recovery.rs:ActorRecovery"]}
{"id": "C91", "title": "A version that cannot read what is stored does not start the actor without it", "statement": "When the running version does not register the identifier of a stored message or snapshot, or registers it for a type that is not its successor, the actor is not started with a part of its state.", "quantifier": "all versions, all histories", "why_tests_cant": "needs two versions of the program and the storage of the first", "anchors": ["coerce/src/persistent/journal/types.rs:JournalTypes::message", "coerce/src/persistent/journal/types.rs:JournalTypes::snapshot", "coerce/src/persistent/journal/types.rs:init_journal_types", "coerce/src/persistent/journal/mod.rs:Journal::recover_messages", "coerce/src/persistent/journal/mod.rs:Journal::recover_snapshot", "coerce/src/persistent/recovery.rs:ActorRecovery"]}
{"id": "C92", "title": "A rollback loses nothing", "statement": "When the program is rolled back to a version that does not know all messages stored, and later brought forward again, every message acknowledged by either version is replayed.", "quantifier": "all pairs of versions, all histories before the rollback and while the older version runs", "why_tests_cant": "needs two versions of the program", "anchors": ["coerce/src/persistent/journal/types.rs:JournalTypes::message", "coerce/src/persistent/journal/types.rs:JournalTypes::snapshot", "coerce/src/persistent/journal/types.rs:init_journal_types", "coerce/src/persistent/journal/mod.rs:Journal::recover_messages", "coerce/src/persistent/journal/mod.rs:Journal::recover_snapshot", "coerce/src/persistent/recovery.rs:ActorRecovery"]}
{"id": "C93", "title": "Kubernetes discovery returns the addresses of the listed pods", "statement": "Whatever pods the API server lists, discovery returns, with no crash, exactly the addresses of those that have one: the IP or the host name and the first port with the configured name of each container; a failed listing is told apart from an empty one.", "quantifier": "all configurations, all lists of pods with any of their fields missing, all answers of the API server", "why_tests_cant": "needs a Kubernetes cluster; pods with missing fields appear only while it changes", "anchors": ["providers/discovery/coerce-k8s/src/lib.rs:KubernetesDiscovery::discover", "providers/discovery/coerce-k8s/src/config.rs:KubernetesDiscoveryConfig"]}
{"id": "C94", "title": "Pods of one workload get distinct node ids", "statement": "Two pods of one workload that run at the same time take different node ids and tags.", "quantifier": "all environments and names of pods", "why_tests_cant": "needs many pods with generated names", "anchors": ["providers/discovery/coerce-k8s/src/lib.rs:KubernetesDiscovery::discover", "providers/discovery/coerce-k8s/src/config.rs:KubernetesDiscoveryConfig", "examples/coerce-sharded-chat-example/src/app.rs:get_node_info"]}
{"id": "C95", "title": "The pods of a workload form one cluster", "statement": "Nodes that are started in pods of one workload, each with the seed that discovery gave it, become one cluster: when all handshakes have been handled every node knows every other, also after pods have been started again.", "quantifier": "all numbers of pods, all lists each of them was given at its start, all orders of starts, seeds and handshakes", "why_tests_cant": "needs many machines and the timing of their starts", "anchors": ["providers/discovery/coerce-k8s/src/lib.rs:KubernetesDiscovery::discover", "providers/discovery/coerce-k8s/src/config.rs:KubernetesDiscoveryConfig", "examples/coerce-sharded-chat-example/src/app.rs:get_node_info", "coerce/src/remote/cluster/builder/worker.rs:ClusterWorkerBuilder::start", "coerce/src/remote/cluster/discovery/mod.rs:Discover"]}
{"id": "C96", "title": "Actors that wait only downwards never wait for ever", "statement": "If handlers and start hooks of some actors wait (send, stop, new actor) only for actors that come later in a fixed order, then every wait for one of them ends and every message to one of them is taken, whatever all other actors and tasks do; and where actors can wait in a circle, they can come to wait for ever, and nothing that happens elsewhere ends it.", "quantifier": "all programs of actors (any sets of scripts of sends, notifications, starts, spawned tasks, delegated answers, panics), all orders, all fair schedules without end", "why_tests_cant": "deadlock and progress are about schedules without end and all programs", "anchors": ["coerce/src/actor/lifecycle.rs:ActorLoop::run", "coerce/src/actor/refs/mod.rs:LocalActorRef::send", "coerce/src/actor/system/mod.rs:ActorSystem::new_actor", "coerce/src/actor/supervised.rs:Supervised::spawn"]}
{"id": "C97", "title": "The services of a node always answer", "statement": "Calls to the scheduler, the mediator, the registry, the clients, discovery and heartbeat (register an actor, look one up, publish, subscribe, get the nodes, write to a node, discover, health) end, whatever the actors of the program, the connections and the other nodes do; and so does the shutdown of the system.", "quantifier": "all behaviours of user actors, clients, sessions and the network, including panics, all fair schedules", "why_tests_cant": "needs stuck actors and silent peers in every combination", "anchors": ["coerce/src/actor/scheduler/mod.rs:ActorScheduler", "coerce/src/remote/stream/mediator/mod.rs:StreamMediator", "coerce/src/remote/actor/registry.rs:RemoteRegistry", "coerce/src/remote/actor/clients.rs:RemoteClientRegistry", "coerce/src/remote/cluster/discovery/mod.rs:NodeDiscovery", "coerce/src/remote/heartbeat/mod.rs:Heartbeat", "coerce/src/remote/heartbeat/health.rs:GetHealth", "coerce/src/remote/net/client/connect.rs:Connect"]}
{"id": "C98", "title": "Stuck entities do not stop sharding or singletons", "statement": "Shard hosts, shards, coordinators, singleton managers and proxies get to each of their messages and calls to them end, however long entities and singletons take to start, to answer or to stop; the starts of shards, coordinators and managers end.", "quantifier": "all behaviours of entities, singletons and the network, all fair schedules", "why_tests_cant": "needs entities that never start, answer or stop at every point of an allocation", "anchors": ["coerce/src/sharding/host/mod.rs:ShardHost", "coerce/src/sharding/shard/mod.rs:Shard", "coerce/src/sharding/coordinator/mod.rs:ShardCoordinator", "coerce/src/singleton/manager/mod.rs:Manager", "coerce/src/singleton/proxy/mod.rs:Proxy"]}
{"id": "C99", "title": "The list of nodes over HTTP is complete, ordered and names its leader", "statement": "GET /cluster/nodes lists every node known to the registry exactly once, with what is known of it, in ascending order of ids and whatever the order of the table; if the answer names a leader, it gives the tag of that node, even if nodes register and heartbeats are made while the answer is put together.", "quantifier": "all histories of registrations, pings and heartbeats, all iteration orders, all interleavings of the two readings", "why_tests_cant": "iteration orders are random and the leader and the nodes are read at different moments", "anchors": ["coerce/src/remote/api/cluster/mod.rs:get_nodes", "coerce/src/remote/system/cluster.rs:current_leader", "coerce/src/remote/heartbeat/mod.rs:Heartbeat"]}
{"id": "C100", "title": "The list of actors over HTTP follows the query", "statement": "GET /actors/all is answered with the options the query asks for, whatever way it is written (order, escapes, other parameters, empty parts), and refused if they make no sense; the answer keeps to the limits on depth and children, shows only actors that exist, each once, under their own paths, and shows them all if there are no limits and all answer in time. A time limit for descriptions can be given.", "quantifier": "all queries, all ways to write them, all actor trees and reactions", "why_tests_cant": "queries, spellings and trees are unbounded", "anchors": ["coerce/src/remote/api/system/actors.rs:GetAll", "coerce/src/remote/api/system/actors.rs:get_all", "coerce/src/actor/describe/mod.rs:DescribeAll"]}
{"id": "C101", "title": "A started HTTP api answers", "statement": "When start of the HTTP api has returned, each of its routes is answered at its address until it is stopped; afterwards it is not.", "quantifier": "all sets of routes, addresses, and orders of starts, stops and tasks of any number of servers", "why_tests_cant": "needs all orders of tasks and all sets of routes", "anchors": ["coerce/src/remote/api/builder.rs:HttpApiBuilder::start", "coerce/src/remote/api/mod.rs:RemoteHttpApi"]}
{"id": "C102", "title": "A stream attached to an actor is fed to it", "statement": "The actor handles the elements of a stream that is attached to it, converted, each once and in their order; after the last one it stops, and it handles all of them first. The actor learns whether the stream failed, streams attached to the same actor do not disturb each other, and a stream is let go when its actor has stopped.", "quantifier": "all streams, finite or not, with errors anywhere, any number of them on one actor, any other callers, all interleavings, all handlers", "why_tests_cant": "interleavings of the reading tasks, the actor and its callers are unbounded", "anchors": ["coerce/src/actor/context.rs:attach_stream", "coerce/src/actor/context.rs:StreamAttachmentOptions"]}
{"id": "C103", "title": "A blocking call is a call", "statement": "What a blocking call returns is what the awaited one would: the answer to this very request, made by the handler after all that was accepted before it; the calls of a thread take effect in the order in which it makes them, and each returns. It makes no difference which of the calls of a program block; a call that fails has no effect, and an actor whose creation fails is not there.", "quantifier": "all programs of any number of threads, in async code or not, all interleavings with the actor, all handlers", "why_tests_cant": "interleavings of threads and the actor are unbounded", "anchors": ["coerce/src/actor/blocking.rs:new_actor_blocking", "coerce/src/actor/blocking.rs:send_blocking", "coerce/src/actor/blocking.rs:stop_blocking", "coerce/src/actor/blocking.rs:exec_blocking"]}
{"id": "C104", "title": "The path of an actor tells where it is", "statement": "The path of an actor is that of its parent followed by its own id, up to the name of the system; it never changes. Different actors that are running have different paths, and the path of an actor tells who its ancestors are.", "quantifier": "all histories of starting, spawning, adding and attaching actors, and of their ends; all ids", "why_tests_cant": "histories and trees are unbounded", "anchors": ["coerce/src/actor/context.rs:ActorContext::new", "coerce/src/actor/context.rs:spawn", "coerce/src/actor/context.rs:attach_child_ref", "coerce/src/actor/context.rs:add_child_ref", "coerce/src/actor/system/mod.rs:new_supervised_actor", "coerce/src/actor/supervised.rs:Supervised::spawn"]}
{"id": "C105", "title": "JSON from other programs is read as the value it describes", "statement": "A JSON message, result or snapshot that was not written by this code is read as the value it describes: however it is laid out, whichever characters are escaped and how, in whatever order the fields of a struct come, with members the type does not know, with empty options left out. Text that is not JSON is refused, no text means two values, and what this code writes is such a text.", "quantifier": "all types with derived Serialize and Deserialize (as in C83), all values, all JSON texts that describe them; integers only, no fractions or exponents", "why_tests_cant": "the ways to write a value are unbounded: space, escapes in both cases of hex digits and surrogate pairs, orders of fields; tests only read what the code itself wrote", "anchors": ["coerce/macros/src/message/json.rs:from_bytes", "coerce/macros/src/message/json.rs:read_remote_result", "coerce/macros/src/snapshot/json.rs:from_remote_envelope"]}
{"id": "C106", "title": "Requests for the identity of a node and for a handshake are answered once and truthfully", "statement": "Each request for the identity of the node at an address is answered at most once: with the node the client has a connection to at that moment, or with none when an attempt to connect has just failed; no request is left while the client is connected. Each request for a handshake is answered at most once, and only when a handshake was written and acknowledged on the connection the client has then; a handshake that is lost with its connection is repeated on the next one.", "quantifier": "every sequence of requests, connections, failed attempts, lost connections, writes and acknowledgements, including those of earlier connections", "why_tests_cant": "depends on which connection an acknowledgement belongs to and on what happens between a request and its answer", "anchors": ["coerce/src/remote/net/client/mod.rs:Identify", "coerce/src/remote/net/client/connect.rs:Handler<BeginHandshake>", "coerce/src/remote/net/client/connect.rs:Handler<HandshakeAcknowledge>", "coerce/src/remote/net/client/connect.rs:Handler<Connect>"]}
