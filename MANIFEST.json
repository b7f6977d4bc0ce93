{
 "claims": [
  {
   "property": "C01",
   "status": "proved",
   "theorems": [
    "C01_replay_all_acknowledged"
   ],
   "note": "in-memory journal, all histories without snapshots of the id"
  },
  {
   "property": "C02",
   "status": "partial",
   "theorems": [
    "C02_replay_after_snapshot_refuted",
    "C02_replay_after_snapshot_partial",
    "C02_replay_exact_partial"
   ],
   "note": "false of the code: the first message persisted after a snapshot shares its sequence id and is not replayed; exact characterisation proved for all histories"
  },
  {
   "property": "C03",
   "status": "partial",
   "theorems": [
    "C03_sequence_ids_refuted",
    "C03_sequence_ids_batch_refuted",
    "C03_sequence_ids_nondecreasing_partial",
    "C03_sequence_ids_increasing_partial"
   ],
   "note": "false across restarts and after batches; nondecreasing always, strictly increasing within one incarnation without batches"
  },
  {
   "property": "C04",
   "status": "proved",
   "theorems": [
    "C04_persist_policy"
   ],
   "note": "every storage, policy and failure pattern; covers persist, persist_batch and snapshot"
  },
  {
   "property": "C05",
   "status": "partial",
   "theorems": [
    "C05_clear_old_unobservable",
    "C05_redis_clear_old_refuted"
   ],
   "note": "proved for the in-memory journal; false for redis, where the first message after the snapshot is deleted too (C06_redis_replay_*_partial cover clearing before that message)"
  },
  {
   "property": "C06",
   "status": "partial",
   "theorems": [
    "C06_redis_replay_refuted",
    "C06_redis_order_refuted",
    "C06_redis_replay_set_partial",
    "C06_redis_replay_once_partial",
    "C06_redis_replay_exact_partial"
   ],
   "note": "false of the code after a restart or a batch (sequence ids are reused); proved: the recovered set always, multiplicity for different messages, and the full property when no single persist directly follows a batch or restart since the snapshot"
  },
  {
   "property": "C07",
   "status": "partial",
   "theorems": [
    "C07_range_read_refuted",
    "C07_range_read_partial",
    "C07_read_message",
    "C07_read_message_unique",
    "C07_redis_range_read"
   ],
   "note": "redis: proved; in-memory: range reads of the in-memory store are wrong or panic; the exact answer is proved for all bounds; reading a single id is proved"
  },
  {
   "property": "C08",
   "status": "proved",
   "theorems": [
    "C08_journals_isolated",
    "C08_redis_isolated",
    "C08_redis_keys_distinct"
   ],
   "note": "both journals, all histories; redis keys for all ids and prefixes"
  },
  {
   "property": "C09",
   "status": "proved",
   "theorems": [
    "C09_entry_roundtrip",
    "C09_entry_injective"
   ],
   "note": "all entries whose type name is UTF-8 and whose encoding fits a 32 bit length"
  },
  {
   "property": "C10",
   "status": "proved",
   "theorems": [
    "C10_recovery_precedes_handling",
    "C10_failed_recovery_handles_nothing",
    "C10_failed_recovery_stops",
    "C10_retries_bounded"
   ],
   "note": "all policies, load outcomes, decode outcomes and mailboxes"
  },
  {
   "property": "C11",
   "status": "proved",
   "theorems": [
    "C11_mailbox_order",
    "C11_mailbox_complete"
   ],
   "note": "all runs of an actor under arbitrary interleavings of senders"
  },
  {
   "property": "C12",
   "status": "proved",
   "theorems": [
    "C12_results",
    "C12_one_outcome",
    "C12_everyone_answered",
    "C12_unhandled_gets_error",
    "C12_stopped_refuses"
   ],
   "note": ""
  },
  {
   "property": "C13",
   "status": "proved",
   "theorems": [
    "C13_lifecycle_order",
    "C13_stopped_once",
    "C13_creation_outcome",
    "C13_stop_during_start",
    "C13_stop_completes",
    "C13_stop_answered"
   ],
   "note": "actors whose user code panics end without the stopped hook; all else covered"
  },
  {
   "property": "C14",
   "status": "partial",
   "theorems": [
    "C14_watchers_partial",
    "C14_not_told_early",
    "C14_panic_refuted",
    "C14_shared_id_refuted",
    "C14_queued_watch_refuted"
   ],
   "note": "false of the code for panicking actors, watchers sharing an id and watch requests queued behind the stop; proved otherwise"
  },
  {
   "property": "C15",
   "status": "partial",
   "theorems": [
    "C15_spawn_existing",
    "C15_one_live_child_partial",
    "C15_live_child_known_partial",
    "C15_told_once_partial",
    "C15_children_stopped_partial",
    "C15_all_children_stopped",
    "C15_attached_known",
    "C15_two_live_children_refuted",
    "C15_live_child_forgotten_refuted",
    "C15_attached_refuted",
    "C15_children_first_refuted"
   ],
   "note": "Spawning an existing id is rejected. Uniqueness, knowledge, notification and stopping of children are proved for parents that use only spawn; with attach_child_ref, spawn_deferred or a child that outlives its stop the literal statement fails, and the refutations exhibit the runs."
  },
  {
   "property": "C16",
   "status": "partial",
   "theorems": [
    "C16_lookup_partial",
    "C16_frame",
    "C16_found_has_id",
    "C16_replaced_refuted",
    "C16_stopped_early_refuted",
    "C16_crashed_refuted"
   ],
   "note": "False of the code when the id of a running actor is reused, when an actor stops before its registration is sent, and for panicking actors (witnesses given); proved for all other histories."
  },
  {
   "property": "C17",
   "status": "proved",
   "theorems": [
    "C17_each_message_once",
    "C17_fair",
    "C17_empty_pool"
   ],
   "note": ""
  },
  {
   "property": "C18",
   "status": "partial",
   "theorems": [
    "C18_one_tick_per_period_partial",
    "C18_tick_times",
    "C18_no_early_tick",
    "C18_no_tick_after_stop",
    "C18_no_missing_tick",
    "C18_ends_with_receiver",
    "C18_scheduled_once",
    "C18_scheduled_cancelled",
    "C18_slow_handler_refuted"
   ],
   "note": "One tick per elapsed period holds only for handlers that take no time, since the next period starts when the tick has been handled; the exact times are proved in general."
  },
  {
   "property": "C19",
   "status": "partial",
   "theorems": [
    "C19_limits",
    "C19_follows_tree",
    "C19_complete_partial",
    "C19_unresponsive_refuted"
   ],
   "note": "Limits and structure are proved for all trees; an actor that never answers does affect its parent and siblings two levels below the root, as all levels use the same timeout."
  },
  {
   "property": "C20",
   "status": "partial",
   "theorems": [
    "C20_status",
    "C20_report_partial",
    "C20_registered",
    "C20_report_refuted"
   ],
   "note": "The status and the set of checked actors are proved in full. The report lists every actor with its own time unless two actors share path/id once joined by a slash (possible for different actors: refuted)."
  },
  {
   "property": "C21",
   "status": "proved",
   "theorems": [
    "C21_client_event_roundtrip",
    "C21_session_event_roundtrip",
    "C21_client_event_unambiguous",
    "C21_session_event_unambiguous",
    "C21_written",
    "C21_system_event_roundtrip",
    "C21_attributes",
    "C21_strings",
    "C21_characters"
   ],
   "note": "all client, session and system events with field values in the range of their Rust types"
  },
  {
   "property": "C22",
   "status": "proved",
   "theorems": [
    "C22_remote_error_roundtrip",
    "C22_remote_error_roundtrip_session",
    "C22_errors_distinct"
   ],
   "note": "all errors"
  },
  {
   "property": "C23",
   "status": "partial",
   "theorems": [
    "C23_malformed_refuted",
    "C23_crash_ends_connection",
    "C23_client_outcome_partial",
    "C23_session_outcome_partial",
    "C23_system_outcome_partial",
    "C23_times",
    "C23_receive_loop_partial"
   ],
   "note": "false of the code: some malformed frames make the receive task panic; proved: exactly which frames are rejected, and every other frame is decoded"
  },
  {
   "property": "C24",
   "status": "partial",
   "theorems": [
    "C24_answered_partial",
    "C24_at_most_once",
    "C24_never_another",
    "C24_stray",
    "C24_duplicate",
    "C24_written",
    "C24_written_session",
    "C24_malformed_refuted",
    "C24_deaf"
   ],
   "note": "At most once, never another request, strays and duplicates without effect: proved for all histories. That every answer completes its request is proved for histories without malformed frames; a malformed frame ends the receive loop and the answers after it on that connection are lost."
  },
  {
   "property": "C25",
   "status": "partial",
   "theorems": [
    "C25_no_residue_partial",
    "C25_held_partial",
    "C25_error_refuted",
    "C25_encode_refuted",
    "C25_timeout_refuted",
    "C25_lost_refuted",
    "C25_growth_refuted"
   ],
   "note": "No residue in histories without errors at the responder, ping timeouts or messages that cannot be encoded. False otherwise: every error answered to another node leaves an entry at the responder for ever, as do failed encodings and timed out pings at the requester."
  },
  {
   "property": "C26",
   "status": "partial",
   "theorems": [
    "C26_any_order_refuted",
    "C26_settled_partial",
    "C26_one_by_one_partial",
    "C26_no_duplicates"
   ],
   "note": "False: the session starts a task for each message, and for every order there is a schedule with which the actor gets the messages in that order. Proved: a message whose task is over when another one arrives is not handled after it; in order if each message arrives after the previous ones were answered; nothing twice."
  },
  {
   "property": "C27",
   "status": "partial",
   "theorems": [
    "C27_handed_or_buffered",
    "C27_every_run",
    "C27_in_order_partial",
    "C27_order_refuted",
    "C27_blocked_refuted"
   ],
   "note": "Handed once or still buffered: proved for all runs. Order: proved when every flush after a connection gets through and no message exceeds the limit of the codec; false otherwise (a failed flush leaves the client connected with a buffer that later writes overtake; a message over the limit blocks the buffer for ever)."
  },
  {
   "property": "C28",
   "status": "partial",
   "theorems": [
    "C28_keeps_trying",
    "C28_gives_up_partial",
    "C28_counts_partial",
    "C28_hangs_refuted",
    "C28_handshake_refuted",
    "C28_unnoticed_refuted",
    "C28_stale_refuted",
    "C28_reconnects_refuted"
   ],
   "note": "Proved: a running client that is not connected always has an attempt on its way, and gives up exactly at the bound when reports of lost connections find it connected. False in general: a connection closed before its identity hangs the client, a failed handshake panics it, late reports of old receive loops count as failures, a panicked receive loop goes unnoticed, and a client that gave up may register again."
  },
  {
   "property": "C29",
   "status": "partial",
   "theorems": [
    "C29_orders",
    "C29_agreement_partial",
    "C29_assigned",
    "C29_some",
    "C29_restart_refuted"
   ],
   "note": "Proved: nodes that learned the same node records in any order, without hash collisions, assign every actor to the same node, which is always a known node. False in general: a node that restarted (same id, later start time) leaves its old ring entry behind on nodes that knew it, so views with the same nodes disagree."
  },
  {
   "property": "C30",
   "status": "partial",
   "theorems": [
    "C30_sound",
    "C30_reference",
    "C30_located_partial",
    "C30_two_hops",
    "C30_agree",
    "C30_lookup_ends",
    "C30_join_refuted",
    "C30_leave_refuted",
    "C30_stopped_refuted",
    "C30_early_refuted"
   ],
   "note": "Proved for every history: what is found was started there. With stable membership, nodes that know the same nodes agree on who keeps an entry, and once the registration has arrived every lookup answered in time answers the node, after at most two nodes; lookups end within as many steps as there are nodes even if nodes know different ones. Refuted: entries are not moved when nodes join or leave, are never removed when the actor stops, and a lookup that overtakes a registration (or comes after a lost one) finds nothing."
  },
  {
   "property": "C31",
   "status": "partial",
   "theorems": [
    "C31_reference",
    "C31_error",
    "C31_nothing_made_partial",
    "C31_local_answered_partial",
    "C31_remote_failure_refuted",
    "C31_exists_partial",
    "C31_silent_refuted",
    "C31_failed_start_refuted",
    "C31_twice_refuted",
    "C31_timeout_refuted"
   ],
   "note": "Proved for every history: a reference is to the actor that the deployment made and that started, an error is the matching one, a failed deployment makes nothing (unless its actor fails to start), deployments on the own node are answered within five steps, existing actors are not made again while lookups are answered in time. Refuted: a deployment that fails on another node is never answered (all histories); an actor that fails to start stays registered for ever; concurrent deployments, or a lookup that times out, make the actor twice. An undecodable recipe is reported as unavailable."
  },
  {
   "property": "C32",
   "status": "partial",
   "theorems": [
    "C32_prompt",
    "C32_silent",
    "C32_late",
    "C32_recorded",
    "C32_disconnected",
    "C32_not_pinged",
    "C32_self",
    "C32_timeout_refuted",
    "C32_error_refuted",
    "C32_clock_refuted"
   ],
   "note": "Classification proved for answered, missing and disconnected pings in all histories. False: after a ping timeout the comparison is reversed (recently heard nodes are Terminated, silent ones Unhealthy); one failed ping leads to Terminated at the second heartbeat; a clock set back panics the heartbeat."
  },
  {
   "property": "C33",
   "status": "partial",
   "theorems": [
    "C33_elected_partial",
    "C33_announced",
    "C33_healthy",
    "C33_some",
    "C33_agreement_partial",
    "C33_first_refuted"
   ],
   "note": "Proved for all heartbeats but the first, which elects no one (refuted); who is reported as leader needs an id below 2^63, who is announced does not."
  },
  {
   "property": "C34",
   "status": "partial",
   "theorems": [
    "C34_current_partial",
    "C34_changes_partial",
    "C34_announced_partial",
    "C34_callbacks",
    "C34_callbacks_run",
    "C34_large_refuted",
    "C34_repeated_refuted"
   ],
   "note": "Proved for leaders with ids below 2^63; callbacks for all ids. False for ids from 2^63 on: the leader is reported as none and announced again at every heartbeat."
  },
  {
   "property": "C35",
   "status": "partial",
   "theorems": [
    "C35_once",
    "C35_with_leader",
    "C35_no_minimum",
    "C35_reversed_refuted",
    "C35_alone_refuted",
    "C35_never_refuted",
    "C35_single_refuted"
   ],
   "note": "Published at most once, with a new leader. False: the minimum is compared the wrong way round, so a lone node publishes it whatever the minimum and a large cluster may not publish it; a node built as a cluster of one never publishes it."
  },
  {
   "property": "C36",
   "status": "partial",
   "theorems": [
    "C36_contacted_once",
    "C36_known_answered",
    "C36_removed_once",
    "C36_callbacks_once",
    "C36_ends",
    "C36_goes_on",
    "C36_handshakes",
    "C36_reported_partial",
    "C36_failed_refuted",
    "C36_again_partial",
    "C36_forgotten_partial",
    "C36_forgotten_refuted",
    "C36_alias_refuted",
    "C36_no_client_refuted"
   ],
   "note": "Proved for every history: a known address is contacted at most once until it is forgotten and asking for it is answered without network use; callbacks are answered at most once, and exactly once when the work ends, which it does under every schedule; the seed and every node it reports are found, skipped for a stated reason, or get a handshake whose result is reported. False: after a failed handshake no handshake with the node ever takes place again (all histories); a forgotten node that is still registered is contacted again but never announced; another address of a forgotten node still counts as known; a node for which no client could be had counts as known."
  },
  {
   "property": "C37",
   "status": "partial",
   "theorems": [
    "C37_prefix",
    "C37_all_partial",
    "C37_next_partial",
    "C37_stays_partial",
    "C37_ended",
    "C37_lag_refuted"
   ],
   "note": "Proved for all histories and speeds: what a subscriber got is a prefix of what was published to its topic and key since it subscribed; it gets all of it while it is at most 1024 messages behind. Refuted beyond: a subscriber that falls more than 1024 messages behind never gets a message again."
  },
  {
   "property": "C38",
   "status": "partial",
   "theorems": [
    "C38_members",
    "C38_sent",
    "C38_once",
    "C38_history",
    "C38_order_partial",
    "C38_any_order_refuted",
    "C38_removed_refuted",
    "C38_deaf_refuted"
   ],
   "note": "Proved: sent exactly once to every node the mediator knows and to no other, handled at most once, membership is a prefix of the published events. Refuted: any order is possible at the remote subscriber (a task per publication and per packet), a node whose removal was already published still gets publications, a mediator that lags behind its own system topic stops learning of nodes. In order if the publisher waits."
  },
  {
   "property": "C39",
   "status": "partial",
   "theorems": [
    "C39_authenticated",
    "C39_refused",
    "C39_accepted_partial",
    "C39_expired",
    "C39_lifetime_refuted"
   ],
   "note": "Proved for every run: an effect of a connection is preceded by a first frame with a signed, unexpired token, refused connections have no effect, and valid tokens are accepted up to the last moment. Refuted: with a lifetime beyond what the date library can represent every signed token brings the session store down."
  },
  {
   "property": "C40",
   "status": "partial",
   "theorems": [
    "C40_open_partial",
    "C40_rejected_refuted",
    "C40_silent_refuted",
    "C40_malformed_refuted",
    "C40_admitted_partial"
   ],
   "note": "Open sessions stay open (proved). Refuted: a refused or silent client blocks the session store and the accept loop, a malformed first frame ends the store; no later client is accepted. Proved when all first frames are good: every connected client can be accepted."
  },
  {
   "property": "C41",
   "status": "partial",
   "theorems": [
    "C41_bounded",
    "C41_not_found",
    "C41_found",
    "C41_unknown_type",
    "C41_undecodable",
    "C41_goes_on",
    "C41_registered_found",
    "C41_right_actor_partial",
    "C41_direct",
    "C41_other_system_refuted",
    "C41_stopped_refuted"
   ],
   "note": "Proved for all schedules: at most nine lookups, the outcome in each case, handled at most once, unknown types and undecodable messages never handled. False: with two systems in a process a message may go to the actor of the same id in the other one (cache by id alone); an actor that stopped but is still registered gives a closed-channel error without retry."
  },
  {
   "property": "C42",
   "status": "proved",
   "theorems": [
    "C42_consistent",
    "C42_one_owner",
    "C42_stats"
   ],
   "note": ""
  },
  {
   "property": "C43",
   "status": "proved",
   "theorems": [
    "C43_allocates",
    "C43_already_allocated",
    "C43_no_ready_node",
    "C43_persist_failure"
   ],
   "note": "The message to the owner is issued before the others; its reply is awaited only when the owner is remote."
  },
  {
   "property": "C44",
   "status": "proved",
   "theorems": [
    "C44_failover",
    "C44_nothing_until_back"
   ],
   "note": ""
  },
  {
   "property": "C45",
   "status": "partial",
   "theorems": [
    "C45_only_excess",
    "C45_balanced_partial",
    "C45_balanced_refuted",
    "C45_unavailable_counts_refuted"
   ],
   "note": "Only excess shards of overloaded nodes are moved, in every state. Doing nothing when balanced is false when the shares do not divide evenly or a node is unavailable (fair share rounds down and counts unavailable nodes); proved for exactly even allocations."
  },
  {
   "property": "C46",
   "status": "partial",
   "theorems": [
    "C46_one_node_partial",
    "C46_moved_stopped_partial",
    "C46_ask_during_move_refuted",
    "C46_unavailable_refuted",
    "C46_late_news_refuted"
   ],
   "note": "False of the code (three witnesses: an allocation request while the shard moves, a live node declared unavailable, late news of the previous allocation). Proved, for any number of nodes, shards and steps, for orderly runs that avoid these."
  },
  {
   "property": "C47",
   "status": "partial",
   "theorems": [
    "C47_allocated_again_partial",
    "C47_owner_refuted"
   ],
   "note": "Every recorded shard is allocated again, but owners are not recorded, so the owner may differ (witness)."
  },
  {
   "property": "C48",
   "status": "partial",
   "theorems": [
    "C48_accounted_partial",
    "C48_order_partial",
    "C48_flushed_partial",
    "C48_remote_flushed_partial",
    "C48_independent",
    "C48_dropped_refuted",
    "C48_delivery_order_refuted"
   ],
   "note": "Every request is accounted for in all histories, and independence of shards holds always. Order and completeness are proved while the shard is not stopped or moved during its start; otherwise requests are dropped, and the tasks that deliver requests may overtake each other (witnesses)."
  },
  {
   "property": "C49",
   "status": "partial",
   "theorems": [
    "C49_ready_partial",
    "C49_answer_means_stopped_partial",
    "C49_not_lost_partial",
    "C49_answerable_partial",
    "C49_never_answered_refuted",
    "C49_runs_anyway_refuted",
    "C49_unanswered_refuted"
   ],
   "note": "A stop is answered only if the shard is ready on the host; in every other state it is never answered (proved for all histories), and a shard stopped while it starts runs anyway. For orderly runs of a cluster: an answer means the shard runs nowhere, a stop is not lost while its node lives and can always be completed."
  },
  {
   "property": "C50",
   "status": "partial",
   "theorems": [
    "C50_accounted",
    "C50_order_partial",
    "C50_running_partial",
    "C50_no_recipe",
    "C50_unknown_type",
    "C50_one_actor_partial",
    "C50_recovered_partial",
    "C50_failed_start_refuted",
    "C50_stopped_entity_refuted",
    "C50_restart_race_refuted",
    "C50_started_twice_refuted",
    "C50_not_stored_refuted",
    "C50_snapshot_refuted",
    "C50_delivery_order_refuted"
   ],
   "note": "Accounting and failures hold in all histories; forwarding order and single creation per incarnation; at most one live actor unless the shard is stopped while an entity is created (or StartEntity is sent for a known entity); all recorded entities are started again. False of the code: entities whose creation failed or that stopped are never started again, unrecorded ones neither, delivery tasks may overtake each other."
  },
  {
   "property": "C51",
   "status": "proved",
   "theorems": [
    "C51_same_shard",
    "C51_zero_shards"
   ],
   "note": "The hash is an oracle that is a function of the entity id; the shard count is positive and the same on all nodes (zero shards is a division by zero, shown)."
  },
  {
   "property": "C52",
   "status": "partial",
   "theorems": [
    "C52_sharding_messages_roundtrip",
    "C52_uuid_partial",
    "C52_stop_id_partial",
    "C52_shard_snapshot_refuted",
    "C52_shard_snapshot_partial"
   ],
   "note": "all sharding messages round trip; hyphenated request ids are read as they are spelt; the shard snapshot codec loses the state of entities"
  },
  {
   "property": "C53",
   "status": "partial",
   "theorems": [
    "C53_counted_partial",
    "C53_all_acked_partial",
    "C53_once_partial",
    "C53_asked",
    "C53_told",
    "C53_stranger_refuted",
    "C53_twice_refuted"
   ],
   "note": "Proved: the number of acknowledgements always equals the number of known managers when the singleton is started; they are the same nodes if acknowledgements come from known managers; at most one start per leadership if no manager comes, goes or acknowledges twice. False in general: the acknowledgement of a removed node is counted, and a join, a removal or a duplicate acknowledgement makes the manager start the singleton again."
  },
  {
   "property": "C54",
   "status": "partial",
   "theorems": [
    "C54_partial",
    "C54_stopping_refuted",
    "C54_membership_refuted"
   ],
   "note": "Proved for every interleaving of a cluster with fixed membership in which no node is asked for the lease while its actor is stopping. False in general: a request that reaches a stopping node is granted at once, and nodes that do not know each other or lose sight of each other both start it."
  },
  {
   "property": "C55",
   "status": "partial",
   "theorems": [
    "C55_stops_partial",
    "C55_grants_partial",
    "C55_refuted",
    "C55_mutual_refuted",
    "C55_ends_partial",
    "C55_first_start_partial"
   ],
   "note": "False: the singleton is not a child of its manager, so the manager never learns that it stopped and never grants the lease; proved in general that the requester waits for ever. Two nodes that take up leadership at the same time wait for each other. Proved: the old leader does stop its singleton, it would grant the lease if told, runs without cluster events end, and a lone leader starts the singleton."
  },
  {
   "property": "C56",
   "status": "partial",
   "theorems": [
    "C56_accounted_partial",
    "C56_order_partial",
    "C56_flushed_partial",
    "C56_current",
    "C56_told_true",
    "C56_told_own",
    "C56_told_others",
    "C56_told_everyone_partial",
    "C56_reached",
    "C56_order_refuted",
    "C56_late_stop_refuted",
    "C56_own_late_stop_refuted",
    "C56_removed_refuted",
    "C56_notify_refuted",
    "C56_notify_kept_refuted",
    "C56_own_proxy_refuted"
   ],
   "note": "Proved for requests with a reply: exactly once, nothing lost, in order if the delivery tasks run in order; what a proxy is told of a start is true in every run of a cluster, and reaches everyone if no packet is lost. False: tasks may run out of order; a notification panics the proxy; the proxy of the stopping node is not told; a late word of a stop makes a proxy keep messages although the singleton runs on another node; proxies are not told that the node of the singleton is gone."
  },
  {
   "property": "C57",
   "status": "partial",
   "theorems": [
    "C57_get_status_refuted",
    "C57_singleton_roundtrip_partial"
   ],
   "note": "all singleton messages but GetStatus, which has no decoder"
  },
  {
   "property": "C58",
   "status": "partial",
   "theorems": [
    "C58_others",
    "C58_terminated",
    "C58_updated",
    "C58_added",
    "C58_removed_partial",
    "C58_removed_refuted",
    "C58_unknown_refuted"
   ],
   "note": "Proved: a change of one node never affects the record of another, and updates, terminations and additions have the stated effect on the node itself. False: an update for a node that is not known adds it, and a node registered twice stays on the ring after it was removed."
  },
  {
   "property": "C59",
   "status": "partial",
   "theorems": [
    "C59_routing",
    "C59_one_per_address",
    "C59_distinct",
    "C59_removed_partial",
    "C59_alias_refuted",
    "C59_panic_refuted",
    "C59_two_addresses_refuted"
   ],
   "note": "Proved: routing to the client that last connected to the node, in order; one client per address. Nothing is routed to a removed client if it only ever connected to one node; false otherwise, and a write to a client that has stopped panics the registry."
  },
  {
   "property": "C60",
   "status": "partial",
   "theorems": [
    "C60_full_mesh_partial",
    "C60_only_started",
    "C60_handshakes_end",
    "C60_settles",
    "C60_full_mesh_refuted",
    "C60_no_second_handshake_refuted"
   ],
   "note": "Proved for any number of nodes and every interleaving in which no handshake fails; termination and soundness for all runs. False when a handshake fails: the node knows its seed, the seed does not know the node, and no later discovery by the node repairs it."
  },
  {
   "property": "C61",
   "status": "partial",
   "theorems": [
    "C61_all_stopped_partial",
    "C61_hook_first",
    "C61_returns_partial",
    "C61_deadlock_refuted",
    "C61_lookup_refuted",
    "C61_hook_lookup_refuted",
    "C61_race_refuted",
    "C61_survivors_refuted"
   ],
   "note": "Proved for every interleaving: when shutdown has returned, each tracked actor whose creation had returned and whose id was used once has stopped; shutdown returns (the remaining steps are bounded, and when none is left it has returned) if no handler or hook asks the scheduler anything and no actor is between reading the termination flag and deregistering when it is set. Refuted: in every other state where a registered actor waits for the stopping scheduler, shutdown waits for ever (a lookup in a handler or hook, an actor that stops by itself at that moment); replaced, anonymous and late actors survive."
  },
  {
   "property": "C62",
   "status": "partial",
   "theorems": [
    "C62_once",
    "C62_handled_called",
    "C62_result",
    "C62_not_late",
    "C62_settles_partial",
    "C62_gone_refuted",
    "C62_error_handled_refuted",
    "C62_moved_refuted",
    "C62_failed_start_refuted",
    "C62_unallocated_refuted"
   ],
   "note": "Proved for every history of hosts, shards and nodes: handled and returned at most once; what is handled was called with this entity and message; an Ok result is the one its entity gave; nothing is handled after the return; the steps left are bounded and then every call has returned, waits for an allocation or for the start of its shard, waits for an entity whose creation may have failed, or was lost. Refuted: a lost request or answer, or a shard that is not running where the caller's node believes, leaves the call without return for ever (all histories); so do a failed entity start and a shard nobody allocates; an error does not mean that the message was not handled. The coordinator is replaced by arbitrary messages to the hosts."
  },
  {
   "property": "C63",
   "status": "partial",
   "theorems": [
    "C63_recipients",
    "C63_asked",
    "C63_only_leaders",
    "C63_runs_selected_partial",
    "C63_unselected_leader_refuted",
    "C63_unselected_refuted"
   ],
   "note": "Proved for every history: managers write only to selected nodes and ask all of them, whoever runs the singleton was told that it leads, and as long as one selected node stays in the cluster only selected nodes run it. Refuted: while the leader is not selected the singleton runs nowhere (all histories): its requests are not answered; with no selected node in the cluster any leader starts it, and two nodes run it when leadership moves. [SingletonBuilder] has no method to set the selector, so this concerns managers created directly."
  },
  {
   "property": "C64",
   "status": "partial",
   "theorems": [
    "C64_dispatch",
    "C64_factory",
    "C64_name",
    "C64_same",
    "C64_across",
    "C64_one",
    "C64_messages",
    "C64_messages_all",
    "C64_actors",
    "C64_determined",
    "C64_messages_determined",
    "C64_singletons_partial",
    "C64_shadowed_refuted",
    "C64_alias_refuted",
    "C64_actor_name_refuted",
    "C64_unlisted_refuted",
    "C64_singletons_refuted"
   ],
   "note": "Proved for all registrations and orders of the tables: dispatch goes to the last registration of a name, messages are sent under a name in force for them, nodes with the same registrations agree on types, nodes with different ones never confuse types if no name stands for two, the lists of capabilities are sorted, without repetition and, with one name for each type, complete and determined; singletons of actor types with different names are independent. Refuted for all registrations: a type whose names were all reused cannot be sent; a type with two names is sent under either and one of them is not listed; [actor_name] never finds anything, because handlers are stored under their own type id and looked up by that of the marker; two singletons of one actor type share their names, and the first cannot send."
  },
  {
   "property": "C65",
   "status": "partial",
   "theorems": [
    "C65_once",
    "C65_handled",
    "C65_never",
    "C65_local_error",
    "C65_local",
    "C65_bounded",
    "C65_settled",
    "C65_right",
    "C65_result",
    "C65_error_refuted",
    "C65_lost_refuted",
    "C65_identity_refuted",
    "C65_notify_refuted",
    "C65_confused_refuted"
   ],
   "note": "Proved for every interleaving: a call is handled at most once and returns at most once; through a local reference by that very actor with that very message, and the result is that of its handler; through a remote one by an actor with that id on that node and the type its name stands for there; with agreeing registrations and codecs that undo each other the same message arrives as the same type and the result is that of the handler; three errors mean that nothing was handled; an accepted local notify is handled unless the actor stops; what happens to calls is bounded and in the end each has returned or was lost. Refuted: a send that is lost with a connection never returns (general); an accepted remote notify may never be handled, in any state (general); the other three errors do not mean that nothing was handled (witnesses); after a restart under the same id a remote reference reaches another actor while the local one fails; with names for different types a message is handled as another type and that result is returned. Order inside a mailbox is in C12."
  },
  {
   "property": "C66",
   "status": "partial",
   "theorems": [
    "C66_recovered_tried_partial",
    "C66_acknowledged_found_partial",
    "C66_retried_exact_partial",
    "C66_retried_state_partial",
    "C66_memory_exact_partial",
    "C66_acknowledged_twice_refuted",
    "C66_order_refuted",
    "C66_failed_found_refuted",
    "C66_late_snapshot_refuted",
    "C66_start_race_refuted",
    "C66_memory_snapshot_refuted"
   ],
   "note": "Proved for redis, for every interleaving of incarnations, crashes, lost answers and late writes: a start finds only messages and snapshots that were tried; while an id only stores messages, every acknowledged message is found; behind one writer that repeats an unacknowledged call before any other, a start (also one that overlaps with the writer) finds exactly the acknowledged state, perhaps with the open call. Proved for the in-memory storage: while an id only stores messages, overlapping incarnations leave exactly what was acknowledged, in the order of the answers. Refuted (witnesses), because incarnations count sequence ids on their own, members of a sorted set with the same bytes are one, and a start reads snapshot and messages with two calls: two acknowledged messages may be found as one, or in another order; a message reported as failed is found; a late snapshot of a crashed actor hides acknowledged messages; a start that races with a snapshot and a clearing finds nothing; in memory a snapshot hides what another incarnation stores later. The connection is a set of issued writes that may be performed at any time; redis itself does not fail."
  },
  {
   "property": "C67",
   "status": "proved",
   "theorems": [
    "C67_session_gets_written",
    "C67_client_gets_written",
    "C67_pieces",
    "C67_frames",
    "C67_bounded"
   ],
   "note": "From the events through protobuf, the length-delimited frames, arbitrary pieces of the bytes and back. The framing codec of tokio-util is transcribed from its documentation. What happens to events that are too long is in C27 (client: they block the buffer)."
  },
  {
   "property": "C68",
   "status": "partial",
   "theorems": [
    "C68_report_partial",
    "C68_entities_kept_partial",
    "C68_exact_partial",
    "C68_running",
    "C68_panic_partial",
    "C68_null_partial",
    "C68_progress_partial",
    "C68_host_total_partial",
    "C68_missing_refuted",
    "C68_no_answer_refuted",
    "C68_stopped_refuted",
    "C68_node_lists_refuted",
    "C68_host_twice_refuted"
   ],
   "note": "Proved for every interleaving: an answer has the numbers of the coordinator at one moment of the call; every listed shard was allocated to that node, ran there at a moment of the call and had exactly the listed entities; no shard and no entity is listed twice; what is missing is allocated to the asked node and did not run; shard actors that run through the call list all they had; in a settled cluster the call does not fail and the answer is exact; the call ends once the outstanding answers are there; without an answer there was an error or a shard that did not run. Proved for hosts: the total is the number of known shards if shards report ready only when expected. Refuted: an allocated shard that has not started is left out (asked node), or the whole call gets no answer (another node); stopped entities are listed; the statistics of a node list no shards at all (general); a shard moved while it started counts twice."
  },
  {
   "property": "C69",
   "status": "partial",
   "theorems": [
    "C69_once_partial",
    "C69_all_partial",
    "C69_left_partial",
    "C69_gap_refuted",
    "C69_twice_refuted",
    "C69_order_refuted",
    "C69_after_leaving_refuted",
    "C69_unknown_refuted",
    "C69_silent_refuted",
    "C69_undead_refuted"
   ],
   "note": "Proved for every history: through one subscription no message is shown more often than it was accepted; a member on the node of a room that runs throughout, joined without a message accepted between answer and subscription, is shown the history, the welcome and then every message once and in order; after leaving only what was already waiting is shown. The full property is false of the code: messages accepted between the answer and the subscription are lost, publications between nodes may come twice with the history, in another order or not at all, a message that was not stored is dropped silently, and a frame that cannot be parsed leaves a member that never goes."
  },
  {
   "property": "C70",
   "status": "proved",
   "theorems": [
    "C70_genuine",
    "C70_private",
    "C70_accepted"
   ],
   "note": "For every history. Names are those given at connection; the example does not make them unique, so a name does not identify a client."
  },
  {
   "property": "C71",
   "status": "proved",
   "theorems": [
    "C71_kept",
    "C71_history",
    "C71_complete",
    "C71_order"
   ],
   "note": "For every history, with one running incarnation of a room at a time (overlapping incarnations: C66). C71_order assumes that no two clients have the same name."
  },
  {
   "property": "C72",
   "status": "proved",
   "theorems": [
    "C72_alive",
    "C72_agreement",
    "C72_oldest",
    "C72_stable",
    "C72_view"
   ],
   "note": "For every history before the calm period and every schedule in it, for all ids below 2^63 and dates that the date library can represent. Margins: a ping and its answer, with the time between two pings, fit into the time after which a silent node counts as unhealthy."
  },
  {
   "property": "C73",
   "status": "partial",
   "theorems": [
    "C73_unique_partial",
    "C73_refuted"
   ],
   "note": "Proved for the calm period of C72. False in general: when a connection is lost, two running nodes that know one another take themselves for the leader at the same time (witness)."
  },
  {
   "property": "C74",
   "status": "proved",
   "theorems": [
    "C74_answer",
    "C74_once",
    "C74_error",
    "C74_turns",
    "C74_state",
    "C74_finishes",
    "C74_fails_only"
   ],
   "note": "For every pool, handler and schedule. That a dispatch comes to an end: the own steps of the pool are bounded, and when none is left no caller waits."
  },
  {
   "property": "C75",
   "status": "partial",
   "theorems": [
    "C75_own_worker_partial",
    "C75_dead_refuted",
    "C75_refuted"
   ],
   "note": "False of the code: a worker that has stopped stays in the rotation, so every n-th message fails for good (proved in general, with a witness). Proved: with the pool running, a dispatch fails only if the worker whose turn it is does not run."
  },
  {
   "property": "C76",
   "status": "partial",
   "theorems": [
    "C76_sequential_partial",
    "C76_order_refuted"
   ],
   "note": "False of the code: messages are passed on by tasks of their own, which overtake one another (witness with one worker). Proved: a message dispatched after the answer to another one is handled after it."
  },
  {
   "property": "C77",
   "status": "partial",
   "theorems": [
    "C77_all_know_partial",
    "C77_newcomer_partial",
    "C77_unresolved_refuted",
    "C77_unknown_refuted",
    "C77_failed_refuted",
    "C77_early_refuted"
   ],
   "note": "False of the code: start returns in the same way when the seed is not resolved, cannot be asked, or a handshake fails (witnesses); and even when nothing fails it may return before the seed knows the worker, if the worker was told of the seed by a third one first (witness). Proved when nothing fails: once all starts have returned everyone linked knows everyone, and a worker that was told of nobody before is known to its seed and all nodes found when its own start returns."
  },
  {
   "property": "C78",
   "status": "proved",
   "theorems": [
    "C78_no_deadlock",
    "C78_bounded",
    "C78_returns",
    "C78_stuck_returned",
    "C78_lookups"
   ],
   "note": "From every reachable state and for every order of steps. Time-outs are not needed except for handshakes that were lost."
  },
  {
   "property": "C79",
   "status": "partial",
   "theorems": [
    "C79_kept_partial",
    "C79_genuine",
    "C79_each_refuted",
    "C79_order_refuted",
    "C79_failed_refuted",
    "C79_types_refuted"
   ],
   "note": "False of the code as stated: after a move the first new message takes the sequence id of the last one, so an equal message replaces it and others change places (witnesses with orderly moves and redis); a write reported as failed may be found later; entities of different types with one id share a journal (witnesses). Proved for redis, for all runs of sharding and storage together: a confirmed message is recovered by every later actor of the entity, and only messages sent to an entity with this persistence id are."
  },
  {
   "property": "C80",
   "status": "partial",
   "theorems": [
    "C80_genuine",
    "C80_apart_partial",
    "C80_read_partial",
    "C80_known_partial",
    "C80_overlap_refuted"
   ],
   "note": "False of the code: two nodes may serve one shard at the same time, and the actor on one does not learn of writes on the other (witness). Proved for redis: if the actors of the entity do not overlap, every call made after the confirmation sees the write; without that, the actor that made the write and every actor that starts later do; answers depend only on what was sent to the entity."
  },
  {
   "property": "C81",
   "status": "partial",
   "theorems": [
    "C81_first_refuted",
    "C81_never_refuted",
    "C81_alone_partial"
   ],
   "note": "False of the code: all coordinators have one id and so have their managers; the manager started last on a node replaces the others in the registry. Proved for all runs: a type that is followed by another one on a node with company never gets an instance there and none of its requests from there is handled; if so on every node, never at all. Proved: a type alone in the cluster runs as a singleton (every run is one of the singleton model)."
  },
  {
   "property": "C82",
   "status": "partial",
   "theorems": [
    "C82_mixed_refuted",
    "C82_sent",
    "C82_actor",
    "C82_local_partial",
    "C82_alone_partial",
    "C82_cut_refuted"
   ],
   "note": "False of the code: with types started in different orders a request is handled by the coordinator of another type (witness), and the stop of one instance makes the others on that node unreachable from elsewhere (for all runs). Proved: handled at most as often as sent, by an instance created there; on the own node, or with one type, by an instance of the own type."
  },
  {
   "property": "C83",
   "status": "partial",
   "theorems": [
    "C83_options_refuted",
    "C83_deep_refuted",
    "C83_partial",
    "C83_types_partial",
    "C83_distinct_partial",
    "C83_line",
    "C83_typed",
    "C83_again_partial"
   ],
   "note": "False of the code for options of options (a present empty value is read as absent) and for values nested 128 levels deep (written, not read). Proved for all other types and values; floats are not modelled. serde and serde_json are modelled from their documented behaviour."
  },
  {
   "property": "C84",
   "status": "proved",
   "theorems": [
    "C84_newer",
    "C84_fields",
    "C84_variant_rejected",
    "C84_field_rejected"
   ],
   "note": "For all versions and values the property quantifies over; serde and serde_json are modelled from their documented behaviour, floats and serde attributes are not."
  },
  {
   "property": "C85",
   "status": "partial",
   "theorems": [
    "C85_client",
    "C85_faithful",
    "C85_line",
    "C85_bad_refuted"
   ],
   "note": "Proved for all runs and all bytes: every message is read at every hop as it was written. The last sentence is false of the code: a frame that cannot be parsed makes the reading task panic; the client stays in its rooms and nothing of it is read again (witness, for all continuations)."
  },
  {
   "property": "C86",
   "status": "partial",
   "theorems": [
    "C86_genuine",
    "C86_typed_partial",
    "C86_stops",
    "C86_dropped_refuted"
   ],
   "note": "Origin proved for all runs and bytes. For the client program: lines typed before a room was joined are dropped (witness), \"/join\" without a room panics and \"/spam\" never ends; otherwise the server reads exactly what was typed, for frames below 4 GiB."
  },
  {
   "property": "C87",
   "status": "partial",
   "theorems": [
    "C87_served_partial",
    "C87_peer_refuted",
    "C87_context_refuted",
    "C87_worker_refuted"
   ],
   "note": "Proved for programs that go on with what the builder returned and take no remote handle out of a context. Otherwise false of the code: the builder wraps the system twice, and the remote system that contexts hold has an inner system without a remote one; every actor deployed by another node, and every one deployed through the remote handle of a context, dies when it uses the cluster; a server started that way dies at the first connection."
  },
  {
   "property": "C88",
   "status": "partial",
   "theorems": [
    "C88_same_system",
    "C88_found",
    "C88_found_deployed",
    "C88_terminated",
    "C88_contexts",
    "C88_shutdown_partial",
    "C88_shutdown_refuted"
   ],
   "note": "Proved for all programs except the last clause: through handles that come from the builder the shutdown stops the actors of the node; through the handle it was built over, an actor of the node whose id was given to another actor stays (witness)."
  },
  {
   "property": "C89",
   "status": "partial",
   "theorems": [
    "C89_default",
    "C89_own_refuted",
    "C89_read",
    "C89_private_partial",
    "C89_mixed_refuted"
   ],
   "note": "False of the code: the provider is looked up by the type of the boxed reference, so every persistent actor uses the default provider and the others stay empty. Proved: an actor reads exactly what actors with its id have stored, and only events of its type if the types of persistent actors with the same id agree."
  },
  {
   "property": "C90",
   "status": "proved",
   "theorems": [
    "C90_upgrade",
    "C90_snapshots",
    "C90_values"
   ],
   "note": "For all versions and histories. The values are read under the conditions of C83 and C84."
  },
  {
   "property": "C91",
   "status": "partial",
   "theorems": [
    "C91_message_refuted",
    "C91_snapshot_refuted",
    "C91_reused_refuted",
    "C91_exact_partial",
    "C91_started_partial",
    "C91_snapshot_partial"
   ],
   "note": "False of the code: no start is refused (proved for all histories); messages with an unknown identifier are passed over with a log line, an unknown snapshot is dropped and the messages before it are not replayed either, a reused identifier is read by the new type. What a start gives is proved exactly for all versions and histories."
  },
  {
   "property": "C92",
   "status": "partial",
   "theorems": [
    "C92_back_partial",
    "C92_snapshot_refuted"
   ],
   "note": "Proved as long as no snapshot is taken: what the older version cannot read stays in its place. False with snapshots: the older version passes over what it does not know, and its snapshot makes the loss final (witness)."
  },
  {
   "property": "C93",
   "status": "partial",
   "theorems": [
    "C93_addresses",
    "C93_mode",
    "C93_returns_partial",
    "C93_sidecar_refuted",
    "C93_hostname_refuted",
    "C93_error_refuted"
   ],
   "note": "Whatever is returned is exact, for all lists. False of the code otherwise: it panics on a pod with an address and a container without ports, and with host names on a pod that has none (proved for all lists that have such a pod); an API error gives the empty list. Proved to return for complete pods."
  },
  {
   "property": "C94",
   "status": "partial",
   "theorems": [
    "C94_ordinals",
    "C94_distinct_partial",
    "C94_deployment_refuted"
   ],
   "note": "Proved for StatefulSets (names that end in a number below 2^64). False for other workloads: their pods all get the id of the configuration (witness)."
  },
  {
   "property": "C95",
   "status": "partial",
   "theorems": [
    "C95_one_cluster_partial",
    "C95_only_joined",
    "C95_first_alone_refuted",
    "C95_restart_refuted"
   ],
   "note": "Proved when all nodes find the same first address. False otherwise: a pod that finds itself first seeds itself and, if no other pod finds it first, stays alone in every history (C95_first_alone_refuted, for all); a first pod that is started again with a new address does (witness)."
  },
  {
   "property": "C96",
   "status": "proved",
   "theorems": [
    "C96_answered",
    "C96_begun",
    "C96_taken",
    "C96_exists",
    "C96_deadlock",
    "C96_circle",
    "C96_start_asks_back"
   ],
   "note": "Ranks are given as hypotheses and are met by the services of a node (C97) and by sharding and singletons (C98)."
  },
  {
   "property": "C97",
   "status": "partial",
   "theorems": [
    "C97_answered_partial",
    "C97_taken",
    "C97_health_partial",
    "C97_exists",
    "C97_lookup_refuted",
    "C97_health_refuted",
    "C97_shutdown_refuted",
    "C97_shutdown_for_ever_refuted"
   ],
   "note": "Proved for all messages but the lookup of the node of an actor and the health of the system, while the system is not shut down. False for the lookup (the answer of the other node is awaited without a timeout), for the health if an actor of the program takes part and is stuck, and for shutdown: a client that is just connected again waits for the registry of clients, which waits for its stop."
  },
  {
   "property": "C98",
   "status": "proved",
   "theorems": [
    "C98_answered",
    "C98_taken",
    "C98_started",
    "C97_exists"
   ],
   "note": "Storage is assumed to answer in the end; the system is not shut down."
  },
  {
   "property": "C99",
   "status": "proved",
   "theorems": [
    "C99_nodes",
    "C99_same",
    "C99_leader",
    "C99_leader_self",
    "C99_no_leader"
   ],
   "note": "That the leader named is the one elected is C34 (not for ids from 2^63 on)."
  },
  {
   "property": "C100",
   "status": "partial",
   "theorems": [
    "C100_options_partial",
    "C100_written",
    "C100_depth",
    "C100_children",
    "C100_paths",
    "C100_complete",
    "C100_once_partial",
    "C100_timeout_refuted",
    "C100_once_refuted"
   ],
   "note": "Proved but for the time limit and for actors listed twice. Nobody is listed twice if the trees of the top-level actors do not overlap (C100_once_partial), but a tracked actor attached to another one, as shards are to their host, is listed at the top and below its host by default (C100_once_refuted, for all names). A request that gives child_describe_timeout is refused, whatever its value (C100_timeout_refuted, for all queries); where the option is set in the program it is not used either (C19). The first generation is always shown, also with a depth of 0."
  },
  {
   "property": "C101",
   "status": "partial",
   "theorems": [
    "C101_served_partial",
    "C101_routes_refuted",
    "C101_address_refuted",
    "C101_stopped",
    "C101_one"
   ],
   "note": "Proved once the task of the server has run, if the routes do not overlap and the address is free. False otherwise: start returns before the address is bound, and all the same if the routes overlap or the address is taken; then nobody ever answers."
  },
  {
   "property": "C102",
   "status": "partial",
   "theorems": [
    "C102_order_partial",
    "C102_passed_on",
    "C102_complete_partial",
    "C102_open",
    "C102_failure_refuted",
    "C102_release_refuted",
    "C102_others_refuted"
   ],
   "note": "Order and completeness are proved for all runs. False: an actor cannot tell a failure from the end of a stream, and loses what follows it; the end of one stream stops the actor and loses the elements of its other streams (the option against it is private); a stream is read on when its actor has stopped."
  },
  {
   "property": "C103",
   "status": "partial",
   "theorems": [
    "C103_own_answers",
    "C103_values",
    "C103_order",
    "C103_returns_partial",
    "C103_same_partial",
    "C103_async_refuted",
    "C103_created",
    "C103_orphan_refuted"
   ],
   "note": "Proved for all programs outside of async code. In async code a blocking call panics, but only after its message has been accepted: the actor handles it (C103_async_refuted, for all runs); and an actor whose creation panicked there is started and registered all the same (C103_orphan_refuted)."
  },
  {
   "property": "C104",
   "status": "partial",
   "theorems": [
    "C104_stable",
    "C104_below_partial",
    "C104_lineage_partial",
    "C104_unambiguous_partial",
    "C104_beside_refuted",
    "C104_system_refuted",
    "C104_slash_refuted",
    "C104_unique_refuted"
   ],
   "note": "Proved for actors that spawn or add a child before they attach one. False: once an actor has attached another one first, all children it ever spawns are beside it, not below; a child that the system starts for a parent (an entity of a shard) is a top-level path; ids may have slashes, and may be used twice by anonymous actors."
  },
  {
   "property": "C105",
   "status": "partial",
   "theorems": [
    "C105_partial",
    "C105_only",
    "C105_one_partial",
    "C105_own_partial",
    "C105_deep_refuted"
   ],
   "note": "Proved for all texts with less than 128 levels of arrays and objects; the reader gives up at 128 (C105_deep_refuted). C105_only is about the reader of the model, which reads members that no field takes like the others; serde_json passes over them less strictly."
  },
  {
   "property": "C106",
   "status": "partial",
   "theorems": [
    "C106_identity_once",
    "C106_identity",
    "C106_handshake_once",
    "C106_acknowledged",
    "C106_handshake_partial",
    "C106_stale_refuted",
    "C106_lost_refuted",
    "C106_unconnected_refuted"
   ],
   "note": "Proved for every run: both kinds of requests are answered at most once, identities are those of the connection at hand and none is left while connected. Handshakes are reported truthfully if acknowledgements come on the connection of their handshake. False otherwise: the acknowledgement of an earlier connection counts for the present one, also when that is to another node; a handshake lost with its connection is not written again; a request without a connection is never answered (its caller is told so)."
  }
 ]
}