(** Byte encodings of sharding messages (coerce/src/protocol/sharding.proto, generated
    sharding/proto/sharding.rs), singleton messages (coerce/src/protocol/singleton.proto,
    generated singleton/proto/singleton.rs) and journal entries
    (coerce/src/protocol/persistent/journal.proto). *)
From Coq Require Import Ascii.
From Verif Require Export Wire_Model Journal_Model.
Local Open Scope N_scope.

(** [Message::from_bytes] and [read_remote_result] built on [parse_from_bytes]: a parse error
    is reported as [DeserializationErr] (a rejection). *)
Definition parse_or_reject {A} (m : mcodec A) (b : bytes) : outcome A :=
  match parse_msg m b with Some a => Done a | None => Rejected end.

(** ** UUIDs (crate uuid, external)

    16 bytes; [to_string] is the hyphenated lower case form. Parsing accepts more forms in the
    crate; only the hyphenated one is modelled, the others count as errors. *)
Definition hex_digit (n : N) : N := if n <? 10 then 48 + n else 87 + n.
Definition unhex_digit (c : N) : option N :=
  if (48 <=? c) && (c <=? 57) then Some (c - 48)
  else if (97 <=? c) && (c <=? 102) then Some (c - 87)
  else if (65 <=? c) && (c <=? 70) then Some (c - 55)
  else None.

Definition hex (b : bytes) : bytes := concat (map (fun x => [hex_digit (x / 16); hex_digit (x mod 16)]) b).
Fixpoint unhex (s : bytes) : option bytes :=
  match s with
  | [] => Some []
  | a :: b :: r =>
      match unhex_digit a, unhex_digit b, unhex r with
      | Some x, Some y, Some l => Some (16 * x + y :: l)
      | _, _, _ => None
      end
  | _ => None
  end.

Definition uuid_to_string (u : bytes) : bytes :=
  hex (take 4 u) ++ [45] ++ hex (take 2 (drop 4 u)) ++ [45] ++ hex (take 2 (drop 6 u)) ++ [45]
  ++ hex (take 2 (drop 8 u)) ++ [45] ++ hex (drop 10 u).

Definition uuid_parse (s : bytes) : option bytes :=
  match (length s =? 36)%nat, s !! 8%nat, s !! 13%nat, s !! 18%nat, s !! 23%nat with
  | true, Some 45, Some 45, Some 45, Some 45 =>
      unhex (take 8 s ++ take 4 (drop 9 s) ++ take 4 (drop 14 s) ++ take 4 (drop 19 s) ++ drop 24 s)
  | _, _, _, _, _ => None
  end.

(** ** Sharding: messages of sharding.proto *)

(** sharding.proto:5-9, sharding.rs:73 *)
Record allocate_shard := AllocateShard { as_shard : N; as_rebalancing : bool }.
Definition allocate_shard_codec : mcodec allocate_shard :=
  as_struct (fun r => (as_shard r, (as_rebalancing r, tt))) (fun '(a, (b, _)) => AllocateShard a b)
    (1 @: u32f +: 2 @: boolf +: no_fields).

(** sharding.proto:11-15, sharding.rs:213 *)
Record remote_shard := RemoteShard { rs_shard : N; rs_node : N }.
Definition remote_shard_codec : mcodec remote_shard :=
  as_struct (fun r => (rs_shard r, (rs_node r, tt))) (fun '(a, (b, _)) => RemoteShard a b)
    (1 @: u32f +: 2 @: u64f +: no_fields).

(** sharding.proto:17-19, sharding.rs:346 *)
Definition p_shard_allocated_codec : mcodec (option remote_shard) :=
  as_struct (fun r => (r, tt)) (fun '(a, _) => a) (1 @: subf remote_shard_codec +: no_fields).

(** sharding.proto:21-23, sharding.rs:469 *)
Definition p_shard_reallocating_codec : mcodec N :=
  as_struct (fun r => (r, tt)) (fun '(a, _) => a) (1 @: u32f +: no_fields).

(** sharding.proto:25-31, sharding.rs:605 *)
Record p_stop_shard := PStopShard { pss_shard : N; pss_origin : N; pss_request : bytes }.
Definition p_stop_shard_codec : mcodec p_stop_shard :=
  as_struct (fun r => (pss_shard r, (pss_origin r, (pss_request r, tt))))
    (fun '(a, (b, (c, _))) => PStopShard a b c)
    (1 @: u32f +: 2 @: u64f +: 3 @: stringf +: no_fields).

(** sharding.proto:33-39, sharding.rs:763 *)
Record p_shard_stopped := PShardStopped { psd_shard : N; psd_origin : N; psd_successful : bool }.
Definition p_shard_stopped_codec : mcodec p_shard_stopped :=
  as_struct (fun r => (psd_shard r, (psd_origin r, (psd_successful r, tt))))
    (fun '(a, (b, (c, _))) => PShardStopped a b c)
    (1 @: u32f +: 2 @: u64f +: 3 @: boolf +: no_fields).

(** sharding.proto:41-59, sharding.rs:921 *)
Record p_allocate_result := PAllocateResult { par_type : N; par_shard : option remote_shard; par_err : N }.
Definition p_allocate_result_codec : mcodec p_allocate_result :=
  as_struct (fun r => (par_type r, (par_shard r, (par_err r, tt))))
    (fun '(a, (b, (c, _))) => PAllocateResult a b c)
    (1 @: enumf +: 2 @: subf remote_shard_codec +: 3 @: enumf +: no_fields).

(** sharding.proto:61-77, sharding.rs:1220 *)
Definition p_recipe_codec : mcodec bytes :=
  as_struct (fun r => (r, tt)) (fun '(a, _) => a) (1 @: bytesf +: no_fields).
Record p_entity_request := PEntityRequest {
  per_request : bytes; per_actor : bytes; per_type : bytes; per_message : bytes;
  per_recipe : option bytes; per_origin : N }.
Definition p_entity_request_codec : mcodec p_entity_request :=
  as_struct
    (fun r => (per_request r, (per_actor r, (per_type r, (per_message r, (per_recipe r, (per_origin r, tt)))))))
    (fun '(a, (b, (c, (d, (e, (f, _)))))) => PEntityRequest a b c d e f)
    (1 @: stringf +: 2 @: stringf +: 3 @: stringf +: 4 @: bytesf +: 5 @: subf p_recipe_codec
     +: 6 @: u64f +: no_fields).

(** sharding.proto:85-89, sharding.rs:1530; the actor id is a string, the recipe bytes *)
Record start_entity := StartEntity { se_actor : bytes; se_recipe : bytes }.
Definition start_entity_codec : mcodec start_entity :=
  as_struct (fun r => (se_actor r, (se_recipe r, tt))) (fun '(a, (b, _)) => StartEntity a b)
    (1 @: stringf +: 2 @: bytesf +: no_fields).

(** sharding.proto:91-97 ([PassivateEntity], [RemoveEntity]), sharding.rs:1663 and :1785 *)
Definition entity_id_codec : mcodec bytes :=
  as_struct (fun r => (r, tt)) (fun '(a, _) => a) (1 @: stringf +: no_fields).

(** sharding.proto:99-113, sharding.rs:1921 *)
Record p_entity := PEntity { pen_actor : bytes; pen_recipe : bytes; pen_state : N }.
Definition p_entity_codec : mcodec p_entity :=
  as_struct (fun r => (pen_actor r, (pen_recipe r, (pen_state r, tt))))
    (fun '(a, (b, (c, _))) => PEntity a b c)
    (1 @: stringf +: 2 @: bytesf +: 3 @: enumf +: no_fields).
Record p_snapshot := PSnapshot { psn_shard : N; psn_node : N; psn_entities : list p_entity }.
Definition p_snapshot_codec : mcodec p_snapshot :=
  as_struct (fun r => (psn_shard r, (psn_node r, (psn_entities r, tt))))
    (fun '(a, (b, (c, _))) => PSnapshot a b c)
    (1 @: u32f +: 2 @: u64f +: 3 @: subsf p_entity_codec +: no_fields).

(** sharding.proto:126-132, sharding.rs:2344 *)
Record p_node_stats := PNodeStats { pns_node : N; pns_count : N; pns_status : N }.
Definition p_node_stats_codec : mcodec p_node_stats :=
  as_struct (fun r => (pns_node r, (pns_count r, (pns_status r, tt))))
    (fun '(a, (b, (c, _))) => PNodeStats a b c)
    (1 @: u64f +: 2 @: u64f +: 3 @: enumf +: no_fields).
(** sharding.proto:134-142, sharding.rs:2509 *)
Record p_sharding_stats := PShardingStats {
  pst_entity : bytes; pst_total : N; pst_shards : list remote_shard; pst_nodes : list p_node_stats }.
Definition p_sharding_stats_codec : mcodec p_sharding_stats :=
  as_struct (fun r => (pst_entity r, (pst_total r, (pst_shards r, (pst_nodes r, tt)))))
    (fun '(a, (b, (c, (d, _)))) => PShardingStats a b c d)
    (1 @: stringf +: 2 @: u64f +: 3 @: subsf remote_shard_codec +: 4 @: subsf p_node_stats_codec
     +: no_fields).
(** sharding.proto:148-154, sharding.rs:2783; the entities are a set, in iteration order *)
Record shard_stats := ShardStats { sst_shard : N; sst_node : N; sst_entities : list bytes }.
Definition shard_stats_codec : mcodec shard_stats :=
  as_struct (fun r => (sst_shard r, (sst_node r, (sst_entities r, tt))))
    (fun '(a, (b, (c, _))) => ShardStats a b c)
    (1 @: u32f +: 2 @: u64f +: 3 @: stringsf +: no_fields).

(** ** Sharding: [impl Message] *)

(** sharding/coordinator/allocation.rs:218-239 *)
Definition write_allocate (m : allocate_shard) : bytes := write_msg allocate_shard_codec m.
Definition read_allocate (b : bytes) : outcome allocate_shard := parse_or_reject allocate_shard_codec b.

(** allocation.rs:22-41 *)
Inductive allocate_err := AUnknown | APersistence.
Inductive allocate_result :=
| Allocated (shard node : N)
| AlreadyAllocated (shard node : N)
| NotAllocated
| AllocateErr (e : allocate_err).

(** allocation.rs:271-310 *)
Definition write_allocate_result (r : allocate_result) : bytes :=
  write_msg p_allocate_result_codec
    match r with
    | Allocated s n => PAllocateResult 0 (Some (RemoteShard s n)) 0
    | AlreadyAllocated s n => PAllocateResult 1 (Some (RemoteShard s n)) 0
    | NotAllocated => PAllocateResult 2 None 0
    | AllocateErr APersistence => PAllocateResult 3 None 1
    | AllocateErr AUnknown => PAllocateResult 3 None 0
    end.

(** allocation.rs:241-269 *)
Definition read_allocate_result (b : bytes) : outcome allocate_result :=
  match parse_msg p_allocate_result_codec b with
  | None => Rejected
  | Some r =>
      match par_type r with
      | 0 => omap_out (fun x => Allocated (rs_shard x) (rs_node x)) (unwrap (par_shard r))
      | 1 => omap_out (fun x => AlreadyAllocated (rs_shard x) (rs_node x)) (unwrap (par_shard r))
      | 2 => Done NotAllocated
      | 3 => match par_err r with
             | 1 => Done (AllocateErr APersistence)
             | 0 => Done (AllocateErr AUnknown)
             | _ => Panicked
             end
      | _ => Panicked
      end
  end.

(** sharding/host/mod.rs:381-403: [ShardAllocated(shard, node)] *)
Definition write_shard_allocated (s n : N) : bytes :=
  write_msg p_shard_allocated_codec (Some (RemoteShard s n)).
Definition read_shard_allocated (b : bytes) : outcome (N * N) :=
  obind (parse_or_reject p_shard_allocated_codec b)
        (fun r => omap_out (fun x => (rs_shard x, rs_node x)) (unwrap r)).

(** host/mod.rs:416-429: written as [ShardReallocating], read as [StopShard] *)
Definition write_shard_reallocating (s : N) : bytes := write_msg p_shard_reallocating_codec s.
Definition read_shard_reallocating (b : bytes) : outcome N :=
  omap_out pss_shard (parse_or_reject p_stop_shard_codec b).

(** host/mod.rs:443-463: [StopShard { shard_id, request_id, origin_node_id }]; the request id
    is a UUID and its parse is unwrapped *)
Record stop_shard := StopShard { ss_shard : N; ss_request : bytes; ss_origin : N }.
Definition write_stop_shard (m : stop_shard) : bytes :=
  write_msg p_stop_shard_codec (PStopShard (ss_shard m) (ss_origin m) (uuid_to_string (ss_request m))).
Definition read_stop_shard (b : bytes) : outcome stop_shard :=
  obind (parse_or_reject p_stop_shard_codec b)
        (fun r => omap_out (fun u => StopShard (pss_shard r) u (pss_origin r))
                           (unwrap (uuid_parse (pss_request r)))).

(** host/mod.rs:476-493: the field [origin_node_id] of the protobuf message is not set *)
Record shard_stopped := ShardStopped { sd_shard : N; sd_successfully : bool }.
Definition write_shard_stopped (m : shard_stopped) : bytes :=
  write_msg p_shard_stopped_codec (PShardStopped (sd_shard m) 0 (sd_successfully m)).
Definition read_shard_stopped (b : bytes) : outcome shard_stopped :=
  omap_out (fun r => ShardStopped (psd_shard r) (psd_successful r)) (parse_or_reject p_shard_stopped_codec b).

(** sharding/host/request.rs:202-241 *)
Record entity_request := EntityRequest {
  er_request : bytes; er_actor : bytes; er_type : bytes; er_message : bytes;
  er_recipe : option bytes; er_origin : N }.
Definition write_entity_request (m : entity_request) : bytes :=
  write_msg p_entity_request_codec
    (PEntityRequest (uuid_to_string (er_request m)) (er_actor m) (er_type m) (er_message m)
                    (er_recipe m) (er_origin m)).
Definition read_entity_request (b : bytes) : outcome entity_request :=
  obind (parse_or_reject p_entity_request_codec b)
        (fun r => omap_out (fun u => EntityRequest u (per_actor r) (per_type r) (per_message r)
                                                   (per_recipe r) (per_origin r))
                           (unwrap (uuid_parse (per_request r)))).

(** sharding/shard/message.rs:34-51, :65-80, :94-109 *)
Definition write_start_entity (m : start_entity) : bytes := write_msg start_entity_codec m.
Definition read_start_entity (b : bytes) : outcome start_entity := parse_or_reject start_entity_codec b.
Definition write_remove_entity (actor : bytes) : bytes := write_msg entity_id_codec actor.
Definition read_remove_entity (b : bytes) : outcome bytes := parse_or_reject entity_id_codec b.
Definition write_passivate_entity (actor : bytes) : bytes := write_msg entity_id_codec actor.
Definition read_passivate_entity (b : bytes) : outcome bytes := parse_or_reject entity_id_codec b.

(** shard/mod.rs:77-82: the state of an entity, without the buffered requests and the actor *)
Inductive entity_state := EIdle | EStarting | EActive | EPassivated.
Record entity := MkEntity { en_actor : bytes; en_recipe : bytes; en_state : entity_state }.
(** shard/recovery.rs:17-21; [last_request] is not modelled *)
Record shard_snapshot := ShardSnapshot { sn_shard : N; sn_node : N; sn_entities : list entity }.

(** shard/recovery.rs:98-125 *)
Definition entity_state_code (s : entity_state) : N :=
  match s with EActive | EIdle | EStarting => 0 | EPassivated => 2 end.
Definition write_shard_snapshot (s : shard_snapshot) : bytes :=
  write_msg p_snapshot_codec
    (PSnapshot (sn_shard s) (sn_node s)
       (map (fun e => PEntity (en_actor e) (en_recipe e) (entity_state_code (en_state e))) (sn_entities s))).

(** shard/recovery.rs:127-154 *)
Definition entity_of_proto (e : p_entity) : outcome entity :=
  match pen_state e with
  | 0 | 1 => Done (MkEntity (pen_actor e) (pen_recipe e) EIdle)
  | 2 => Done (MkEntity (pen_actor e) (pen_recipe e) EPassivated)
  | _ => Panicked
  end.
Fixpoint all_done {A B} (f : A -> outcome B) (l : list A) : outcome (list B) :=
  match l with
  | [] => Done []
  | x :: l' => obind (f x) (fun y => omap_out (cons y) (all_done f l'))
  end.
Definition read_shard_snapshot (b : bytes) : outcome shard_snapshot :=
  obind (parse_or_reject p_snapshot_codec b)
        (fun s => omap_out (ShardSnapshot (psn_shard s) (psn_node s)) (all_done entity_of_proto (psn_entities s))).

(** sharding/coordinator/stats.rs:54-66: the request has no content *)
Definition write_get_sharding_stats : bytes := write_msg no_fields tt.
Definition read_get_sharding_stats (b : bytes) : outcome unit := parse_or_reject no_fields b.

(** stats.rs:128-148 *)
Inductive host_status := HUnknown | HStarting | HReady | HUnavailable.
Definition host_status_code (s : host_status) : N :=
  match s with HUnknown => 0 | HStarting => 1 | HReady => 2 | HUnavailable => 3 end.
Definition host_status_of_code (n : N) : outcome host_status :=
  match n with 0 => Done HUnknown | 1 => Done HStarting | 2 => Done HReady | 3 => Done HUnavailable
             | _ => Panicked end.

Record node_stats := NodeStats { ns_node : N; ns_count : N; ns_status : host_status }.
Record sharding_stats := ShardingStats {
  st_entity : bytes; st_total : N; st_shards : list remote_shard; st_nodes : list node_stats }.
(** stats.rs:98-125 *)
Definition write_sharding_stats (s : sharding_stats) : bytes :=
  write_msg p_sharding_stats_codec
    (PShardingStats (st_entity s) (st_total s) (st_shards s)
       (map (fun n => PNodeStats (ns_node n) (ns_count n) (host_status_code (ns_status n))) (st_nodes s))).
(** stats.rs:68-96 *)
Definition node_stats_of_proto (n : p_node_stats) : outcome node_stats :=
  omap_out (NodeStats (pns_node n) (pns_count n)) (host_status_of_code (pns_status n)).
Definition read_sharding_stats (b : bytes) : outcome sharding_stats :=
  obind (parse_or_reject p_sharding_stats_codec b)
        (fun s => omap_out (ShardingStats (pst_entity s) (pst_total s) (pst_shards s))
                           (all_done node_stats_of_proto (pst_nodes s))).

(** sharding/shard/stats.rs:39-71 *)
Definition write_get_shard_stats : bytes := write_msg no_fields tt.
Definition read_get_shard_stats (b : bytes) : outcome unit := Done tt.
Definition write_shard_stats (s : shard_stats) : bytes := write_msg shard_stats_codec s.
Definition read_shard_stats (b : bytes) : outcome shard_stats := parse_or_reject shard_stats_codec b.

(** ** Singletons *)

(** singleton.proto:5-7, :21-43 ([GetStatus], [RequestLease], [LeaseAck], [SingletonStarted],
    [SingletonStopped]: one field [source_node_id]) *)
Definition source_codec : mcodec N :=
  as_struct (fun r => (r, tt)) (fun '(a, _) => a) (1 @: u64f +: no_fields).

(** The messages between managers: singleton/manager/lease.rs:17-72,
    singleton/manager/mod.rs:432-482, singleton/manager/status.rs:47-71. The kind of a message
    is the handler it is sent to, not part of its bytes. *)
Inductive singleton_kind := KRequestLease | KLeaseAck | KStarted | KStopped | KGetStatus.

Definition write_singleton (k : singleton_kind) (source : N) : bytes := write_msg source_codec source.
(** [GetStatus] does not define [from_bytes]; the default of the trait
    (actor/message/mod.rs:82-84) refuses. *)
Definition read_singleton (k : singleton_kind) (b : bytes) : outcome N :=
  match k with KGetStatus => Rejected | _ => parse_or_reject source_codec b end.

(** singleton/manager/status.rs:19-25, :73-95 *)
Inductive singleton_state := SJoining | SIdle | SStarting | SRunning | SStopping.
Definition singleton_state_code (s : singleton_state) : N :=
  match s with SJoining => 0 | SIdle => 1 | SStarting => 2 | SRunning => 3 | SStopping => 4 end.
(** singleton.proto:9-11 *)
Definition p_status_codec : mcodec N :=
  as_struct (fun r => (r, tt)) (fun '(a, _) => a) (1 @: enumf +: no_fields).
(** status.rs:64-70 and :58-62 *)
Definition write_status (s : singleton_state) : bytes := write_msg p_status_codec (singleton_state_code s).
Definition read_status (b : bytes) : outcome singleton_state :=
  obind (parse_or_reject p_status_codec b)
        (fun n => match n with
                  | 0 => Done SJoining | 1 => Done SIdle | 2 => Done SStarting | 3 => Done SRunning
                  | 4 => Done SStopping | _ => Panicked
                  end).

(** ** Journal entries *)

(** The bytes of a Rust [str]. *)
Fixpoint bytes_of_string (s : string) : bytes :=
  match s with
  | EmptyString => []
  | String a s' => N_of_ascii a :: bytes_of_string s'
  end.
Fixpoint string_of_bytes (b : bytes) : string :=
  match b with
  | [] => EmptyString
  | x :: b' => String (ascii_of_N x) (string_of_bytes b')
  end.

(** journal.proto:5-11, persistent/journal/proto/journal.rs:80 *)
Definition journal_entry_codec : mcodec entry :=
  as_struct (fun e => (e_seq e, (bytes_of_string (e_type e), (e_bytes e, tt))))
    (fun '(a, (b, (c, _))) => Entry a (string_of_bytes b) c)
    (1 @: i64f +: 2 @: stringf +: 3 @: bytesf +: no_fields).

(** persistent/journal/storage.rs:78-92 *)
Definition write_entry (e : entry) : option bytes := Some (write_msg journal_entry_codec e).
(** persistent/journal/storage.rs:59-76 *)
Definition read_entry (b : bytes) : option entry := parse_msg journal_entry_codec b.
