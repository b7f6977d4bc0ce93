(** The messages of coerce/src/protocol/network.proto and their use on a connection:
    coerce/src/remote/net/message.rs, coerce/src/remote/stream/system.rs. *)
From Verif Require Export Codec_Model.
Local Open Scope N_scope.

(** What a reading function does: a value, a rejection ([None] or [Err]), or a panic
    ([unwrap] on an error). *)
Inductive outcome (A : Type) := Done (a : A) | Rejected | Panicked.
Arguments Done {A}. Arguments Rejected {A}. Arguments Panicked {A}.

Definition omap_out {A B} (f : A -> B) (o : outcome A) : outcome B :=
  match o with Done a => Done (f a) | Rejected => Rejected | Panicked => Panicked end.
Definition obind {A B} (o : outcome A) (f : A -> outcome B) : outcome B :=
  match o with Done a => f a | Rejected => Rejected | Panicked => Panicked end.
(** [x.unwrap()] *)
Definition unwrap {A} (o : option A) : outcome A :=
  match o with Some a => Done a | None => Panicked end.

(** ** Messages (coerce/src/protocol/network.proto; generated: remote/net/proto/network.rs) *)

(** [google.protobuf.Timestamp] (external: well_known_types/timestamp.proto); the nanoseconds
    are an [int32], here non-negative. *)
Record timestamp := Timestamp { ts_seconds : Z; ts_nanos : N }.
Definition timestamp_codec : mcodec timestamp :=
  as_struct (fun t => (ts_seconds t, (ts_nanos t, tt))) (fun '(s, (n, _)) => Timestamp s n)
    (1 @: i64f +: 2 @: enumf +: no_fields).

(** [google.protobuf.UInt64Value] (external: wrappers.proto) *)
Definition uint64_value_codec : mcodec N :=
  as_struct (fun n => (n, tt)) (fun '(n, _) => n) (1 @: u64f +: no_fields).

(** network.proto:8-18, network.rs:94-194 *)
Record p_remote_node := PRemoteNode {
  prn_node_id : N; prn_addr : bytes; prn_started : option timestamp; prn_tag : bytes;
  prn_attributes : list (bytes * bytes) }.
Definition remote_node_codec : mcodec p_remote_node :=
  as_struct
    (fun r => (prn_node_id r, (prn_addr r, (prn_started r, (prn_tag r, (prn_attributes r, tt))))))
    (fun '(a, (b, (c, (d, (e, _))))) => PRemoteNode a b c d e)
    (1 @: u64f +: 2 @: stringf +: 3 @: subf timestamp_codec +: 4 @: stringf +: 5 @: mapf +: no_fields).

(** network.proto:41-47, network.rs:289 *)
Record identify_event := IdentifyEvent { ie_node_id : N; ie_tag : bytes; ie_token : bytes }.
Definition identify_codec : mcodec identify_event :=
  as_struct (fun r => (ie_node_id r, (ie_tag r, (ie_token r, tt))))
    (fun '(a, (b, (c, _))) => IdentifyEvent a b c)
    (1 @: u64f +: 2 @: stringf +: 3 @: stringf +: no_fields).

(** network.proto:69-73, network.rs:719 *)
Record capabilities := Capabilities { cap_actors : list bytes; cap_messages : list bytes }.
Definition capabilities_codec : mcodec capabilities :=
  as_struct (fun r => (cap_actors r, (cap_messages r, tt))) (fun '(a, (b, _)) => Capabilities a b)
    (1 @: stringsf +: 2 @: stringsf +: no_fields).

(** network.proto:49-67, network.rs:489 *)
Record node_identity := NodeIdentity {
  ni_node_id : N; ni_tag : bytes; ni_addr : bytes; ni_app_version : bytes;
  ni_protocol_version : bytes; ni_started : option timestamp; ni_peers : list p_remote_node;
  ni_capabilities : option capabilities; ni_attributes : list (bytes * bytes) }.
Definition node_identity_codec : mcodec node_identity :=
  as_struct
    (fun r => (ni_node_id r, (ni_tag r, (ni_addr r, (ni_app_version r, (ni_protocol_version r,
              (ni_started r, (ni_peers r, (ni_capabilities r, (ni_attributes r, tt))))))))))
    (fun '(a, (b, (c, (d, (e, (f, (g, (h, (i, _))))))))) => NodeIdentity a b c d e f g h i)
    (1 @: u64f +: 2 @: stringf +: 3 @: stringf +: 4 @: stringf +: 5 @: stringf
     +: 6 @: subf timestamp_codec +: 7 @: subsf remote_node_codec +: 8 @: subf capabilities_codec
     +: 9 @: mapf +: no_fields).

(** network.proto:75-85, network.rs:880 *)
Record client_handshake := ClientHandshake {
  ch_node_id : N; ch_nodes : list p_remote_node; ch_tag : bytes; ch_trace : bytes;
  ch_started : option timestamp }.
Definition client_handshake_codec : mcodec client_handshake :=
  as_struct (fun r => (ch_node_id r, (ch_nodes r, (ch_tag r, (ch_trace r, (ch_started r, tt))))))
    (fun '(a, (b, (c, (d, (e, _))))) => ClientHandshake a b c d e)
    (1 @: u64f +: 2 @: subsf remote_node_codec +: 3 @: stringf +: 4 @: stringf
     +: 5 @: subf timestamp_codec +: no_fields).

(** network.proto:87-93, network.rs:1062 *)
Record client_result := ClientResult { cr_message_id : bytes; cr_result : bytes; cr_trace : bytes }.
Definition client_result_codec : mcodec client_result :=
  as_struct (fun r => (cr_message_id r, (cr_result r, (cr_trace r, tt))))
    (fun '(a, (b, (c, _))) => ClientResult a b c)
    (1 @: stringf +: 2 @: bytesf +: 3 @: stringf +: no_fields).

(** network.proto:240-269, network.rs:3592 *)
Record p_actor_ref_err := PActorRefErr {
  pe_type : N; pe_actor_id : bytes; pe_message_type : bytes; pe_actor_type : bytes;
  pe_millis : N; pe_wrap : N; pe_unwrap : N }.
Definition actor_ref_err_codec : mcodec p_actor_ref_err :=
  as_struct
    (fun r => (pe_type r, (pe_actor_id r, (pe_message_type r, (pe_actor_type r, (pe_millis r,
              (pe_wrap r, (pe_unwrap r, tt))))))))
    (fun '(a, (b, (c, (d, (e, (f, (g, _))))))) => PActorRefErr a b c d e f g)
    (1 @: enumf +: 2 @: stringf +: 3 @: stringf +: 4 @: stringf +: 5 @: u64f +: 6 @: enumf
     +: 7 @: enumf +: no_fields).

(** network.proto:95-101, network.rs:1220 *)
Record client_err := ClientErr { ce_message_id : bytes; ce_error : option p_actor_ref_err; ce_trace : bytes }.
Definition client_err_codec : mcodec client_err :=
  as_struct (fun r => (ce_message_id r, (ce_error r, (ce_trace r, tt))))
    (fun '(a, (b, (c, _))) => ClientErr a b c)
    (1 @: stringf +: 2 @: subf actor_ref_err_codec +: 3 @: stringf +: no_fields).

(** network.proto:103-111, network.rs:1386 *)
Record ping_event := PingEvent {
  pi_message_id : bytes; pi_trace : bytes; pi_node_id : N; pi_terminated : bool }.
Definition ping_codec : mcodec ping_event :=
  as_struct (fun r => (pi_message_id r, (pi_trace r, (pi_node_id r, (pi_terminated r, tt)))))
    (fun '(a, (b, (c, (d, _)))) => PingEvent a b c d)
    (1 @: stringf +: 2 @: stringf +: 3 @: u64f +: 4 @: boolf +: no_fields).

(** network.proto:113-117, network.rs:1548 *)
Record pong_event := PongEvent { po_message_id : bytes; po_trace : bytes }.
Definition pong_codec : mcodec pong_event :=
  as_struct (fun r => (po_message_id r, (po_trace r, tt))) (fun '(a, (b, _)) => PongEvent a b)
    (1 @: stringf +: 2 @: stringf +: no_fields).

(** network.proto:119-129, network.rs:1709 *)
Record create_actor := CreateActor {
  ca_message_id : bytes; ca_actor_id : bytes; ca_actor_type : bytes; ca_recipe : bytes;
  ca_trace : bytes }.
Definition create_actor_codec : mcodec create_actor :=
  as_struct
    (fun r => (ca_message_id r, (ca_actor_id r, (ca_actor_type r, (ca_recipe r, (ca_trace r, tt))))))
    (fun '(a, (b, (c, (d, (e, _))))) => CreateActor a b c d e)
    (1 @: stringf +: 2 @: stringf +: 3 @: stringf +: 4 @: bytesf +: 5 @: stringf +: no_fields).

(** network.proto:131-137, network.rs:1889 *)
Record find_actor := FindActor { fa_message_id : bytes; fa_actor_id : bytes; fa_trace : bytes }.
Definition find_actor_codec : mcodec find_actor :=
  as_struct (fun r => (fa_message_id r, (fa_actor_id r, (fa_trace r, tt))))
    (fun '(a, (b, (c, _))) => FindActor a b c)
    (1 @: stringf +: 2 @: stringf +: 3 @: stringf +: no_fields).

(** network.proto:139-145, network.rs:2047 *)
Record actor_address := ActorAddress { aa_actor_id : bytes; aa_node_id : option N; aa_trace : bytes }.
Definition actor_address_codec : mcodec actor_address :=
  as_struct (fun r => (aa_actor_id r, (aa_node_id r, (aa_trace r, tt))))
    (fun '(a, (b, (c, _))) => ActorAddress a b c)
    (1 @: stringf +: 2 @: subf uint64_value_codec +: 3 @: stringf +: no_fields).

(** network.proto:147-161, network.rs:2234 *)
Record message_request := MessageRequest {
  mr_message_id : bytes; mr_handler_type : bytes; mr_actor_id : bytes; mr_message : bytes;
  mr_trace : bytes; mr_requires_response : bool; mr_origin : N }.
Definition message_request_codec : mcodec message_request :=
  as_struct
    (fun r => (mr_message_id r, (mr_handler_type r, (mr_actor_id r, (mr_message r, (mr_trace r,
              (mr_requires_response r, (mr_origin r, tt))))))))
    (fun '(a, (b, (c, (d, (e, (f, (g, _))))))) => MessageRequest a b c d e f g)
    (1 @: stringf +: 2 @: stringf +: 3 @: stringf +: 4 @: bytesf +: 5 @: stringf +: 6 @: boolf
     +: 7 @: u64f +: no_fields).

(** network.proto:163-175, network.rs:2457 *)
Record session_handshake := SessionHandshake {
  sh_node_id : N; sh_nodes : list p_remote_node; sh_token : bytes; sh_tag : bytes;
  sh_client_type : N; sh_trace : bytes }.
Definition session_handshake_codec : mcodec session_handshake :=
  as_struct
    (fun r => (sh_node_id r, (sh_nodes r, (sh_token r, (sh_tag r, (sh_client_type r, (sh_trace r, tt)))))))
    (fun '(a, (b, (c, (d, (e, (f, _)))))) => SessionHandshake a b c d e f)
    (1 @: u64f +: 2 @: subsf remote_node_codec +: 3 @: bytesf +: 4 @: stringf +: 5 @: enumf
     +: 6 @: stringf +: no_fields).

(** network.proto:177-185, network.rs:2656 *)
Record stream_publish := StreamPublish {
  sp_topic : bytes; sp_key : bytes; sp_message : bytes; sp_trace : bytes }.
Definition stream_publish_codec : mcodec stream_publish :=
  as_struct (fun r => (sp_topic r, (sp_key r, (sp_message r, (sp_trace r, tt)))))
    (fun '(a, (b, (c, (d, _)))) => StreamPublish a b c d)
    (1 @: stringf +: 2 @: stringf +: 3 @: bytesf +: 4 @: stringf +: no_fields).

(** network.proto:194-198 and :200-204, network.rs:2818 and :2959 *)
Record node_event := NodeEvent { ne_node : option p_remote_node; ne_trace : bytes }.
Definition node_event_codec : mcodec node_event :=
  as_struct (fun r => (ne_node r, (ne_trace r, tt))) (fun '(a, (b, _)) => NodeEvent a b)
    (1 @: subf remote_node_codec +: 2 @: stringf +: no_fields).

(** network.proto:206-210, network.rs:3100 *)
Record leader_changed := LeaderChanged { lc_node_id : N; lc_trace : bytes }.
Definition leader_changed_codec : mcodec leader_changed :=
  as_struct (fun r => (lc_node_id r, (lc_trace r, tt))) (fun '(a, (b, _)) => LeaderChanged a b)
    (1 @: u64f +: 2 @: stringf +: no_fields).

(** network.proto:212-218, network.rs:3247 *)
Record member_up := MemberUp { mu_leader_id : N; mu_nodes : list p_remote_node; mu_trace : bytes }.
Definition member_up_codec : mcodec member_up :=
  as_struct (fun r => (mu_leader_id r, (mu_nodes r, (mu_trace r, tt))))
    (fun '(a, (b, (c, _))) => MemberUp a b c)
    (1 @: u64f +: 2 @: subsf remote_node_codec +: 3 @: stringf +: no_fields).

(** network.proto:220-226, network.rs:3406 *)
Record raft_request := RaftRequest { ra_message_id : bytes; ra_type : N; ra_payload : bytes }.
Definition raft_codec : mcodec raft_request :=
  as_struct (fun r => (ra_message_id r, (ra_type r, (ra_payload r, tt))))
    (fun '(a, (b, (c, _))) => RaftRequest a b c)
    (1 @: stringf +: 2 @: u32f +: 3 @: bytesf +: no_fields).

(** ** Events on a connection (remote/net/message.rs) *)

(** network.proto:20-34: the first byte of a frame. *)
Definition ev_identify : N := 0.      Definition ev_handshake : N := 1.
Definition ev_result : N := 2.        Definition ev_err : N := 3.
Definition ev_ping : N := 4.          Definition ev_pong : N := 5.
Definition ev_create_actor : N := 6.  Definition ev_find_actor : N := 7.
Definition ev_register_actor : N := 8. Definition ev_notify_actor : N := 9.
Definition ev_stream_publish : N := 10. Definition ev_raft : N := 11.
Definition ev_identity : N := 12.

(** message.rs:15-22 *)
Inductive client_event :=
| CIdentity (e : node_identity)
| CHandshake (e : client_handshake)
| CResult (e : client_result)
| CErr (e : client_err)
| CPing (e : ping_event)
| CPong (e : pong_event).

(** message.rs:25-38 *)
Inductive session_event :=
| SIdentify (e : identify_event)
| SPing (e : ping_event)
| SPong (e : pong_event)
| SHandshake (e : session_handshake)
| SNotifyActor (e : message_request)
| SCreateActor (e : create_actor)
| SRegisterActor (e : actor_address)
| SFindActor (e : find_actor)
| SStreamPublish (e : stream_publish)
| SResult (e : client_result)
| SErr (e : client_err)
| SRaft (e : raft_request).

(** message.rs:159-167. [write_to_bytes] of a generated message does not fail for messages
    that fit in 32 bits. *)
Definition write_event {A} (code : N) (m : mcodec A) (e : A) : option bytes :=
  Some (code :: write_msg m e).

(** message.rs:82-93 *)
Definition write_client_event (e : client_event) : option bytes :=
  match e with
  | CIdentity e => write_event ev_identity node_identity_codec e
  | CHandshake e => write_event ev_handshake client_handshake_codec e
  | CResult e => write_event ev_result client_result_codec e
  | CErr e => write_event ev_err client_err_codec e
  | CPing e => write_event ev_ping ping_codec e
  | CPong e => write_event ev_pong pong_codec e
  end.

(** [M::parse_from_bytes(message).unwrap()] *)
Definition parse_unwrap {A E} (m : mcodec A) (wrap : A -> E) (b : bytes) : outcome E :=
  omap_out wrap (unwrap (parse_msg m b)).

(** message.rs:55-80 *)
Definition read_client_event (data : bytes) : outcome client_event :=
  match data with
  | [] => Rejected
  | code :: b =>
      if code =? ev_identity then parse_unwrap node_identity_codec CIdentity b
      else if code =? ev_handshake then parse_unwrap client_handshake_codec CHandshake b
      else if code =? ev_result then parse_unwrap client_result_codec CResult b
      else if code =? ev_err then parse_unwrap client_err_codec CErr b
      else if code =? ev_ping then parse_unwrap ping_codec CPing b
      else if code =? ev_pong then parse_unwrap pong_codec CPong b
      else Rejected
  end.

(** message.rs:139-156 *)
Definition write_session_event (e : session_event) : option bytes :=
  match e with
  | SHandshake e => write_event ev_handshake session_handshake_codec e
  | SPing e => write_event ev_ping ping_codec e
  | SPong e => write_event ev_pong pong_codec e
  | SRegisterActor e => write_event ev_register_actor actor_address_codec e
  | SNotifyActor e => write_event ev_notify_actor message_request_codec e
  | SFindActor e => write_event ev_find_actor find_actor_codec e
  | SCreateActor e => write_event ev_create_actor create_actor_codec e
  | SStreamPublish e => write_event ev_stream_publish stream_publish_codec e
  | SResult e => write_event ev_result client_result_codec e
  | SIdentify e => write_event ev_identify identify_codec e
  | SErr e => write_event ev_err client_err_codec e
  | SRaft _ => None
  end.

(** message.rs:97-137 *)
Definition read_session_event (data : bytes) : outcome session_event :=
  match data with
  | [] => Rejected
  | code :: b =>
      if code =? ev_identify then parse_unwrap identify_codec SIdentify b
      else if code =? ev_handshake then parse_unwrap session_handshake_codec SHandshake b
      else if code =? ev_ping then parse_unwrap ping_codec SPing b
      else if code =? ev_pong then parse_unwrap pong_codec SPong b
      else if code =? ev_create_actor then parse_unwrap create_actor_codec SCreateActor b
      else if code =? ev_find_actor then parse_unwrap find_actor_codec SFindActor b
      else if code =? ev_notify_actor then parse_unwrap message_request_codec SNotifyActor b
      else if code =? ev_register_actor then parse_unwrap actor_address_codec SRegisterActor b
      else if code =? ev_stream_publish then parse_unwrap stream_publish_codec SStreamPublish b
      else if code =? ev_result then parse_unwrap client_result_codec SResult b
      else if code =? ev_err then parse_unwrap client_err_codec SErr b
      else Rejected
  end.

(** ** Errors (message.rs:188-290, actor/refs/mod.rs:284-303, actor/message/mod.rs) *)

Inductive wrap_err := WNotTransmittable | WSerializationErr | WUnknown.
Inductive unwrap_err := UNotTransmittable | UDeserializationErr | UUnknown.

Inductive actor_ref_err :=
| ActorUnavailable
| NotFound (actor_id : bytes)
| AlreadyExists (actor_id : bytes)
| Serialisation (e : wrap_err)
| Deserialisation (e : unwrap_err)
| Timeout (time_taken_millis : N)
| ActorStartFailed
| InvalidRef
| ResultChannelClosed
| ResultSendFailed
| NotSupported (actor_id message_type actor_type : bytes)
| NotImplemented.

Definition default_err : p_actor_ref_err := PActorRefErr 0 [] [] [] 0 0 0.

(** message.rs:206-210 *)
Definition wrap_code (e : wrap_err) : N :=
  match e with WNotTransmittable => 1 | WSerializationErr => 2 | WUnknown => 0 end.
(** message.rs:216-220 *)
Definition unwrap_code (e : unwrap_err) : N :=
  match e with UNotTransmittable => 1 | UDeserializationErr => 2 | UUnknown => 0 end.

(** message.rs:189-248 *)
Definition err_to_proto (e : actor_ref_err) : p_actor_ref_err :=
  match e with
  | ActorUnavailable => PActorRefErr 0 [] [] [] 0 0 0
  | NotFound id => PActorRefErr 1 id [] [] 0 0 0
  | AlreadyExists id => PActorRefErr 2 id [] [] 0 0 0
  | Serialisation w => PActorRefErr 3 [] [] [] 0 (wrap_code w) 0
  | Deserialisation u => PActorRefErr 4 [] [] [] 0 0 (unwrap_code u)
  | Timeout ms => PActorRefErr 5 [] [] [] ms 0 0
  | ActorStartFailed => PActorRefErr 6 [] [] [] 0 0 0
  | InvalidRef => PActorRefErr 7 [] [] [] 0 0 0
  | ResultChannelClosed => PActorRefErr 8 [] [] [] 0 0 0
  | ResultSendFailed => PActorRefErr 9 [] [] [] 0 0 0
  | NotSupported id mt ty => PActorRefErr 10 id mt ty 0 0 0
  | NotImplemented => PActorRefErr 11 [] [] [] 0 0 0
  end.

(** message.rs:252-289; an unknown enum number panics ([EnumOrUnknown::unwrap]). *)
Definition err_of_proto (p : p_actor_ref_err) : outcome actor_ref_err :=
  match pe_type p with
  | 0 => Done ActorUnavailable
  | 1 => Done (NotFound (pe_actor_id p))
  | 2 => Done (AlreadyExists (pe_actor_id p))
  | 3 => match pe_wrap p with
         | 1 => Done (Serialisation WNotTransmittable)
         | 2 => Done (Serialisation WSerializationErr)
         | 0 => Done (Serialisation WUnknown)
         | _ => Panicked
         end
  | 4 => match pe_unwrap p with
         | 1 => Done (Deserialisation UNotTransmittable)
         | 2 => Done (Deserialisation UDeserializationErr)
         | 0 => Done (Deserialisation UUnknown)
         | _ => Panicked
         end
  | 5 => Done (Timeout (pe_millis p))
  | 6 => Done ActorStartFailed
  | 7 => Done InvalidRef
  | 8 => Done ResultChannelClosed
  | 9 => Done ResultSendFailed
  | 10 => Done (NotSupported (pe_actor_id p) (pe_message_type p) (pe_actor_type p))
  | 11 => Done NotImplemented
  | _ => Panicked
  end.

(** ** Dates (message.rs:169-186) *)

(** [DateTime<Utc>]: seconds since the epoch and nanoseconds of the second (chrono 0.4,
    external; the nanoseconds reach 2*10^9 in a leap second). *)
Record datetime := DateTime { dt_seconds : Z; dt_nanos : N }.
Definition datetime_ok (d : datetime) : Prop :=
  (-8334632851200 <= dt_seconds d <= 8210298412799)%Z /\ dt_nanos d < 2000000000.

Definition datetime_to_timestamp (d : datetime) : timestamp := Timestamp (dt_seconds d) (dt_nanos d).

(** [NaiveDateTime::from_timestamp_opt(seconds, nanos).unwrap()] *)
Definition timestamp_to_datetime (t : timestamp) : outcome datetime :=
  if ((-8334632851200 <=? ts_seconds t) && (ts_seconds t <=? 8210298412799))%Z
     && (ts_nanos t <? 2000000000)
  then Done (DateTime (ts_seconds t) (ts_nanos t)) else Panicked.

(** ** Nodes (remote/cluster/node.rs:190-289) *)

Record remote_node := RemoteNode {
  rn_id : N; rn_addr : bytes; rn_tag : bytes; rn_started : option datetime;
  rn_attributes : list (bytes * bytes) }.

(** node.rs:220-236 (and the same for the reference and the state, :238-269) *)
Definition node_to_proto (n : remote_node) : p_remote_node :=
  PRemoteNode (rn_id n) (rn_addr n) (option_map datetime_to_timestamp (rn_started n)) (rn_tag n)
    (rn_attributes n).

(** node.rs:202-218 *)
Definition node_of_proto (p : p_remote_node) : outcome remote_node :=
  match prn_started p with
  | None => Done (RemoteNode (prn_node_id p) (prn_addr p) (prn_tag p) None (prn_attributes p))
  | Some t => omap_out (fun d => RemoteNode (prn_node_id p) (prn_addr p) (prn_tag p) (Some d)
                                   (prn_attributes p)) (timestamp_to_datetime t)
  end.

(** node.rs:271-289 *)
Definition node_of_identity (p : node_identity) : outcome remote_node :=
  match ni_started p with
  | None => Done (RemoteNode (ni_node_id p) (ni_addr p) (ni_tag p) None (ni_attributes p))
  | Some t => omap_out (fun d => RemoteNode (ni_node_id p) (ni_addr p) (ni_tag p) (Some d)
                                   (ni_attributes p)) (timestamp_to_datetime t)
  end.

(** The conversion of a list of nodes, stopping at the first panic. *)
Fixpoint nodes_of_proto (l : list p_remote_node) : outcome (list remote_node) :=
  match l with
  | [] => Done []
  | p :: l' => obind (node_of_proto p) (fun n => omap_out (cons n) (nodes_of_proto l'))
  end.

(** ** System topic (remote/stream/system.rs) *)

(** system.rs:16-32 *)
Inductive system_event :=
| SysNodeAdded (n : remote_node)
| SysNodeRemoved (n : remote_node)
| SysLeaderChanged (id : N)
| SysMemberUp (leader_id : N) (nodes : list remote_node).

(** network.proto:187-192 *)
Definition sys_new_node : N := 0.       Definition sys_node_removed : N := 1.
Definition sys_leader_changed : N := 2. Definition sys_member_up : N := 3.

(** system.rs:97-155 *)
Definition write_system_event (e : system_event) : option bytes :=
  match e with
  | SysNodeAdded n => write_event sys_new_node node_event_codec (NodeEvent (Some (node_to_proto n)) [])
  | SysNodeRemoved n => write_event sys_node_removed node_event_codec (NodeEvent (Some (node_to_proto n)) [])
  | SysLeaderChanged id => write_event sys_leader_changed leader_changed_codec (LeaderChanged id [])
  | SysMemberUp id ns => write_event sys_member_up member_up_codec (MemberUp id (map node_to_proto ns) [])
  end.

(** [message.node.unwrap()] and [node.into()] (system.rs:42-57) *)
Definition event_node (e : node_event) : outcome remote_node := obind (unwrap (ne_node e)) node_of_proto.

(** system.rs:73-95 with the conversions of system.rs:42-70 *)
Definition read_system_event (data : bytes) : outcome system_event :=
  match data with
  | [] => Rejected
  | code :: b =>
      if code =? sys_node_removed then
        obind (unwrap (parse_msg node_event_codec b)) (fun e => omap_out SysNodeRemoved (event_node e))
      else if code =? sys_new_node then
        obind (unwrap (parse_msg node_event_codec b)) (fun e => omap_out SysNodeAdded (event_node e))
      else if code =? sys_leader_changed then
        obind (unwrap (parse_msg leader_changed_codec b)) (fun e => Done (SysLeaderChanged (lc_node_id e)))
      else if code =? sys_member_up then
        obind (unwrap (parse_msg member_up_codec b))
              (fun e => omap_out (SysMemberUp (mu_leader_id e)) (nodes_of_proto (mu_nodes e)))
      else Rejected
  end.

(** ** The receive loop (remote/net/mod.rs:82-112)

    The frames of a connection (split by [LengthDelimitedCodec], external) end with the end
    of the stream or with an i/o error. The receiver is any state with a step function that
    also says whether the connection should close. *)
Inductive loop_end := Closed | StreamLost | Crashed.

Section ReceiveLoop.
  Context {E S : Type} (read : bytes -> outcome E) (on_receive : S -> E -> S)
          (on_failed : S -> S) (should_close : S -> bool).

  (** [Crashed]: the task panicked, [on_close] is not called. *)
  Fixpoint receive_loop (frames : list bytes) (io_error : bool) (s : S) : S * loop_end :=
    match frames with
    | [] => (s, if io_error then StreamLost else Closed)
    | f :: frames' =>
        match read f with
        | Done e => let s' := on_receive s e in
                    if should_close s' then (s', Closed) else receive_loop frames' io_error s'
        | Rejected => receive_loop frames' io_error (on_failed s)
        | Panicked => (s, Crashed)
        end
    end.
End ReceiveLoop.
