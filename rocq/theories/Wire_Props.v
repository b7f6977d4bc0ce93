(** Properties C09, C21, C22, C23, C52 and C57. *)
From Verif Require Import Wire_Proofs ShardWire_Proofs.
Local Open Scope string_scope.
Local Open Scope list_scope.
Local Open Scope N_scope.

Ltac vmr := vm_compute; reflexivity.

(** ** C21: cluster wire events round trip *)

Theorem C21_client_event_roundtrip e b :
  client_event_ok e -> write_client_event e = Some b -> frame_fits b -> read_client_event b = Done e.
Proof. exact (client_event_roundtrip e b). Qed.
Print Assumptions C21_client_event_roundtrip.

Theorem C21_session_event_roundtrip e b :
  session_event_ok e -> write_session_event e = Some b -> frame_fits b -> read_session_event b = Done e.
Proof. exact (session_event_roundtrip e b). Qed.
Print Assumptions C21_session_event_roundtrip.

(** No frame belongs to two events. *)
Theorem C21_client_event_unambiguous e e' b :
  client_event_ok e -> client_event_ok e' -> frame_fits b ->
  write_client_event e = Some b -> write_client_event e' = Some b -> e = e'.
Proof.
  intros H H' Hf W W'. pose proof (client_event_roundtrip e b H W Hf).
  pose proof (client_event_roundtrip e' b H' W' Hf). congruence.
Qed.
Print Assumptions C21_client_event_unambiguous.
Theorem C21_session_event_unambiguous e e' b :
  session_event_ok e -> session_event_ok e' -> frame_fits b ->
  write_session_event e = Some b -> write_session_event e' = Some b -> e = e'.
Proof.
  intros H H' Hf W W'. pose proof (session_event_roundtrip e b H W Hf).
  pose proof (session_event_roundtrip e' b H' W' Hf). congruence.
Qed.
Print Assumptions C21_session_event_unambiguous.

(** Every event but a Raft request is written. *)
Theorem C21_written :
  (forall e, exists b, write_client_event e = Some b) /\
  (forall e, (exists b, write_session_event e = Some b) <-> (forall r, e <> SRaft r)).
Proof.
  split; [by intros []; eexists|]. intros e; split.
  - intros [b Hb] r ->. done.
  - intros H. destruct e; try by eexists. by destruct (H e).
Qed.
Print Assumptions C21_written.

(** The events of the system topic. *)
Theorem C21_system_event_roundtrip e b :
  system_event_ok e -> write_system_event e = Some b -> frame_fits b -> read_system_event b = Done e.
Proof. exact (system_event_roundtrip e b). Qed.
Print Assumptions C21_system_event_roundtrip.

(** The attributes of a node arrive as the map they are, whatever the order in which it is written. *)
Lemma map_of_entries_list (m : gmap bytes bytes) l : l ≡ₚ map_to_list m -> map_of_entries l = m.
Proof.
  intros Hp. assert (Hnd : NoDup l.*1) by (rewrite Hp; apply NoDup_fst_map_to_list).
  rewrite <- (list_to_map_to_list m), <- (list_to_map_proper _ _ Hnd Hp). unfold map_of_entries.
  clear Hp m. induction l as [|e l IH] using rev_ind; [done|]. rewrite foldl_app. cbn [foldl].
  rewrite fmap_app in Hnd. apply NoDup_app in Hnd as (H1 & H2 & _). rewrite IH by done.
  destruct e as [k v]. rewrite (list_to_map_snoc l k v); [done|]. intros Hin. apply (H2 k Hin). cbn. by left.
Qed.
Theorem C21_attributes (e : node_identity) (b : bytes) (m : gmap bytes bytes) :
  client_event_ok (CIdentity e) -> ni_attributes e ≡ₚ map_to_list m ->
  write_client_event (CIdentity e) = Some b -> frame_fits b ->
  exists e', read_client_event b = Done (CIdentity e') /\ map_of_entries (ni_attributes e') = m.
Proof.
  intros He Hm Hw Hf. exists e. split; [by apply client_event_roundtrip|by apply map_of_entries_list].
Qed.
Print Assumptions C21_attributes.

Definition ascii_bytes (s : string) : bytes := bytes_of_string s.

Definition sample_node : p_remote_node :=
  PRemoteNode 18446744073709551615 (ascii_bytes "10.0.0.1:30101") (Some (Timestamp (-5) 999999999))
    (ascii_bytes "node-1") [(ascii_bytes "zone", ascii_bytes "eu"); ([], [])].

Example C21_client_example :
  let e := CHandshake (ClientHandshake 0 [sample_node; sample_node] [] (ascii_bytes "trace") None) in
  client_event_ok e /\
  exists b, write_client_event e = Some b /\ (100 < length b)%nat /\ read_client_event b = Done e.
Proof.
  split.
  - cbn. repeat split; try done; repeat constructor; try done; try (vmr); unfold is_i64; lia.
  - eexists. split; [reflexivity|]. split; [vm_compute; lia|vm_compute; reflexivity].
Qed.

Example C21_session_example :
  let e := SNotifyActor (MessageRequest (ascii_bytes "id-1") (ascii_bytes "Actor::Message") [195; 169]
             [0; 255; 10] [] true 7) in
  session_event_ok e /\
  exists b, write_session_event e = Some b /\ read_session_event b = Done e.
Proof.
  split; [|eexists; split; [reflexivity|vm_compute; reflexivity]].
  cbn [session_event_ok]. split; [vm_compute; reflexivity|]. split; [vm_compute; reflexivity|].
  split; [vm_compute; reflexivity|]. split; [exact I|]. split; [vm_compute; reflexivity|].
  split; [exact I|]. split; [vm_compute; reflexivity|exact I].
Qed.

Example C21_system_example :
  let e := SysMemberUp 3 [RemoteNode 3 (ascii_bytes "a:1") [] (Some (DateTime 1700000000 5)) []] in
  system_event_ok e /\ exists b, write_system_event e = Some b /\ read_system_event b = Done e.
Proof.
  split.
  - cbn. split; [done|]. constructor; [|constructor]. repeat split; cbn; try done; try constructor;
      injection H as <-; cbn; lia.
  - eexists. split; [reflexivity|vm_compute; reflexivity].
Qed.

(** ** C22: remote errors keep their meaning *)

(** Through the conversion, the frame on the connection and back. *)
Theorem C22_remote_error_roundtrip err id trace b :
  err_ok err -> utf8 id = true -> utf8 trace = true ->
  write_client_event (CErr (ClientErr id (Some (err_to_proto err)) trace)) = Some b -> frame_fits b ->
  exists e, read_client_event b = Done (CErr e) /\ ce_message_id e = id /\
            obind (unwrap (ce_error e)) err_of_proto = Done err.
Proof.
  intros He Hi Ht Hw Hf. eexists. split; [|split].
  - apply (client_event_roundtrip (CErr (ClientErr id (Some (err_to_proto err)) trace)) b); [|done|done].
    cbn [client_event_ok]. split; [exact Hi|]. split; [by apply err_proto_ok|]. split; [exact Ht|done].
  - done.
  - apply err_roundtrip.
Qed.
Print Assumptions C22_remote_error_roundtrip.

(** The same between two nodes that both act as server ([SessionEvent::Err]). *)
Theorem C22_remote_error_roundtrip_session err id trace b :
  err_ok err -> utf8 id = true -> utf8 trace = true ->
  write_session_event (SErr (ClientErr id (Some (err_to_proto err)) trace)) = Some b -> frame_fits b ->
  exists e, read_session_event b = Done (SErr e) /\ ce_message_id e = id /\
            obind (unwrap (ce_error e)) err_of_proto = Done err.
Proof.
  intros He Hi Ht Hw Hf. eexists. split; [|split].
  - apply (session_event_roundtrip (SErr (ClientErr id (Some (err_to_proto err)) trace)) b); [|done|done].
    cbn [session_event_ok]. split; [exact Hi|]. split; [by apply err_proto_ok|]. split; [exact Ht|done].
  - done.
  - apply err_roundtrip.
Qed.
Print Assumptions C22_remote_error_roundtrip_session.

(** Different errors stay different. *)
Theorem C22_errors_distinct e e' : err_to_proto e = err_to_proto e' -> e = e'.
Proof. intros H. pose proof (err_roundtrip e). pose proof (err_roundtrip e'). congruence. Qed.
Print Assumptions C22_errors_distinct.

Example C22_example :
  err_ok (NotSupported (ascii_bytes "a") [] (ascii_bytes "T")) /\ err_ok (Timeout 18446744073709551615) /\
  exists b, write_client_event (CErr (ClientErr (ascii_bytes "x")
              (Some (err_to_proto (NotSupported (ascii_bytes "a") [] (ascii_bytes "T")))) [])) = Some b /\
            frame_fits b.
Proof.
  split; [split; [vmr|split; vmr]|]. split; [vmr|]. eexists. split; [reflexivity|vmr].
Qed.

(** ** C23: malformed input *)

(** Full statement, false: no byte string crashes the reader. *)
Definition C23_statement : Prop :=
  forall b, is_bytes b -> read_client_event b <> Panicked /\ read_session_event b <> Panicked.

(** A ping whose body is a truncated field. *)
Theorem C23_malformed_refuted : ~ C23_statement.
Proof.
  intros H. destruct (H [ev_ping; 10]) as [H1 _].
  - repeat constructor.
  - apply H1. vmr.
Qed.
Print Assumptions C23_malformed_refuted.

(** ... and the crash ends the connection task without [on_close], whatever follows. *)
Theorem C23_crash_ends_connection {S} (recv : S -> session_event -> S) failed close s frames io :
  receive_loop read_session_event recv failed close ([ev_ping; 10] :: frames) io s = (s, Crashed).
Proof. reflexivity. Qed.
Print Assumptions C23_crash_ends_connection.

(** What holds: an unknown event code or an empty frame is rejected and skipped; the reader
    panics exactly when the code is known and the body is not an encoding of that message. *)
Theorem C23_client_outcome_partial b :
  match b with
  | [] => read_client_event b = Rejected
  | code :: body =>
      (read_client_event b = Rejected <-> code ∉ client_codes) /\
      (read_client_event b = Panicked ->
         code ∈ client_codes /\ forall e b', write_client_event e = Some b' -> client_event_ok e ->
                                             frame_fits b' -> b <> b')
  end.
Proof.
  destruct b as [|code body]; [done|]. split; [apply client_rejected_iff|]. intros Hp. split.
  - destruct (decide (code ∈ client_codes)) as [H|H]; [done|].
    apply (client_rejected_iff code body) in H. congruence.
  - intros e b' Hw Hok Hf <-. pose proof (client_event_roundtrip e _ Hok Hw Hf). congruence.
Qed.
Print Assumptions C23_client_outcome_partial.

Theorem C23_session_outcome_partial b :
  match b with
  | [] => read_session_event b = Rejected
  | code :: body =>
      (read_session_event b = Rejected <-> code ∉ session_codes) /\
      (read_session_event b = Panicked ->
         code ∈ session_codes /\ forall e b', write_session_event e = Some b' -> session_event_ok e ->
                                              frame_fits b' -> b <> b')
  end.
Proof.
  destruct b as [|code body]; [done|]. split; [apply session_rejected_iff|]. intros Hp. split.
  - destruct (decide (code ∈ session_codes)) as [H|H]; [done|].
    apply (session_rejected_iff code body) in H. congruence.
  - intros e b' Hw Hok Hf <-. pose proof (session_event_roundtrip e _ Hok Hw Hf). congruence.
Qed.
Print Assumptions C23_session_outcome_partial.

(** A connection that carries written events, with frames of unknown kinds in between,
    delivers exactly the events, in order, and ends normally. *)
Inductive frames_of : list bytes -> list session_event -> Prop :=
| frames_nil : frames_of [] []
| frames_event b e fs es :
    write_session_event e = Some b -> session_event_ok e -> frame_fits b ->
    frames_of fs es -> frames_of (b :: fs) (e :: es)
| frames_unknown code body fs es :
    code ∉ session_codes -> frames_of fs es -> frames_of ((code :: body) :: fs) es.

Theorem C23_receive_loop_partial fs es io :
  frames_of fs es ->
  receive_loop read_session_event (fun s e => s ++ [e]) (fun s => s) (fun _ => false) fs io []
  = (es, if io then StreamLost else Closed).
Proof.
  intros H.
  enough (forall acc, receive_loop read_session_event (fun s e => s ++ [e]) (fun s => s) (fun _ => false) fs io acc
          = (acc ++ es, if io then StreamLost else Closed)) as Hg by apply Hg.
  induction H as [|b e fs es Hw Hok Hf _ IH|code body fs es Hc _ IH]; intros acc; cbn [receive_loop].
  - by rewrite app_nil_r.
  - rewrite (session_event_roundtrip e b Hok Hw Hf), IH. by rewrite <- app_assoc.
  - apply (session_rejected_iff code body) in Hc. rewrite Hc. apply IH.
Qed.
Print Assumptions C23_receive_loop_partial.

Example C23_frames_example :
  exists b1 b2, frames_of [b1; [77; 1; 2]; b2]
    [SPing (PingEvent (ascii_bytes "m") [] 5 true); SPong (PongEvent [] [])].
Proof.
  do 2 eexists. eapply frames_event; [reflexivity|by repeat split|vmr|].
  eapply frames_unknown; [by apply (bool_decide_unpack _)|].
  eapply frames_event; [reflexivity|by repeat split|vmr|constructor].
Qed.

(** ** C09: journal entries *)

Theorem C09_entry_roundtrip e b :
  entry_ok e -> write_entry e = Some b -> fits b -> read_entry b = Some e.
Proof. exact (entry_roundtrip e b). Qed.
Print Assumptions C09_entry_roundtrip.

Theorem C09_entry_injective e1 e2 b :
  entry_ok e1 -> entry_ok e2 -> write_entry e1 = Some b -> write_entry e2 = Some b -> fits b -> e1 = e2.
Proof. exact (entry_inj e1 e2 b). Qed.
Print Assumptions C09_entry_injective.

Example C09_example :
  let e := Entry (-1) "Msg" [0; 1; 255] in
  entry_ok e /\ exists b, write_entry e = Some b /\ fits b /\ read_entry b = Some e.
Proof.
  split; [split; [unfold is_i64; cbn; lia|vmr]|].
  eexists. split; [reflexivity|]. split; vmr.
Qed.

(** ** C52: sharding messages *)

Theorem C52_sharding_messages_roundtrip :
  (forall m, as_shard m < two32 -> fits (write_allocate m) -> read_allocate (write_allocate m) = Done m) /\
  (forall r, allocate_result_ok r -> fits (write_allocate_result r) ->
     read_allocate_result (write_allocate_result r) = Done r) /\
  (forall s n, s < two32 -> n < two64 -> fits (write_shard_allocated s n) ->
     read_shard_allocated (write_shard_allocated s n) = Done (s, n)) /\
  (forall s, s < two32 -> fits (write_shard_reallocating s) ->
     read_shard_reallocating (write_shard_reallocating s) = Done s) /\
  (forall m, ss_shard m < two32 -> is_uuid (ss_request m) -> ss_origin m < two64 ->
     fits (write_stop_shard m) -> read_stop_shard (write_stop_shard m) = Done m) /\
  (forall m, sd_shard m < two32 -> fits (write_shard_stopped m) ->
     read_shard_stopped (write_shard_stopped m) = Done m) /\
  (forall m, entity_request_ok m -> fits (write_entity_request m) ->
     read_entity_request (write_entity_request m) = Done m) /\
  (forall m, utf8 (se_actor m) = true -> fits (write_start_entity m) ->
     read_start_entity (write_start_entity m) = Done m) /\
  (forall a, utf8 a = true -> fits (write_remove_entity a) ->
     read_remove_entity (write_remove_entity a) = Done a) /\
  (forall a, utf8 a = true -> fits (write_passivate_entity a) ->
     read_passivate_entity (write_passivate_entity a) = Done a) /\
  (forall s, sharding_stats_ok s -> fits (write_sharding_stats s) ->
     read_sharding_stats (write_sharding_stats s) = Done s) /\
  (forall s, shard_stats_ok s -> fits (write_shard_stats s) ->
     read_shard_stats (write_shard_stats s) = Done s) /\
  read_get_sharding_stats write_get_sharding_stats = Done tt /\
  read_get_shard_stats write_get_shard_stats = Done tt.
Proof.
  split; [exact allocate_roundtrip|]. split; [exact allocate_result_roundtrip|].
  split; [exact shard_allocated_roundtrip|]. split; [exact shard_reallocating_roundtrip|].
  split; [exact stop_shard_roundtrip|]. split; [exact shard_stopped_roundtrip|].
  split; [exact entity_request_roundtrip|]. split; [exact start_entity_roundtrip|].
  split; [exact remove_entity_roundtrip|]. split; [exact passivate_entity_roundtrip|].
  split; [exact sharding_stats_roundtrip|]. split; [exact shard_stats_roundtrip|].
  split; reflexivity.
Qed.
Print Assumptions C52_sharding_messages_roundtrip.

(** Full statement for snapshots, false: a started entity is read back as an idle one. *)
Theorem C52_shard_snapshot_refuted :
  ~ forall s, snapshot_ok s -> fits (write_shard_snapshot s) ->
    read_shard_snapshot (write_shard_snapshot s) = Done s.
Proof.
  intros H. specialize (H (ShardSnapshot 1 2 [MkEntity [97] [] EActive])).
  assert (E : read_shard_snapshot (write_shard_snapshot (ShardSnapshot 1 2 [MkEntity [97] [] EActive]))
              = Done (ShardSnapshot 1 2 [MkEntity [97] [] EIdle])) by (vmr).
  rewrite E in H. discriminate H; [|vmr].
  split; [vmr|]. split; [vmr|]. repeat constructor.
Qed.
Print Assumptions C52_shard_snapshot_refuted.

(** What survives: shard, node, the entities in order with id and recipe, and whether each is
    passivated. *)
Theorem C52_shard_snapshot_partial s :
  snapshot_ok s -> fits (write_shard_snapshot s) ->
  exists s', read_shard_snapshot (write_shard_snapshot s) = Done s' /\
    sn_shard s' = sn_shard s /\ sn_node s' = sn_node s /\
    map en_actor (sn_entities s') = map en_actor (sn_entities s) /\
    map en_recipe (sn_entities s') = map en_recipe (sn_entities s) /\
    Forall2 (fun e' e => en_state e' = EPassivated <-> en_state e = EPassivated) (sn_entities s') (sn_entities s).
Proof.
  intros H Hf. eexists. split; [by apply shard_snapshot_roundtrip|]. cbn [sn_shard sn_node sn_entities].
  rewrite !map_map. repeat split.
  generalize (sn_entities s). induction l as [|[a r []] l IH]; constructor; by try split.
Qed.
Print Assumptions C52_shard_snapshot_partial.

Definition sample_uuid : bytes := [18; 62; 69; 103; 232; 155; 18; 211; 164; 86; 66; 102; 20; 23; 64; 0].

Example C52_example :
  entity_request_ok (EntityRequest sample_uuid (ascii_bytes "entity-1") (ascii_bytes "M") [1] (Some []) 5) /\
  uuid_to_string sample_uuid = ascii_bytes "123e4567-e89b-12d3-a456-426614174000" /\
  fits (write_entity_request (EntityRequest sample_uuid (ascii_bytes "entity-1") (ascii_bytes "M") [1] (Some []) 5)) /\
  snapshot_ok (ShardSnapshot 1 2 [MkEntity [97] [] EActive; MkEntity [98] [7] EPassivated]).
Proof.
  split; [|split; [vmr|split; [vmr|]]].
  - split; [split; [vmr|repeat constructor]|]. split; [vmr|]. split; vmr.
  - split; [vmr|]. split; [vmr|]. repeat constructor.
Qed.

(** ** C57: singleton messages *)

(** Full statement, false for [GetStatus], which has no decoder. *)
Definition C57_statement : Prop :=
  forall k n, n < two64 -> read_singleton k (write_singleton k n) = Done n.

Theorem C57_get_status_refuted : ~ C57_statement.
Proof. intros H. by specialize (H KGetStatus 1 eq_refl). Qed.
Print Assumptions C57_get_status_refuted.

Theorem C57_singleton_roundtrip_partial :
  (forall k n, k <> KGetStatus -> n < two64 -> fits (write_singleton k n) ->
     read_singleton k (write_singleton k n) = Done n) /\
  (forall s, read_status (write_status s) = Done s).
Proof. split; [exact singleton_roundtrip|exact status_roundtrip]. Qed.
Print Assumptions C57_singleton_roundtrip_partial.

Example C57_example :
  fits (write_singleton KLeaseAck 18446744073709551615) /\
  read_singleton KLeaseAck (write_singleton KLeaseAck 18446744073709551615) = Done 18446744073709551615.
Proof. split; vmr. Qed.
