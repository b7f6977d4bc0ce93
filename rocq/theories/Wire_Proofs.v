From Verif Require Export Wire_Model Codec_Proofs.
Local Open Scope N_scope.

Global Instance timestamp_lawful : lawful_m timestamp_codec. Proof. struct_lawful. Qed.
Global Instance uint64_value_lawful : lawful_m uint64_value_codec.
Proof. apply as_struct_lawful; [typeclasses eauto|done]. Qed.
Global Instance remote_node_lawful : lawful_m remote_node_codec. Proof. struct_lawful. Qed.
Global Instance identify_lawful : lawful_m identify_codec. Proof. struct_lawful. Qed.
Global Instance capabilities_lawful : lawful_m capabilities_codec. Proof. struct_lawful. Qed.
Global Instance node_identity_lawful : lawful_m node_identity_codec. Proof. struct_lawful. Qed.
Global Instance client_handshake_lawful : lawful_m client_handshake_codec. Proof. struct_lawful. Qed.
Global Instance client_result_lawful : lawful_m client_result_codec. Proof. struct_lawful. Qed.
Global Instance actor_ref_err_lawful : lawful_m actor_ref_err_codec. Proof. struct_lawful. Qed.
Global Instance client_err_lawful : lawful_m client_err_codec. Proof. struct_lawful. Qed.
Global Instance ping_lawful : lawful_m ping_codec. Proof. struct_lawful. Qed.
Global Instance pong_lawful : lawful_m pong_codec. Proof. struct_lawful. Qed.
Global Instance create_actor_lawful : lawful_m create_actor_codec. Proof. struct_lawful. Qed.
Global Instance find_actor_lawful : lawful_m find_actor_codec. Proof. struct_lawful. Qed.
Global Instance actor_address_lawful : lawful_m actor_address_codec. Proof. struct_lawful. Qed.
Global Instance message_request_lawful : lawful_m message_request_codec. Proof. struct_lawful. Qed.
Global Instance session_handshake_lawful : lawful_m session_handshake_codec. Proof. struct_lawful. Qed.
Global Instance stream_publish_lawful : lawful_m stream_publish_codec. Proof. struct_lawful. Qed.
Global Instance node_event_lawful : lawful_m node_event_codec. Proof. struct_lawful. Qed.
Global Instance leader_changed_lawful : lawful_m leader_changed_codec. Proof. struct_lawful. Qed.
Global Instance member_up_lawful : lawful_m member_up_codec. Proof. struct_lawful. Qed.
Global Instance raft_lawful : lawful_m raft_codec. Proof. struct_lawful. Qed.

(** The contents a Rust event can have. *)
Definition client_event_ok (e : client_event) : Prop :=
  match e with
  | CIdentity e => m_ok node_identity_codec e
  | CHandshake e => m_ok client_handshake_codec e
  | CResult e => m_ok client_result_codec e
  | CErr e => m_ok client_err_codec e
  | CPing e => m_ok ping_codec e
  | CPong e => m_ok pong_codec e
  end.
Definition session_event_ok (e : session_event) : Prop :=
  match e with
  | SIdentify e => m_ok identify_codec e
  | SPing e => m_ok ping_codec e
  | SPong e => m_ok pong_codec e
  | SHandshake e => m_ok session_handshake_codec e
  | SNotifyActor e => m_ok message_request_codec e
  | SCreateActor e => m_ok create_actor_codec e
  | SRegisterActor e => m_ok actor_address_codec e
  | SFindActor e => m_ok find_actor_codec e
  | SStreamPublish e => m_ok stream_publish_codec e
  | SResult e => m_ok client_result_codec e
  | SErr e => m_ok client_err_codec e
  | SRaft e => m_ok raft_codec e
  end.

(** The frame of an event, its body fitting in 32 bits. *)
Definition frame_fits (b : bytes) : Prop := fits (tl b).

Lemma parse_unwrap_write {A E} (m : mcodec A) (w : A -> E) a :
  lawful_m m -> wf_desc (FMsg (m_desc m)) = true -> m_ok m a -> fits (write_msg m a) ->
  parse_unwrap m w (write_msg m a) = Done (w a).
Proof. intros. unfold parse_unwrap. by rewrite parse_write. Qed.

Lemma client_event_roundtrip e b :
  client_event_ok e -> write_client_event e = Some b -> frame_fits b -> read_client_event b = Done e.
Proof.
  destruct e; intros Hok [= <-] Hf; unfold frame_fits in Hf; cbn [tl] in Hf;
    unfold read_client_event; cbn [N.eqb Pos.eqb ev_identity ev_handshake ev_result ev_err ev_ping ev_pong];
    (apply parse_unwrap_write; [typeclasses eauto|reflexivity|exact Hok|exact Hf]).
Qed.

Lemma session_event_roundtrip e b :
  session_event_ok e -> write_session_event e = Some b -> frame_fits b -> read_session_event b = Done e.
Proof.
  destruct e; intros Hok Hw Hf; cbn [write_session_event] in Hw; try discriminate;
    injection Hw as <-; unfold frame_fits in Hf; cbn [tl] in Hf;
    unfold read_session_event;
    cbn [N.eqb Pos.eqb ev_identify ev_identity ev_handshake ev_result ev_err ev_ping ev_pong ev_create_actor
         ev_find_actor ev_register_actor ev_notify_actor ev_stream_publish];
    (apply parse_unwrap_write; [typeclasses eauto|reflexivity|exact Hok|exact Hf]).
Qed.

Lemma err_roundtrip e : err_of_proto (err_to_proto e) = Done e.
Proof. by destruct e as [| | |[]|[]| | | | | | |]. Qed.

(** The Rust invariants of an error. *)
Definition err_ok (e : actor_ref_err) : Prop :=
  match e with
  | NotFound id | AlreadyExists id => utf8 id = true
  | Timeout ms => ms < two64
  | NotSupported id mt ty => utf8 id = true /\ utf8 mt = true /\ utf8 ty = true
  | _ => True
  end.

Lemma err_proto_ok e : err_ok e -> m_ok actor_ref_err_codec (err_to_proto e).
Proof.
  unfold actor_ref_err_codec, as_struct. cbn [m_ok with_field f_ok fst snd no_fields].
  destruct e as [| | |[]|[]| | | | | | |]; cbn; intros H; repeat split;
    try reflexivity; try exact H; try apply H.
Qed.

Lemma datetime_roundtrip d : datetime_ok d -> timestamp_to_datetime (datetime_to_timestamp d) = Done d.
Proof.
  destruct d as [s n]. unfold datetime_ok, timestamp_to_datetime, datetime_to_timestamp.
  cbn [dt_seconds dt_nanos ts_seconds ts_nanos]. intros [[H1 H2] H3].
  apply Z.leb_le in H1, H2. apply N.ltb_lt in H3. by rewrite H1, H2, H3.
Qed.

(** The Rust invariants of a node. *)
Definition node_ok (n : remote_node) : Prop :=
  rn_id n < two64 /\ utf8 (rn_addr n) = true /\ utf8 (rn_tag n) = true /\
  (forall d, rn_started n = Some d -> datetime_ok d) /\
  Forall (fun e => utf8 e.1 = true /\ utf8 e.2 = true) (rn_attributes n).

Lemma node_roundtrip n : node_ok n -> node_of_proto (node_to_proto n) = Done n.
Proof.
  destruct n as [id addr tag st attrs]. intros (_ & _ & _ & Hd & _). cbn [rn_started] in Hd.
  unfold node_of_proto, node_to_proto. cbn [prn_started rn_started option_map].
  destruct st as [d|]; [|done]. cbn [option_map]. rewrite datetime_roundtrip by auto. done.
Qed.

Lemma attributes_ok l :
  Forall (fun e : bytes * bytes => utf8 e.1 = true /\ utf8 e.2 = true) l -> f_ok mapf l.
Proof.
  unfold mapf, subsf. cbn [f_ok]. intros H. eapply Forall_impl; [exact H|].
  intros [k v] [H1 H2]. cbn in *. auto.
Qed.

Lemma timestamp_ok d : datetime_ok d -> m_ok timestamp_codec (datetime_to_timestamp d).
Proof.
  destruct d as [s n]. unfold datetime_ok. cbn [dt_seconds dt_nanos]. intros [[H1 H2] H3].
  unfold timestamp_codec, as_struct, datetime_to_timestamp.
  cbn [m_ok with_field f_ok fst snd no_fields ts_seconds ts_nanos i64f enumf dt_seconds dt_nanos].
  split; [|split; [|done]].
  - unfold is_i64. lia.
  - lia.
Qed.

Lemma node_proto_ok n : node_ok n -> m_ok remote_node_codec (node_to_proto n).
Proof.
  destruct n as [id addr tag st attrs]. intros (H1 & H2 & H3 & H4 & H5). cbn [rn_id rn_addr rn_tag rn_started rn_attributes] in *.
  unfold remote_node_codec, as_struct, node_to_proto.
  cbn [m_ok with_field f_ok fst snd no_fields u64f stringf subf
       prn_node_id prn_addr prn_started prn_tag prn_attributes rn_id rn_addr rn_tag rn_started rn_attributes].
  repeat split; try assumption.
  - destruct st as [d|]; [|done]. cbn [option_map]. apply timestamp_ok. by apply H4.
  - by apply attributes_ok.
Qed.

Lemma nodes_roundtrip ns : Forall node_ok ns -> nodes_of_proto (map node_to_proto ns) = Done ns.
Proof.
  induction 1 as [|n ns Hn _ IH]; [done|]. cbn [map nodes_of_proto].
  rewrite node_roundtrip by done. cbn [obind]. by rewrite IH.
Qed.

Definition system_event_ok (e : system_event) : Prop :=
  match e with
  | SysNodeAdded n | SysNodeRemoved n => node_ok n
  | SysLeaderChanged id => id < two64
  | SysMemberUp id ns => id < two64 /\ Forall node_ok ns
  end.

Lemma system_event_roundtrip e b :
  system_event_ok e -> write_system_event e = Some b -> frame_fits b -> read_system_event b = Done e.
Proof.
  destruct e; intros Hok [= <-] Hf; unfold frame_fits in Hf; cbn [tl] in Hf; unfold read_system_event;
    cbn [N.eqb Pos.eqb sys_new_node sys_node_removed sys_leader_changed sys_member_up].
  - cbn [system_event_ok] in Hok. rewrite parse_write; [|typeclasses eauto|reflexivity| |exact Hf].
    + cbn [unwrap obind]. unfold event_node. cbn [ne_node unwrap obind]. by rewrite node_roundtrip.
    + unfold node_event_codec, as_struct. cbn [m_ok with_field f_ok fst snd ne_node ne_trace subf stringf].
      split; [by apply node_proto_ok|done].
  - cbn [system_event_ok] in Hok. rewrite parse_write; [|typeclasses eauto|reflexivity| |exact Hf].
    + cbn [unwrap obind]. unfold event_node. cbn [ne_node unwrap obind]. by rewrite node_roundtrip.
    + unfold node_event_codec, as_struct. cbn [m_ok with_field f_ok fst snd ne_node ne_trace subf stringf].
      split; [by apply node_proto_ok|done].
  - cbn [system_event_ok] in Hok. rewrite parse_write; [|typeclasses eauto|reflexivity| |exact Hf]; [done|].
    unfold leader_changed_codec, as_struct. cbn [m_ok with_field f_ok fst snd lc_node_id lc_trace u64f stringf].
    split; [exact Hok|done].
  - cbn [system_event_ok] in Hok. destruct Hok as [H1 H2].
    rewrite parse_write; [|typeclasses eauto|reflexivity| |exact Hf].
    + cbn [unwrap obind mu_nodes mu_leader_id]. by rewrite nodes_roundtrip.
    + unfold member_up_codec, as_struct. cbn [m_ok with_field f_ok fst snd mu_leader_id mu_nodes mu_trace u64f stringf subsf].
      split; [exact H1|]. split; [|done]. clear Hf. induction H2; constructor; [by apply node_proto_ok|done].
Qed.

(** ** Malformed frames *)

(** The event codes each side reads. *)
Definition client_codes : list N := [ev_identity; ev_handshake; ev_result; ev_err; ev_ping; ev_pong].
Definition session_codes : list N :=
  [ev_identify; ev_handshake; ev_ping; ev_pong; ev_create_actor; ev_find_actor; ev_notify_actor;
   ev_register_actor; ev_stream_publish; ev_result; ev_err].

Lemma parse_unwrap_not_rejected {A E} (m : mcodec A) (w : A -> E) b : parse_unwrap m w b <> Rejected.
Proof. unfold parse_unwrap, unwrap, omap_out. by destruct (parse_msg m b). Qed.

Lemma client_rejected_iff code b :
  read_client_event (code :: b) = Rejected <-> code ∉ client_codes.
Proof.
  unfold read_client_event, client_codes.
  rewrite !not_elem_of_cons.
  destruct (N.eqb_spec code ev_identity); [split; [by intros ?%parse_unwrap_not_rejected|naive_solver]|].
  destruct (N.eqb_spec code ev_handshake); [split; [by intros ?%parse_unwrap_not_rejected|naive_solver]|].
  destruct (N.eqb_spec code ev_result); [split; [by intros ?%parse_unwrap_not_rejected|naive_solver]|].
  destruct (N.eqb_spec code ev_err); [split; [by intros ?%parse_unwrap_not_rejected|naive_solver]|].
  destruct (N.eqb_spec code ev_ping); [split; [by intros ?%parse_unwrap_not_rejected|naive_solver]|].
  destruct (N.eqb_spec code ev_pong); [split; [by intros ?%parse_unwrap_not_rejected|naive_solver]|].
  split; [intros _; repeat split; try done; apply not_elem_of_nil|done].
Qed.

Lemma session_rejected_iff code b :
  read_session_event (code :: b) = Rejected <-> code ∉ session_codes.
Proof.
  unfold read_session_event, session_codes. rewrite !not_elem_of_cons.
  repeat match goal with
  | |- context [N.eqb code ?k] =>
      destruct (N.eqb_spec code k); [split; [by intros ?%parse_unwrap_not_rejected|naive_solver]|]
  end.
  split; [intros _; repeat split; try done; apply not_elem_of_nil|done].
Qed.
