(** Property C23: malformed events of the system topic. *)
From Verif Require Import Wire_Proofs.
Local Open Scope list_scope.
Local Open Scope N_scope.

Definition system_codes : list N := [0; 1; 2; 3].

Lemma date_not_rejected t : timestamp_to_datetime t <> Rejected.
Proof. unfold timestamp_to_datetime. by destruct (_ && _). Qed.
Lemma node_not_rejected p : node_of_proto p <> Rejected.
Proof.
  unfold node_of_proto. destruct (prn_started p) as [t|]; [|done]. pose proof (date_not_rejected t).
  unfold omap_out. by destruct (timestamp_to_datetime t).
Qed.
Lemma nodes_not_rejected l : nodes_of_proto l <> Rejected.
Proof.
  induction l as [|p l IH]; [done|]. cbn [nodes_of_proto]. pose proof (node_not_rejected p).
  unfold obind, omap_out. destruct (node_of_proto p); [|done|done]. by destruct (nodes_of_proto l).
Qed.
Lemma event_node_not_rejected e : event_node e <> Rejected.
Proof. unfold event_node, obind, unwrap. destruct (ne_node e); [apply node_not_rejected|done]. Qed.

(** Of an event on the system topic, the code decides whether it is rejected; a known code
    with a body that is not an encoding of its message panics. *)
Theorem C23_system_outcome_partial b :
  match b with
  | [] => read_system_event b = Rejected
  | code :: body =>
      (read_system_event b = Rejected <-> code ∉ system_codes) /\
      (read_system_event b = Panicked ->
         code ∈ system_codes /\ forall e b', write_system_event e = Some b' -> system_event_ok e ->
                                             frame_fits b' -> b <> b')
  end.
Proof.
  destruct b as [|code body]; [done|].
  assert (Hr : read_system_event (code :: body) = Rejected <-> code ∉ system_codes).
  { unfold read_system_event, system_codes, sys_node_removed, sys_new_node, sys_leader_changed, sys_member_up. rewrite !not_elem_of_cons.
    destruct (N.eqb_spec code 1); [split; [|naive_solver]|].
    { unfold obind, unwrap, omap_out. destruct (parse_msg node_event_codec body) as [v|]; [|done]. pose proof (event_node_not_rejected v). by destruct (event_node v). }
    destruct (N.eqb_spec code 0); [split; [|naive_solver]|].
    { unfold obind, unwrap, omap_out. destruct (parse_msg node_event_codec body) as [v|]; [|done]. pose proof (event_node_not_rejected v). by destruct (event_node v). }
    destruct (N.eqb_spec code 2); [split; [|naive_solver]|].
    { unfold obind, unwrap. by destruct (parse_msg leader_changed_codec body). }
    destruct (N.eqb_spec code 3); [split; [|naive_solver]|].
    { unfold obind, unwrap, omap_out. destruct (parse_msg member_up_codec body) as [v|]; [|done]. pose proof (nodes_not_rejected (mu_nodes v)). by destruct (nodes_of_proto (mu_nodes v)). }
    split; [intros _; repeat split; try done; apply not_elem_of_nil|done]. }
  split; [exact Hr|]. intros Hp. split.
  - destruct (decide (code ∈ system_codes)) as [H|H]; [done|]. apply Hr in H. congruence.
  - intros e b' Hw Hok Hf <-. pose proof (system_event_roundtrip e _ Hok Hw Hf). congruence.
Qed.
Print Assumptions C23_system_outcome_partial.

(** Whatever the bytes: the times of the nodes of an event that is read are times the
    program can hold. *)
Definition event_nodes (e : system_event) : list remote_node :=
  match e with SysNodeAdded n | SysNodeRemoved n => [n] | SysLeaderChanged _ => [] | SysMemberUp _ ns => ns end.

Lemma date_read t d : timestamp_to_datetime t = Done d -> datetime_ok d.
Proof.
  unfold timestamp_to_datetime. destruct (_ && _) eqn:E; [|done]. intros [= <-].
  apply andb_true_iff in E as [E1 E3]. apply andb_true_iff in E1 as [E1 E2]. unfold datetime_ok. cbn. lia.
Qed.
Lemma node_read p n d : node_of_proto p = Done n -> rn_started n = Some d -> datetime_ok d.
Proof.
  unfold node_of_proto. destruct (prn_started p) as [t|]; [|by intros [= <-]].
  unfold omap_out. destruct (timestamp_to_datetime t) as [d0| |] eqn:E; [|done|done]. intros [= <-] [= <-]. by eapply date_read.
Qed.
Lemma nodes_read l ns n d : nodes_of_proto l = Done ns -> n ∈ ns -> rn_started n = Some d -> datetime_ok d.
Proof.
  revert ns. induction l as [|p l IH]; intros ns; cbn [nodes_of_proto].
  - intros [= <-] H. by apply elem_of_nil in H.
  - unfold obind, omap_out. destruct (node_of_proto p) as [n0| |] eqn:E; [|done|done]. destruct (nodes_of_proto l) as [ns0| |]; [|done|done].
    intros [= <-] [->|H]%elem_of_cons Hd; [by eapply node_read|by eapply IH].
Qed.

Theorem C23_times b e n d :
  read_system_event b = Done e -> n ∈ event_nodes e -> rn_started n = Some d ->
  (-8334632851200 <= dt_seconds d <= 8210298412799)%Z /\ dt_nanos d < 2000000000.
Proof.
  intros Hb Hn Hd. change (datetime_ok d). revert Hb. unfold read_system_event. destruct b as [|code b]; [done|].
  assert (Hone : forall w : remote_node -> system_event, (forall x, event_nodes (w x) = [x]) ->
    obind (unwrap (parse_msg node_event_codec b)) (fun e => omap_out w (event_node e)) = Done e -> datetime_ok d).
  { intros w Hw. unfold obind, unwrap, omap_out. destruct (parse_msg node_event_codec b) as [v|]; [|done].
    destruct (event_node v) as [x| |] eqn:Ev; [|done|done]. intros [= <-]. rewrite Hw in Hn. apply elem_of_list_singleton in Hn as ->.
    unfold event_node, obind, unwrap in Ev. destruct (ne_node v) as [p|]; [|done]. by eapply node_read. }
  destruct (code =? sys_node_removed); [by apply Hone|]. destruct (code =? sys_new_node); [by apply Hone|].
  destruct (code =? sys_leader_changed).
  { unfold obind, unwrap. destruct (parse_msg leader_changed_codec b) as [v|]; [|done]. intros [= <-]. by apply elem_of_nil in Hn. }
  destruct (code =? sys_member_up); [|done].
  unfold obind, unwrap, omap_out. destruct (parse_msg member_up_codec b) as [v|]; [|done].
  destruct (nodes_of_proto (mu_nodes v)) as [ns| |] eqn:Ev; [|done|done]. intros [= <-]. by eapply nodes_read.
Qed.
Print Assumptions C23_times.

(** A node that was added; a code nobody writes; a time too far off. *)
Definition added (s : Z) : option bytes :=
  write_system_event (SysNodeAdded (RemoteNode 3 [97] [] (Some (DateTime s 5)) [])).
Example C23_system_case :
  (read_system_event <$> added 1700000000, read_system_event [9; 1], read_system_event <$> added 8210298412800) =
  (Some (Done (SysNodeAdded (RemoteNode 3 [97] [] (Some (DateTime 1700000000 5)) []))), Rejected, Some Panicked).
Proof. by vm_compute. Qed.
