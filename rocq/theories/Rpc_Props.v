(** Theorems about requests between nodes: C24, C25. *)
From Verif Require Import Rpc_Model Rpc_Spec Rpc_Proofs Wire_Proofs.
Open Scope string_scope.
Open Scope list_scope.
Open Scope nat_scope.

(** Ids of one byte, for the examples. *)
Definition parse1 (b : bytes) : option N := match b with [x] => Some x | _ => None end.
Definition result_frame (id : bytes) (r : bytes) : bytes := default [] (write_client_event (CResult (ClientResult id r []))).
Definition err_frame (id : bytes) (e : actor_ref_err) : bytes := default [] (write_client_event (CErr (ClientErr id (Some (err_to_proto e)) []))).
Definition run24 : list top :=
  [TPush 5; TPush 7; TFrame 1 ClientSide (result_frame [9%N] [1%N]);
   TFrame 1 ClientSide (result_frame [7%N] [2%N]); TFrame 2 SessionSide (result_frame [7%N] [3%N]);
   TFrame 2 SessionSide (err_frame [5%N] InvalidRef); TPush 6]%N.

(** ** C24: responses reach their requester *)
(** In sound histories: a request ends with the first answer that carries its id, whatever else
    arrives; it is outstanding until then. *)
Theorem C24_answered_partial parse l1 id l2 :
  forallb (sound parse) (l1 ++ TPush id :: l2) = true ->
  let t := n_table (trun parse new_rnode (l1 ++ TPush id :: l2)) in
  match fate parse id l2 with
  | Some r => forall r', (pushes l1, r') ∈ t_ended t <-> r' = r
  | None => t_requests t !! id = Some (pushes l1) /\ forall r', (pushes l1, r') ∉ t_ended t
  end.
Proof. exact (fate_exact parse l1 id l2). Qed.
Print Assumptions C24_answered_partial.

Example C24_answered_case :
  forallb (sound parse1) run24 = true /\
  fate parse1 7 (drop 2 run24) = Some (Answered (ROk [2%N])) /\ fate parse1 5 (drop 1 run24) = Some (Answered (RErr InvalidRef)) /\
  fate parse1 6 (drop 7 run24) = None /\
  t_ended (n_table (trun parse1 new_rnode run24)) = [(1, Answered (ROk [2%N])); (0, Answered (RErr InvalidRef))].
Proof. vm_compute. done. Qed.

(** At most once: in every history, whatever arrives. *)
Theorem C24_at_most_once parse l : NoDup (t_ended (n_table (trun parse new_rnode l))).*1.
Proof. apply tinv_run, tinv_new. Qed.
Print Assumptions C24_at_most_once.

(** Never another: in every history, an answer that a requester gets was given, after it asked,
    under the id that it asked with (and that nobody took since). *)
Theorem C24_never_another parse l k r :
  (k, Answered r) ∈ t_ended (n_table (trun parse new_rnode l)) ->
  exists l1 id l2 o l3, l = l1 ++ TPush id :: l2 ++ o :: l3 /\ pushes l1 = k /\ TPush id ∉ l2 /\ gives parse o = Some (id, r).
Proof. apply traced_run. Qed.
Print Assumptions C24_never_another.

Example C24_never_another_case : (1, Answered (ROk [2%N])) ∈ t_ended (n_table (trun parse1 new_rnode run24)).
Proof. replace (t_ended (n_table (trun parse1 new_rnode run24))) with [(1, Answered (ROk [2%N])); (0, Answered (RErr InvalidRef))] by (vm_compute; reflexivity). left. Qed.

(** Strays and duplicates have no effect: neither on the table nor on the connection. *)
Theorem C24_stray parse n c s frame id r :
  says parse s frame = Some (id, r) -> t_requests (n_table n) !! id = None -> readable s frame = true ->
  tstep parse n (TFrame c s frame) = n.
Proof.
  intros Hs Hn Hr. assert (HS : sound parse (TFrame c s frame) = true). { simpl. rewrite Hr, Hs. by destruct (meant s frame). }
  simpl. destruct (decide _); [done|]. rewrite (on_frame_sound _ _ c) by done. rewrite Hs.
  rewrite complete_none by done. by destruct n.
Qed.
Print Assumptions C24_stray.
(** After an answer its id is unknown, so that a duplicate is a stray. *)
Theorem C24_duplicate parse n c c' s s' frame frame' id r r' :
  says parse s frame = Some (id, r) -> says parse s' frame' = Some (id, r') -> readable s frame = true -> readable s' frame' = true ->
  c ∉ n_dead n ->
  tstep parse (tstep parse n (TFrame c s frame)) (TFrame c' s' frame') = tstep parse n (TFrame c s frame).
Proof.
  intros Hs Hs' Hr Hr' Hc. eapply C24_stray; [done| |done].
  assert (HS : sound parse (TFrame c s frame) = true). { simpl. rewrite Hr, Hs. by destruct (meant s frame). }
  simpl. rewrite decide_False by done. rewrite (on_frame_sound _ _ c) by done. rewrite Hs. simpl.
  unfold complete. destruct (t_requests (n_table n) !! id) eqn:E; simpl; [apply lookup_delete|done].
Qed.
Print Assumptions C24_duplicate.
Example C24_stray_case :
  says parse1 ClientSide (result_frame [9%N] [1%N]) = Some (9%N, ROk [1%N]) /\
  readable ClientSide (result_frame [9%N] [1%N]) = true.
Proof. vm_compute. done. Qed.

(** What the other side writes is what is said here: results, errors and pongs. *)
Theorem C24_written parse id tid r tr b :
  parse tid = Some id -> client_event_ok (CResult (ClientResult tid r tr)) ->
  write_client_event (CResult (ClientResult tid r tr)) = Some b -> frame_fits b ->
  says parse ClientSide b = Some (id, ROk r) /\ readable ClientSide b = true.
Proof. intros Hp Hok Hw Hf. unfold says, readable. rewrite (client_event_roundtrip _ _ Hok Hw Hf). simpl. by rewrite Hp. Qed.
Theorem C24_written_session parse id tid r tr b :
  parse tid = Some id -> session_event_ok (SResult (ClientResult tid r tr)) ->
  write_session_event (SResult (ClientResult tid r tr)) = Some b -> frame_fits b ->
  says parse SessionSide b = Some (id, ROk r) /\ readable SessionSide b = true.
Proof. intros Hp Hok Hw Hf. unfold says, readable. rewrite (session_event_roundtrip _ _ Hok Hw Hf). simpl. by rewrite Hp. Qed.
Print Assumptions C24_written_session.
Print Assumptions C24_written.

(** In all histories the property is false: a malformed frame ends the receive loop, and the
    answers that follow it on that connection are not seen. *)
Definition C24_statement : Prop := forall parse l1 id l2 r,
  fate parse id l2 = Some (Answered r) ->
  (pushes l1, Answered r) ∈ t_ended (n_table (trun parse new_rnode (l1 ++ TPush id :: l2))).
Theorem C24_malformed_refuted : ~ C24_statement.
Proof.
  intros H. specialize (H parse1 [] 5%N [TFrame 1 ClientSide (result_frame [1%N; 2%N] []); TFrame 1 ClientSide (result_frame [5%N] [3%N])] (ROk [3%N])).
  assert (E : fate parse1 5 [TFrame 1 ClientSide (result_frame [1%N; 2%N] []); TFrame 1 ClientSide (result_frame [5%N] [3%N])] = Some (Answered (ROk [3%N]))) by (vm_compute; done).
  specialize (H E). 
  replace (t_ended _) with (@nil (nat * rend)) in H by (vm_compute; reflexivity). by apply elem_of_nil in H.
Qed.
Print Assumptions C24_malformed_refuted.

(** In general: after an answer with an id that is no uuid, or a frame that cannot be read, all
    that arrives on the connection is ignored. *)
Theorem C24_deaf parse n c s frame l :
  (meant s frame = true /\ says parse s frame = None /\ s = SessionSide) \/ readable s frame = false \/
  ((exists r, read_client_event frame = Done (CResult r) /\ parse (cr_message_id r) = None) \/
   (exists e, read_client_event frame = Done (CErr e) /\ parse (ce_message_id e) = None) \/
   (exists p, read_client_event frame = Done (CPong p) /\ parse (po_message_id p) = None)) /\ s = ClientSide ->
  trun parse (tstep parse n (TFrame c s frame)) l =
  trun parse (tstep parse n (TFrame c s frame)) (List.filter (fun o => negb (on_conn c o)) l).
Proof.
  intros H. apply dead_run. simpl. destruct (decide (c ∈ n_dead n)) as [?|Hc]; [done|].
  assert (E : snd (on_frame parse (n_table n) s frame) = false).
  { destruct H as [(H1 & H2 & ->)|[H|[[(r & H1 & H2)|[(r & H1 & H2)|(r & H1 & H2)]] ->]]].
    - unfold meant, says, on_frame in *. destruct (read_session_event frame) as [e| |]; try done. destruct e; try done; simpl in *.
      + by destruct (parse _).
      + destruct (parse _); simpl in *; destruct (ce_error _); simpl in *; try done; destruct (err_of_proto _); done.
    - unfold readable, on_frame in *. destruct s; [by destruct (read_client_event frame)|by destruct (read_session_event frame)].
    - unfold on_frame. rewrite H1. simpl. by rewrite H2.
    - unfold on_frame. rewrite H1. simpl. by rewrite H2.
    - unfold on_frame. rewrite H1. simpl. by rewrite H2. }
  destruct (on_frame parse (n_table n) s frame) as [t ok]. simpl in *. subst ok. set_solver.
Qed.
Print Assumptions C24_deaf.

(** ** C25: requests do not accumulate *)
(** Without errors at the other side, timeouts of pings, and messages that cannot be encoded:
    when no call waits, no node holds a request. Packets may be lost and answers missing. *)
Theorem C25_no_residue_partial l s : srun new_rsys l = Some s -> Forall clean l -> settled s -> s_reqs s = ∅.
Proof.
  intros Hr Hl Hs. apply set_eq. intros [n id]. split; [|set_solver]. intros Hin.
  destruct (held_run _ _ Hr Hl _ _ Hin) as (p & Hp & _). by apply Hs in Hp.
Qed.
Print Assumptions C25_no_residue_partial.
(** And then the entries of a node are the calls that wait there. *)
Theorem C25_held_partial l s n id : srun new_rsys l = Some s -> Forall clean l -> (n, id) ∈ s_reqs s ->
  (exists p, s_calls s !! id = Some (Waiting p)) /\ fst id = n.
Proof. intros Hr Hl Hin. destruct (held_run _ _ Hr Hl _ _ Hin) as (p & Hp & ?). eauto. Qed.
Print Assumptions C25_held_partial.

Definition run25 : list sop := [QSend 1 2 true; QPing 2 1; QNotify 1 2; QOk 1; QOk 0; QOk 0; QAnswer 1; QAnswer 0]%N.
Example C25_no_residue_case : Forall clean run25 /\
  match srun new_rsys run25 with
  | Some s => map_to_list (s_calls s) = [((1, 0)%N, Ended); ((2, 1)%N, Ended)] /\ s_packets s = [] /\ elements (s_reqs s) = []
  | None => False
  end.
Proof. split; [by repeat constructor|]. vm_compute. done. Qed.

(** An entry under another node's id is never removed: whatever happens later. *)
Theorem C25_error_refuted l s i src dst id resp :
  srun new_rsys l = Some s -> s_packets s !! i = Some (PRequest src dst id resp) -> src <> dst ->
  exists s', sstep s (QErr i) = Some s' /\ forall l' s'', srun s' l' = Some s'' -> (dst, id) ∈ s_reqs s''.
Proof.
  intros Hr Hp Hne. pose proof (sinv_run _ _ Hr) as HI.
  destruct (sstep s (QErr i)) as [s'|] eqn:E; [|by simpl in E; rewrite Hp in E]. exists s'. split; [done|]. intros l' s'' Hl'.
  assert (Ho : fst id = src). { destruct HI as (I1 & _). apply elem_of_list_lookup_2 in Hp. by destruct (I1 _ Hp). }
  eapply foreign_run; [by eapply sinv_step|done|congruence|].
  simpl in E. rewrite Hp in E. rewrite (proj2 (N.eqb_neq src dst)) in E by done. injection E as <-. simpl. set_solver.
Qed.
Print Assumptions C25_error_refuted.

(** A message that cannot be encoded leaves an entry for ever. *)
Theorem C25_encode_refuted l s n m :
  srun new_rsys l = Some s ->
  exists s', sstep s (QSend n m false) = Some s' /\ s_calls s' !! (n, s_next s) = Some Ended /\
  forall l' s'', srun s' l' = Some s'' -> (n, (n, s_next s)) ∈ s_reqs s''.
Proof.
  intros Hr. destruct (sinv_run _ _ Hr) as (I1 & _ & _). eexists. split; [done|]. simpl. split; [apply lookup_insert|].
  intros l' s'' Hl. eapply (silent_run l') in Hl as [Hl _]; [apply Hl; simpl; set_solver|].
  split; simpl; [lia|]. rewrite app_nil_r. intros p [Hp _]%I1 E. rewrite E in Hp. simpl in Hp. lia.
Qed.
Print Assumptions C25_encode_refuted.

(** A ping that timed out, its pong lost, leaves an entry for ever. *)
Theorem C25_timeout_refuted l s n m :
  srun new_rsys l = Some s ->
  exists s', srun s [QPing n m; QLose (length (s_packets s)); QTimeout (n, s_next s)] = Some s' /\
  s_calls s' !! (n, s_next s) = Some Ended /\
  forall l' s'', srun s' l' = Some s'' -> (n, (n, s_next s)) ∈ s_reqs s''.
Proof.
  intros Hr. destruct (sinv_run _ _ Hr) as (I1 & _ & _). eexists. split.
  { cbn [srun sstep s_packets s_calls s_next s_reqs mbind option_bind]. rewrite list_lookup_middle by done. cbn [mbind option_bind drop_packet s_calls s_packets s_reqs s_next].
    rewrite lookup_insert. cbn [mbind option_bind]. done. }
  cbn [s_calls]. split; [by rewrite lookup_insert|]. intros l' s'' Hl.
  eapply (silent_run l') in Hl as [Hl _]; [apply Hl; simpl; set_solver|].
  split; simpl; [lia|]. intros p Hp E. rewrite delete_middle, app_nil_r in Hp. apply I1 in Hp as [Hp _]. rewrite E in Hp. simpl in Hp. lia.
Qed.
Print Assumptions C25_timeout_refuted.

(** A request or answer that is lost with its connection: the call waits for ever. *)
Theorem C25_lost_refuted l s n m :
  srun new_rsys l = Some s ->
  exists s', srun s [QSend n m true; QLose (length (s_packets s))] = Some s' /\
  forall l' s'', srun s' l' = Some s'' -> s_calls s'' !! (n, s_next s) = Some (Waiting false).
Proof.
  intros Hr. destruct (sinv_run _ _ Hr) as (I1 & _ & _). eexists. split.
  { cbn [srun sstep s_packets s_calls s_next s_reqs mbind option_bind]. rewrite list_lookup_middle by done. cbn [mbind option_bind drop_packet s_calls s_packets s_reqs s_next]. done. }
  intros l' s'' Hl. eapply (silent_run l') in Hl as [_ Hl]; [apply Hl; simpl; by rewrite lookup_insert|].
  split; simpl; [lia|]. intros p Hp E. rewrite delete_middle, app_nil_r in Hp. apply I1 in Hp as [Hp _]. rewrite E in Hp. simpl in Hp. lia.
Qed.
Print Assumptions C25_lost_refuted.

(** Every call has its answer, and the responder holds as many entries as there were errors. *)
Fixpoint failing (k : nat) : list sop := match k with O => [] | S k' => failing k' ++ [QSend 1 2 true; QErr 0; QAnswer 0]%N end.
Theorem C25_growth_refuted k : exists s, srun new_rsys (failing k) = Some s /\ settled s /\ s_packets s = [] /\ size (s_reqs s) = k.
Proof.
  assert (H : exists s, srun new_rsys (failing k) = Some s /\ settled s /\ s_packets s = [] /\ size (s_reqs s) = k /\
    (forall n id, (n, id) ∈ s_reqs s -> n = 2%N /\ (snd id < s_next s)%N)).
  { induction k as [|k (s & Hr & Hs & Hp & Hk & Hn)].
    - exists new_rsys. split_and!; try done; set_solver.
    - cbn [failing]. rewrite srun_app, Hr. destruct s as [reqs packets next calls]. simpl in Hp, Hk, Hn. subst packets.
      set (id := (1, next)%N).
      assert (Hd : (1%N, id) ∈ (reqs ∪ {[(1%N, id)]} ∪ {[(2%N, id)]} : gset (N * rid))) by set_solver.
      cbn [mbind option_bind srun sstep s_packets s_calls s_next s_reqs list_lookup lookup app drop_packet put_packet delete list_delete N.eqb Pos.eqb].
      unfold answer, drop_packet, put_packet. cbn [s_packets s_calls s_next s_reqs app delete list_delete]. fold id. rewrite decide_True by done. eexists. split; [done|].
      assert (Hx : (1%N, id) ∉ reqs) by (intros [? _]%Hn; done).
      assert (Hy : (2%N, id) ∉ reqs) by (intros [_ ?]%Hn; simpl in *; lia).
      replace ((reqs ∪ {[(1%N, id)]} ∪ {[(2%N, id)]}) ∖ {[(1%N, id)]}) with (reqs ∪ {[(2%N, id)]}) by set_solver.
      split_and!; cbn [s_packets s_calls s_next s_reqs].
      + intros x p. rewrite lookup_insert. change (fst id) with 1%N. cbn [N.eqb Pos.eqb s_calls]. destruct (decide (x = id)) as [->|Hne].
        * by rewrite lookup_insert.
        * rewrite !lookup_insert_ne by done. apply Hs.
      + done.
      + rewrite size_union by set_solver. rewrite size_singleton, Hk. lia.
      + intros n x [Hi|Hi%elem_of_singleton]%elem_of_union; [apply Hn in Hi; split; [tauto|lia]|]. injection Hi as -> ->. simpl. split; [done|lia]. }
  destruct H as (s & ? & ? & ? & ? & _). eauto.
Qed.
Print Assumptions C25_growth_refuted.
