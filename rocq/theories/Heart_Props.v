(** Properties C20 and C32 to C35: node health, leadership, cluster start and health report. *)
From Verif Require Import Nodes_Model Nodes_Spec Nodes_Proofs Nodes_Props Heart_Model Heart_Spec Heart_Proofs.
Local Open Scope string_scope.
Local Open Scope list_scope.
Local Open Scope N_scope.

Section props.
Variable min_date max_date max_duration : Z.
Variable cf : hconfig.
Context {C : Type}.
Variable rhash : N -> string -> string -> option Z -> N.
Variable search : list N -> N -> nat.
Variable self : N.
Notation hstep := (hstep min_date max_date max_duration cf (C := C) rhash search self).
Notation run single l := (hrun min_date max_date max_duration cf (C := C) rhash search self (new_heart rhash self single) l).
Notation status h n := (s_status <$> record (h_store h) n).
Implicit Types (h : heart C).

(** ** C32 *)

(** In every history, a heartbeat finds a node whose last ping was answered

    - Healthy exactly when the answer is recent and came promptly, *)
Theorem C32_prompt b l h o h' clock n latency received :
  run b l = Some h -> hstep h o = Some h' -> beats o = Some clock -> is_Some (record (h_store h) n) -> n <> self ->
  last_ping (l ++ [o]) n = Some (POk latency received) ->
  status h' n = Some Healthy <->
    latency <= cf_unhealthy cf /\ (clock n - received < Z.of_N (cf_unhealthy cf))%Z /\
    (clock n - received < Z.of_N (cf_terminated cf))%Z.
Proof.
  intros Hr Hs Hb [s Hrec] Hn Hp. destruct (step_record _ _ _ _ _ _ _ _ _ _ _ _ _ _ _ Hr Hs Hb Hrec Hn) as (s' & Hu & ->).
  rewrite Hp in Hu. unfold update_node, node_status in Hu.
  destruct (clock n - received <? 0)%Z; [done|]. simpl in Hu.
  destruct (Z.leb_spec (Z.of_N (cf_terminated cf)) (clock n - received)).
  { injection Hu as <-. simpl. split; [done|]. lia. }
  destruct (Z.leb_spec (Z.of_N (cf_unhealthy cf)) (clock n - received)).
  { injection Hu as <-. simpl. split; [done|]. lia. }
  destruct (N.ltb_spec (cf_unhealthy cf) latency); injection Hu as <-; simpl.
  - split; [done|]. lia.
  - split; [|done]. intros _. lia.
Qed.
(** - Terminated exactly when the answer is as old as the termination timeout, *)
Theorem C32_silent b l h o h' clock n latency received :
  run b l = Some h -> hstep h o = Some h' -> beats o = Some clock -> is_Some (record (h_store h) n) -> n <> self ->
  last_ping (l ++ [o]) n = Some (POk latency received) ->
  status h' n = Some Terminated <-> (Z.of_N (cf_terminated cf) <= clock n - received)%Z.
Proof.
  intros Hr Hs Hb [s Hrec] Hn Hp. destruct (step_record _ _ _ _ _ _ _ _ _ _ _ _ _ _ _ Hr Hs Hb Hrec Hn) as (s' & Hu & ->).
  rewrite Hp in Hu. unfold update_node, node_status in Hu.
  destruct (clock n - received <? 0)%Z; [done|]. simpl in Hu.
  destruct (Z.leb_spec (Z.of_N (cf_terminated cf)) (clock n - received)).
  { injection Hu as <-. simpl. done. }
  destruct (Z.leb_spec (Z.of_N (cf_unhealthy cf)) (clock n - received)).
  { injection Hu as <-. simpl. split; [done|]. lia. }
  destruct (N.ltb_spec (cf_unhealthy cf) latency); injection Hu as <-; simpl; (split; [done|]); lia.
Qed.
(** - Unhealthy exactly in between. *)
Theorem C32_late b l h o h' clock n latency received :
  run b l = Some h -> hstep h o = Some h' -> beats o = Some clock -> is_Some (record (h_store h) n) -> n <> self ->
  last_ping (l ++ [o]) n = Some (POk latency received) ->
  status h' n = Some Unhealthy <->
    (clock n - received < Z.of_N (cf_terminated cf))%Z /\
    (cf_unhealthy cf < latency \/ (Z.of_N (cf_unhealthy cf) <= clock n - received)%Z).
Proof.
  intros Hr Hs Hb [s Hrec] Hn Hp. destruct (step_record _ _ _ _ _ _ _ _ _ _ _ _ _ _ _ Hr Hs Hb Hrec Hn) as (s' & Hu & ->).
  rewrite Hp in Hu. unfold update_node, node_status in Hu.
  destruct (clock n - received <? 0)%Z; [done|]. simpl in Hu.
  destruct (Z.leb_spec (Z.of_N (cf_terminated cf)) (clock n - received)).
  { injection Hu as <-. simpl. split; [done|]. lia. }
  destruct (Z.leb_spec (Z.of_N (cf_unhealthy cf)) (clock n - received)).
  { injection Hu as <-. simpl. split; [|done]. lia. }
  destruct (N.ltb_spec (cf_unhealthy cf) latency); injection Hu as <-; simpl; [split; [|done]|split; [done|]]; lia.
Qed.
(** The latency and the time of the answer are recorded. *)
Theorem C32_recorded b l h o h' clock n latency received :
  run b l = Some h -> hstep h o = Some h' -> beats o = Some clock -> is_Some (record (h_store h) n) -> n <> self ->
  last_ping (l ++ [o]) n = Some (POk latency received) ->
  exists s, record (h_store h') n = Some s /\ s_latency s = Some latency /\ s_beat s = Some received.
Proof.
  intros Hr Hs Hb [s Hrec] Hn Hp. destruct (step_record _ _ _ _ _ _ _ _ _ _ _ _ _ _ _ Hr Hs Hb Hrec Hn) as (s' & Hu & ->).
  exists s'. split; [done|]. rewrite Hp in Hu. unfold update_node in Hu.
  destruct (node_status _ _ _ _ _ _ _); [|done]. by injection Hu as <-.
Qed.

(** A disconnected node is Terminated. *)
Theorem C32_disconnected b l h o h' clock n :
  run b l = Some h -> hstep h o = Some h' -> beats o = Some clock -> is_Some (record (h_store h) n) -> n <> self ->
  last_ping (l ++ [o]) n = Some PDisconnected -> status h' n = Some Terminated.
Proof.
  intros Hr Hs Hb [s Hrec] Hn Hp. destruct (step_record _ _ _ _ _ _ _ _ _ _ _ _ _ _ _ Hr Hs Hb Hrec Hn) as (s' & Hu & ->).
  rewrite Hp in Hu. unfold update_node, node_status in Hu. simpl in Hu. by injection Hu as <-.
Qed.

(** A node reported gone, or gone before and not pinged since, is Terminated; a node not
    pinged yet is Joining. *)
Theorem C32_not_pinged b l h o h' clock n s :
  run b l = Some h -> hstep h o = Some h' -> beats o = Some clock -> record (h_store h) n = Some s -> n <> self ->
  last_ping (l ++ [o]) n = None ->
  status h' n = Some (if bool_decide (s_status s = Terminated) || reports_gone o n then Terminated else Joining).
Proof.
  intros Hr Hs Hb Hrec Hn Hp. destruct (step_record _ _ _ _ _ _ _ _ _ _ _ _ _ _ _ Hr Hs Hb Hrec Hn) as (s' & Hu & ->).
  rewrite Hp in Hu. unfold update_node, node_status in Hu. simpl in Hu. injection Hu as <-. simpl. f_equal.
  apply (keyed_hrun _ _ _ _ _ _ _ _ _ _ Hr) in Hrec.
  destruct o as [|ord clock' mid|m ord clock' mid| |]; try done; simpl in *; rewrite ?Hrec.
  - by destruct (s_status s).
  - destruct (m =? n); simpl; by destruct (s_status s).
Qed.

(** This node is always Healthy. *)
Theorem C32_self b l h o h' clock :
  run b l = Some h -> hstep h o = Some h' -> beats o = Some clock -> is_Some (record (h_store h) self) ->
  status h' self = Some Healthy.
Proof.
  intros Hr Hs Hb [s Hrec]. destruct (step_self _ _ _ _ _ _ _ _ _ _ _ _ _ _ Hr Hs Hb Hrec) as (s' & -> & Hh & _).
  simpl. by rewrite Hh.
Qed.

(** After a ping that timed out the comparison is the wrong way round: a node whose last
    heartbeat is more recent than the termination timeout is declared Terminated, one that
    has been silent for longer is only Unhealthy. *)
Theorem C32_timeout_refuted b l h o h' clock n s beat :
  run b l = Some h -> hstep h o = Some h' -> beats o = Some clock -> record (h_store h) n = Some s -> n <> self ->
  s_beat s = Some beat -> last_ping (l ++ [o]) n = Some PTimeout ->
  (status h' n = Some Terminated <-> (clock n - beat <= Z.of_N (cf_terminated cf))%Z) /\
  (status h' n = Some Unhealthy <-> (Z.of_N (cf_terminated cf) < clock n - beat)%Z).
Proof.
  intros Hr Hs Hb Hrec Hn Hbe Hp. destruct (step_record _ _ _ _ _ _ _ _ _ _ _ _ _ _ _ Hr Hs Hb Hrec Hn) as (s' & Hu & ->).
  rewrite Hp in Hu. unfold update_node, node_status in Hu.
  assert (Hbs : s_beat (seen o s) = Some beat). { destruct o; try done. simpl. by destruct (_ =? _). }
  rewrite Hbs in Hu.
  destruct (max_duration <? _)%Z; [done|]. destruct (max_date <? _)%Z; [done|].
  destruct (Z.leb_spec (clock n) (beat + Z.of_N (cf_terminated cf))); simpl in Hu; injection Hu as <-; simpl.
  - split; (split; [|done || lia]); [lia|done].
  - split; (split; [|done || lia]); [done|lia].
Qed.
(** A single failed ping is enough: the heartbeat after the next one declares the node
    Terminated, whenever it was last heard of. *)
Theorem C32_error_refuted b l h o h' o2 h'' clock clock2 n :
  run b l = Some h -> hstep h o = Some h' -> beats o = Some clock -> hstep h' o2 = Some h'' -> beats o2 = Some clock2 ->
  is_Some (record (h_store h) n) -> n <> self ->
  last_ping (l ++ [o]) n = Some PErr -> last_ping (l ++ [o; o2]) n = Some PErr ->
  status h'' n = Some (match status h n with Some Unhealthy => Unhealthy | _ => Terminated end).
Proof.
  intros Hr Hs Hb Hs2 Hb2 [s Hrec] Hn Hp Hp2.
  destruct (step_record _ _ _ _ _ _ _ _ _ _ _ _ _ _ _ Hr Hs Hb Hrec Hn) as (s' & Hu & Hrec').
  assert (Hr' : run b (l ++ [o]) = Some h') by (rewrite hrun_app, Hr; cbn -[Heart_Model.hstep]; by rewrite Hs).
  replace (l ++ [o; o2]) with ((l ++ [o]) ++ [o2]) in Hp2 by by rewrite <- app_assoc.
  destruct (step_record _ _ _ _ _ _ _ _ _ _ _ _ _ _ _ Hr' Hs2 Hb2 Hrec' Hn) as (s'' & Hu' & ->).
  rewrite Hp in Hu. rewrite Hp2 in Hu'. unfold update_node, node_status in *. simpl in *.
  assert (Ho : seen o s = s).
  { destruct o as [| |m ord c mid| |]; try done. simpl.
    destruct (N.eqb_spec m (s_id s)) as [E|]; [|done]. exfalso.
    apply (keyed_hrun _ _ _ _ _ _ _ _ _ _ Hr) in Hrec. unfold last_ping in Hp. rewrite rev_app_distr in Hp. simpl in Hp.
    by rewrite E, Hrec, N.eqb_refl in Hp. }
  assert (Ho2 : seen o2 s' = s').
  { destruct o2 as [| |m ord c mid| |]; try done. simpl.
    destruct (N.eqb_spec m (s_id s')) as [E|]; [|done]. exfalso.
    apply (keyed_hrun _ _ _ _ _ _ _ _ _ _ Hr') in Hrec'. unfold last_ping in Hp2. rewrite rev_app_distr in Hp2. simpl in Hp2.
    by rewrite E, Hrec', N.eqb_refl in Hp2. }
  rewrite Ho in Hu. rewrite Ho2 in Hu'. rewrite Hrec. injection Hu as <-. injection Hu' as <-. simpl.
  by destruct (s_status s).
Qed.

(** ** C33 *)

(** In every history but for the first heartbeat: the leader after a heartbeat is the oldest
    healthy node among those the heartbeat looked at (if its id fits an i64, see C34). *)
Theorem C33_elected_partial b l h o h' s :
  run b l = Some h -> hstep h o = Some h' -> is_Some (beats o) -> beaten l ->
  oldest_healthy min_date (viewed h h') s -> small (s_id s) -> current_leader h' = Some (s_id s).
Proof.
  intros Hr Hs Hb Hl Ho Hsm. pose proof (keyed_hrun _ _ _ _ _ _ _ _ _ _ Hr) as Hk.
  apply (beaten_run _ _ _ _ _ _ _ _ _ _ Hr) in Hl.
  destruct (step_events _ _ _ _ _ _ _ _ _ _ Hk Hs) as [(_ & L & _ & _ & _ & HH)|(n & e & _ & L & _ & _ & _ & _ & _ & (s' & Ho' & <-) & _)].
  - unfold current_leader. rewrite L. by apply HH.
  - assert (s_id s' = s_id s) as E.
    { destruct Ho as (H1 & H2 & H3), Ho' as (W1 & W2 & W3). eapply (first_antisym min_date); [by apply W3|by apply H3]. }
    unfold current_leader. rewrite L, E. by apply small_leader.
Qed.
(** Whatever the ids: the node announced as leader is the oldest healthy node. *)
Theorem C33_announced b l h o h' es n :
  run b l = Some h -> hstep h o = Some h' -> published h h' es -> ELeader n ∈ es ->
  exists s, oldest_healthy min_date (viewed h h') s /\ s_id s = n.
Proof.
  intros Hr Hs Hp Hn. pose proof (keyed_hrun _ _ _ _ _ _ _ _ _ _ Hr) as Hk. unfold published in Hp.
  destruct (step_events _ _ _ _ _ _ _ _ _ _ Hk Hs) as [(P & _)|(m & e & P & _ & _ & _ & _ & _ & _ & HO & He)]; unfold published in P.
  - rewrite P in Hp. apply app_inv_head in Hp as <-. by apply elem_of_nil in Hn.
  - rewrite P in Hp. apply app_inv_head in Hp as <-. apply elem_of_app in Hn as [Hn|Hn%elem_of_list_singleton].
    + destruct He as [(_ & _ & _ & nodes & -> & _)|(_ & _ & ->)]; [by apply elem_of_list_singleton in Hn|by apply elem_of_nil in Hn].
    + by injection Hn as ->.
Qed.
(** So a node that is not healthy is never elected. *)
Theorem C33_healthy b l h o h' es n :
  run b l = Some h -> hstep h o = Some h' -> published h h' es -> ELeader n ∈ es -> status h' n = Some Healthy.
Proof.
  intros Hr Hs Hp Hn. destruct (C33_announced _ _ _ _ _ _ _ Hr Hs Hp Hn) as (s & ((_ & H) & Hh & _) & <-).
  rewrite H. simpl. by rewrite Hh.
Qed.
(** As long as the node knows itself there is a node to elect. *)
Theorem C33_some b l h o h' :
  run b l = Some h -> hstep h o = Some h' -> is_Some (beats o) -> is_Some (record (h_store h) self) ->
  exists s, oldest_healthy min_date (viewed h h') s.
Proof.
  intros Hr Hs [clock Hb] [s Hrec]. destruct (step_self _ _ _ _ _ _ _ _ _ _ _ _ _ _ Hr Hs Hb Hrec) as (s' & Hs' & Hh & _).
  assert (Hk : keyed (h_store h')) by (eapply keyed_hstep; [by eapply keyed_hrun|done]).
  assert (HV : exists x, viewed h h' x /\ s_status x = Healthy).
  { exists s'. split; [|done]. unfold viewed. rewrite (Hk _ _ Hs'). split; [by eexists|done]. }
  clear s' Hs' Hh.
  (* the records of the table, as a list *)
  set (vs := List.filter (fun x => bool_decide (is_Some (d_nodes (h_store h) !! s_id x)) && is_healthy (s_status x)) (map_to_list (d_nodes (h_store h'))).*2).
  assert (Hvs : forall x, x ∈ vs <-> viewed h h' x /\ s_status x = Healthy).
  { intros x. unfold vs. rewrite elem_of_list_In, filter_In, <- elem_of_list_In, andb_true_iff, bool_decide_eq_true, healthy_true.
    unfold viewed, record. rewrite elem_of_list_fmap. split.
    - intros (([k y] & -> & Hy) & H1 & H2). apply elem_of_map_to_list in Hy. simpl in *. rewrite (Hk _ _ Hy) in *. done.
    - intros ((H1 & H2) & H3). split; [|done]. exists (s_id x, x). split; [done|]. by apply elem_of_map_to_list. }
  destruct (choose min_date vs) as [y|] eqn:Ec.
  - exists y. destruct (choose_oldest min_date _ _ Ec) as (H1 & H2 & H3). apply Hvs in H1 as [H1 _]. split_and!; [done..|].
    intros x Hx Hhx. apply H3; [|done]. by apply Hvs.
  - destruct HV as (x & Hx & Hhx). destruct (choose_none min_date _ Ec x); [|done]. by apply Hvs.
Qed.
End props.

(** Two nodes, of any cluster and with any history, whose heartbeats see the same healthy
    nodes (in whatever order, whatever they know about the others) have the same leader. *)
Theorem C33_agreement_partial {C} min_date max1 dur1 cf1 rhash search self1 max2 dur2 cf2 self2 b1 b2 l1 l2
    (h1 h2 h1' h2' : heart C) o1 o2 :
  hrun min_date max1 dur1 cf1 rhash search self1 (new_heart rhash self1 b1) l1 = Some h1 ->
  hrun min_date max2 dur2 cf2 rhash search self2 (new_heart rhash self2 b2) l2 = Some h2 ->
  hstep min_date max1 dur1 cf1 rhash search self1 h1 o1 = Some h1' ->
  hstep min_date max2 dur2 cf2 rhash search self2 h2 o2 = Some h2' ->
  is_Some (beats o1) -> is_Some (beats o2) -> beaten l1 -> beaten l2 -> is_Some (record (h_store h1) self1) ->
  (forall n, s_status n = Healthy -> viewed h1 h1' n -> small (s_id n)) ->
  (forall n, (exists s, viewed h1 h1' s /\ s_status s = Healthy /\ s_node s = n) <->
             (exists s, viewed h2 h2' s /\ s_status s = Healthy /\ s_node s = n)) ->
  current_leader h1' = current_leader h2' /\ is_Some (current_leader h1').
Proof.
  intros R1 R2 S1 S2 B1 B2 T1 T2 Hself Hsm Hv.
  destruct (C33_some _ _ _ _ _ _ _ _ _ _ _ _ R1 S1 B1 Hself) as [s1 (V1 & H1 & O1)].
  destruct (proj1 (Hv (s_node s1))) as (s2 & V2 & H2 & E); [by exists s1|].
  assert (Eid : s_id s2 = s_id s1) by (unfold s_id; by rewrite E).
  assert (O2 : oldest_healthy min_date (viewed h2 h2') s2).
  { split_and!; [done..|]. intros x Hx Hhx. destruct (proj2 (Hv (s_node x))) as (y & Hy & Hhy & Ey); [by exists x|].
    specialize (O1 y Hy Hhy). unfold comes_first in *. rewrite Eid, E. unfold s_id. rewrite <- Ey. apply O1. }
  rewrite (C33_elected_partial _ _ _ _ _ _ _ _ _ _ _ _ s1 R1 S1 B1 T1) by (try done; by apply Hsm).
  rewrite (C33_elected_partial _ _ _ _ _ _ _ _ _ _ _ _ s2 R2 S2 B2 T2); [rewrite Eid; by eauto|done|].
  rewrite Eid. by apply Hsm.
Qed.

Section props2.
Variable min_date max_date max_duration : Z.
Variable cf : hconfig.
Context {C : Type}.
Variable rhash : N -> string -> string -> option Z -> N.
Variable search : list N -> N -> nat.
Variable self : N.
Notation hstep := (hstep min_date max_date max_duration cf (C := C) rhash search self).
Notation run single l := (hrun min_date max_date max_duration cf (C := C) rhash search self (new_heart rhash self single) l).
Implicit Types (h : heart C).

(** The first heartbeat elects no one. *)
Theorem C33_first_refuted b l h o h' :
  run b l = Some h -> hstep h o = Some h' -> ~ beaten l -> h_sent h' = [] /\ current_leader h' = current_leader h.
Proof.
  intros Hr Hs Hb. pose proof (keyed_hrun _ _ _ _ _ _ _ _ _ _ Hr) as Hk.
  assert (Hnb : h_beaten h <> true) by (intros HH; apply Hb; by apply (beaten_run _ _ _ _ _ _ _ _ _ _ Hr)).
  assert (Hse : h_sent h = []).
  { clear Hs Hk Hnb. revert h Hr. induction l as [|x l IH] using rev_ind; intros h; [by intros [= <-]|].
    intros (h1 & H1 & H2)%hrun_snoc.
    assert (Hb1 : ~ beaten l) by (intros (y & Hy & ?); apply Hb; exists y; split; [|done]; apply elem_of_app; by left).
    specialize (IH Hb1 _ H1).
    destruct (step_events _ _ _ _ _ _ _ _ _ _ (keyed_hrun _ _ _ _ _ _ _ _ _ _ H1) H2) as [(P & _)|(n & e & _ & _ & Hbe & _)].
    - unfold published in P. by rewrite P, IH.
    - exfalso. apply Hb1. by apply (beaten_run _ _ _ _ _ _ _ _ _ _ H1). }
  destruct (step_events _ _ _ _ _ _ _ _ _ _ Hk Hs) as [(P & L & _)|(n & e & _ & _ & Hbe & _)]; [|done].
  unfold published in P. unfold current_leader. by rewrite P, L, Hse.
Qed.

(** ** C34 *)

(** If all the leaders so far have ids that fit an i64: the current leader is the last one
    announced (or none), *)
Theorem C34_current_partial l h :
  run false l = Some h -> Forall small (leaders (h_sent h)) -> current_leader h = last (leaders (h_sent h)).
Proof. apply leader_run. Qed.
(** - each announcement is a change, *)
Theorem C34_changes_partial l h l1 a b l2 :
  run false l = Some h -> Forall small (leaders (h_sent h)) -> leaders (h_sent h) = l1 ++ a :: b :: l2 -> a <> b.
Proof. intros H1 H2. by eapply leaders_change. Qed.
(** - and each change is announced, once, when it happens. *)
Theorem C34_announced_partial b l h o h' :
  run b l = Some h -> hstep h o = Some h' -> Forall small (leaders (h_sent h')) ->
  (current_leader h' = current_leader h /\ published h h' []) \/
  (exists n es, current_leader h' = Some n /\ current_leader h <> Some n /\ published h h' es /\ leaders es = [n]).
Proof.
  intros Hr Hs HF. pose proof (keyed_hrun _ _ _ _ _ _ _ _ _ _ Hr) as Hk.
  destruct (step_events _ _ _ _ _ _ _ _ _ _ Hk Hs) as [(P & L & _)|(n & e & P & L & _ & _ & _ & _ & Hne & _ & He)].
  - left. split; [|done]. unfold current_leader. by rewrite L.
  - right. exists n, (e ++ [ELeader n]). unfold published in P. split_and!; try done.
    + unfold current_leader. rewrite L. apply small_leader. rewrite P, !leaders_app in HF.
      by apply Forall_app in HF as [_ [_ [HF _]%Forall_cons]%Forall_app].
    + by destruct He as [(_ & _ & _ & nodes & -> & _)|(_ & _ & ->)].
Qed.

(** Callbacks, for all ids: each one registered has run once, with the leader that was
    announced then, or is waiting; they run in order, all of them at the next announcement. *)
Theorem C34_callbacks b l h : run b l = Some h -> (h_told h).*1 ++ h_waiting h = waits l.
Proof. apply waiting_run. Qed.
Theorem C34_callbacks_run b l h o h' :
  run b l = Some h -> hstep h o = Some h' ->
  (exists es n, published h h' es /\ leaders es = [n] /\ h_waiting h' = [] /\
    h_told h' = h_told h ++ ((fun c => (c, n)) <$> h_waiting h)) \/
  (published h h' [] /\ h_told h' = h_told h).
Proof.
  intros Hr Hs. pose proof (keyed_hrun _ _ _ _ _ _ _ _ _ _ Hr) as Hk.
  destruct (step_events _ _ _ _ _ _ _ _ _ _ Hk Hs) as [(P & L & _ & T & _)|(n & e & P & L & _ & _ & W & T & Hne & _ & He)].
  - by right.
  - left. exists (e ++ [ELeader n]), n. split_and!; try done.
    by destruct He as [(_ & _ & _ & nodes & -> & _)|(_ & _ & ->)].
Qed.

(** A node whose id does not fit an i64 (half of the ids that are drawn at random) is elected
    and announced, but reported as no leader at all; *)
Theorem C34_large_refuted b l h o h' es n :
  run b l = Some h -> hstep h o = Some h' -> published h h' es -> ELeader n ∈ es ->
  2 ^ 63 <= n < 2 ^ 64 -> current_leader h' = None.
Proof.
  intros Hr Hs Hp Hn Hl. pose proof (keyed_hrun _ _ _ _ _ _ _ _ _ _ Hr) as Hk. unfold published in Hp.
  destruct (step_events _ _ _ _ _ _ _ _ _ _ Hk Hs) as [(P & _)|(m & e & P & L & _ & _ & _ & _ & _ & HO & He)]; unfold published in P.
  - rewrite P in Hp. apply app_inv_head in Hp as <-. by apply elem_of_nil in Hn.
  - rewrite P in Hp. apply app_inv_head in Hp as <-. apply elem_of_app in Hn as [Hn|Hn%elem_of_list_singleton].
    + destruct He as [(_ & _ & _ & nodes & -> & _)|(_ & _ & ->)]; [by apply elem_of_list_singleton in Hn|by apply elem_of_nil in Hn].
    + injection Hn as ->. unfold current_leader. rewrite L. apply large_leader; [|lia]. unfold small. lia.
Qed.
(** and it is announced again at every heartbeat. *)
Theorem C34_repeated_refuted b l h o h' s :
  run b l = Some h -> hstep h o = Some h' -> is_Some (beats o) -> beaten l -> current_leader h = None ->
  oldest_healthy min_date (viewed h h') s -> exists es, published h h' es /\ leaders es = [s_id s].
Proof.
  intros Hr Hs Hb Hl Hc Ho. pose proof (keyed_hrun _ _ _ _ _ _ _ _ _ _ Hr) as Hk.
  apply (beaten_run _ _ _ _ _ _ _ _ _ _ Hr) in Hl.
  destruct (step_events _ _ _ _ _ _ _ _ _ _ Hk Hs) as [(_ & L & _ & _ & _ & HH)|(n & e & P & L & _ & _ & _ & _ & _ & (s' & Ho' & <-) & He)].
  - specialize (HH Hb Hl s Ho). congruence.
  - assert (s_id s' = s_id s) as E.
    { destruct Ho as (H1 & H2 & H3), Ho' as (W1 & W2 & W3). eapply (first_antisym min_date); [by apply W3|by apply H3]. }
    exists (e ++ [ELeader (s_id s')]). split; [done|]. rewrite E.
    by destruct He as [(_ & _ & _ & nodes & -> & _)|(_ & _ & ->)].
Qed.

(** ** C35 *)

(** At most one MemberUp event is ever published, *)
Theorem C35_once b l h : run b l = Some h -> (length (ups (h_sent h)) <= 1)%nat.
Proof. intros H. rewrite (up_run _ _ _ _ _ _ _ _ _ _ H). destruct (h_up h); lia. Qed.
(** by a heartbeat that elects a new leader, just before that is announced, with that leader and
    the nodes known to the heartbeat. *)
Theorem C35_with_leader b l h o h' es n nodes :
  run b l = Some h -> hstep h o = Some h' -> published h h' es -> EMemberUp n nodes ∈ es ->
  es = [EMemberUp n nodes; ELeader n] /\ forall m, m ∈ nodes <-> exists s, viewed h h' s /\ s_node s = m.
Proof.
  intros Hr Hs Hp Hn. pose proof (keyed_hrun _ _ _ _ _ _ _ _ _ _ Hr) as Hk. unfold published in Hp.
  destruct (step_events _ _ _ _ _ _ _ _ _ _ Hk Hs) as [(P & _)|(m & e & P & L & _ & _ & _ & _ & _ & HO & He)]; unfold published in P.
  - rewrite P in Hp. apply app_inv_head in Hp as <-. by apply elem_of_nil in Hn.
  - rewrite P in Hp. apply app_inv_head in Hp as <-.
    destruct He as [(_ & _ & _ & nodes' & -> & HM)|(_ & _ & ->)].
    + simpl in Hn. apply elem_of_cons in Hn as [Hn|Hn%elem_of_list_singleton]; [|done]. injection Hn as -> ->. done.
    + by apply elem_of_list_singleton in Hn.
Qed.
(** Without a configured minimum it comes with the first leader. *)
Theorem C35_no_minimum b l h :
  cf_min_size cf = None -> run b l = Some h -> take 1 (leaders (h_sent h)) = ups (h_sent h).
Proof. intros Hc. by apply no_minimum. Qed.
(** With one, the condition is the wrong way round: it comes with a new leader as long as the
    number of nodes that ever reported a ping result (this node not included) is at most the
    minimum, *)
Theorem C35_reversed_refuted b l h o h' es min n :
  cf_min_size cf = Some min -> run b l = Some h -> hstep h o = Some h' -> published h h' es -> ELeader n ∈ es ->
  ups (h_sent h) = [] -> (ups es = [n] <-> N.of_nat (size (h_pings h')) <= min).
Proof.
  intros Hc Hr Hs Hp Hn Hu. pose proof (keyed_hrun _ _ _ _ _ _ _ _ _ _ Hr) as Hk. unfold published in Hp.
  pose proof (up_run _ _ _ _ _ _ _ _ _ _ Hr) as Hup. rewrite Hu in Hup. destruct (h_up h) eqn:Eu; [done|].
  destruct (step_events _ _ _ _ _ _ _ _ _ _ Hk Hs) as [(P & _)|(m & e & P & L & _ & _ & _ & _ & _ & HO & He)]; unfold published in P.
  - rewrite P in Hp. apply app_inv_head in Hp as <-. by apply elem_of_nil in Hn.
  - rewrite P in Hp. apply app_inv_head in Hp as <-. unfold size_reached in He. rewrite Hc in He.
    destruct He as [(_ & Hz & _ & nodes' & -> & HM)|([?|Hz] & _ & ->)]; [|congruence|].
    + simpl in Hn. apply elem_of_cons in Hn as [Hn|Hn%elem_of_list_singleton]; [done|]. injection Hn as ->.
      simpl. apply N.leb_le in Hz. done.
    + apply N.leb_gt in Hz. simpl. split; [done|]. lia.
Qed.
(** A node built as a cluster of its own and alone takes itself for the leader from the start;
    neither LeaderChanged nor MemberUp is ever published and no leader callback ever runs. *)
Theorem C35_single_refuted l h :
  small self -> run true l = Some h -> Forall (lonely self) l ->
  h_sent h = [] /\ h_told h = [] /\ current_leader h = Some self.
Proof. intros H1 H2 H3. by destruct (lonely_run _ _ _ _ _ _ _ _ _ H1 H2 H3) as (_ & ? & ? & ?). Qed.
End props2.

(** ** Examples: default configuration, node 1 and its peers 2 and 3 *)
Definition ms (n : Z) : Z := (n * 1000000)%Z.
Definition dflt (min : option N) : hconfig := HConfig (Z.to_N (ms 1500)) (Z.to_N (ms 30000)) min.
Definition hx (cfg : hconfig) (self : N) (single : bool) (l : list (hop nat)) : option (heart nat) :=
  hrun (-100)%Z (ms 100000000) (ms 100000000000) cfg time_hash search_first self (new_heart time_hash self single) l.
Definition at_time (t : Z) (ord : list N) : hop nat := HTick ord (fun _ => ms t) [].
Definition view (h : heart nat) : option N * list N * list N * list (nat * N) :=
  (current_leader h, leaders (h_sent h), ups (h_sent h), h_told h).
Definition statuses (ns : list N) (h : heart nat) : list (option nstatus) :=
  (fun n => s_status <$> d_nodes (h_store h) !! n) <$> ns.

Definition boot : list (hop nat) :=
  [at_time 0 []; HRegistry (DAdd [] (node 1 20)); HWait 7%nat; at_time 500 []; HRegistry (DAdd [1] (node 2 10)); HRegistry (DAdd [] (node 3 30));
   HPing 2 (POk (Z.to_N (ms 3)) (ms 900)); HPing 3 (POk (Z.to_N (ms 2000)) (ms 950)); HWait 8%nat].
(** Node 2 is older and healthy, node 3 answers too slowly. *)
Example C32_example :
  statuses [1; 2; 3] <$> hx (dflt None) 1 false (boot ++ [at_time 1000 [3; 2]])
  = Some [Some Healthy; Some Healthy; Some Unhealthy].
Proof. by vm_compute. Qed.
Example C33_example :
  view <$> hx (dflt None) 1 false (boot ++ [at_time 1000 [3; 2]]) = Some (Some 2, [1; 2], [1], [(7%nat, 1); (8%nat, 2)]).
Proof. by vm_compute. Qed.
(** Node 2 disconnects, comes back later. *)
Example C34_example :
  view <$> hx (dflt None) 1 false (boot ++ [at_time 1000 []; HPing 2 PDisconnected; at_time 1500 []; at_time 2000 [];
    HPing 2 (POk 5 (ms 2100)); at_time 2200 []]) = Some (Some 2, [1; 2; 1; 2], [1], [(7%nat, 1); (8%nat, 2)]).
Proof. by vm_compute. Qed.
(** One missed ping (node 2 answered a second ago) and the leader is gone; 31 seconds later it
    is merely unhealthy. *)
Example C32_timeout_example :
  let l := boot ++ [at_time 1000 []; HPing 2 PTimeout] in
  (statuses [2] <$> hx (dflt None) 1 false (l ++ [at_time 1900 []]),
   statuses [2] <$> hx (dflt None) 1 false (l ++ [at_time 1900 []; at_time 31000 []]))
  = (Some [Some Terminated], Some [Some Unhealthy]).
Proof. by vm_compute. Qed.
Example C32_error_example :
  let l := boot ++ [at_time 1000 []; HPing 2 PErr; at_time 1100 []] in
  (statuses [2] <$> hx (dflt None) 1 false l, statuses [2] <$> hx (dflt None) 1 false (l ++ [at_time 1101 []]))
  = (Some [Some Unhealthy], Some [Some Terminated]).
Proof. by vm_compute. Qed.
(** The clock was set back: the heartbeat actor panics. *)
Theorem C32_clock_refuted : exists l,
  is_Some (hx (dflt None) 1 false l) /\ hx (dflt None) 1 false (l ++ [at_time 899 []]) = None.
Proof. exists boot. split; [|by vm_compute]. vm_compute. by eexists. Qed.
Print Assumptions C32_clock_refuted.

(** Node 2^63, alone: announced at every heartbeat, never reported. *)
Example C34_large_example :
  view <$> hx (dflt None) (2 ^ 63) false [HRegistry (DAdd [] (node (2 ^ 63) 20)); at_time 0 []; at_time 1 []; at_time 2 []; at_time 3 []]
  = Some (None, [2 ^ 63; 2 ^ 63; 2 ^ 63], [2 ^ 63], []).
Proof. by vm_compute. Qed.

(** Whatever the configured minimum, a node that has seen no other node publishes MemberUp at
    its second heartbeat, for itself alone. *)
Theorem C35_alone_refuted min :
  exists h, hx (dflt (Some min)) 1 false [HRegistry (DAdd [] (node 1 20)); at_time 0 []; at_time 1 []] = Some h /\
    h_sent h = [EMemberUp 1 [node 1 20]; ELeader 1].
Proof. destruct min; eexists; (split; [vm_compute; reflexivity|done]). Qed.
Print Assumptions C35_alone_refuted.
(** A cluster with a minimum of one, joined by two nodes before the second heartbeat: with all
    three nodes healthy, MemberUp is not published with the leader. *)
Theorem C35_never_refuted :
  let l := [HRegistry (DAdd [] (node 1 20)); at_time 0 []; HRegistry (DAdd [] (node 2 30)); HRegistry (DAdd [] (node 3 40));
            HPing 2 (POk 5 (ms 10)); HPing 3 (POk 5 (ms 10)); at_time 20 []] in
  view <$> hx (dflt (Some 1)) 1 false l = Some (Some 1, [1], [], []) /\
  statuses [1; 2; 3] <$> hx (dflt (Some 1)) 1 false l = Some [Some Healthy; Some Healthy; Some Healthy].
Proof. split; by vm_compute. Qed.
Print Assumptions C35_never_refuted.
(** A cluster of one. *)
Example C35_single_example :
  view <$> hx (dflt None) 1 true [HRegistry (DAdd [] (node 1 20)); HWait 7%nat; at_time 0 []; at_time 1 []; at_time 2 []]
  = Some (Some 1, [], [], []).
Proof. by vm_compute. Qed.

(** ** C20 *)

(** The status is Unhealthy exactly when one of the actors does not answer (that it runs),
    otherwise Degraded exactly when one took more than a second, otherwise Healthy. *)
Theorem C20_status answer l :
  (fst (health answer l) = SysUnhealthy <-> exists a, a ∈ l /\ answer a = None) /\
  (fst (health answer l) = SysDegraded <->
     (forall a, a ∈ l -> answer a <> None) /\ exists a t, a ∈ l /\ answer a = Some t /\ 1000000000 < t) /\
  (fst (health answer l) = SysHealthy <-> forall a, a ∈ l -> exists t, answer a = Some t /\ t <= 1000000000).
Proof. exact (health_status answer l). Qed.
Print Assumptions C20_status.

(** The report lists every actor with its own response time, and nothing else, if no two
    actors have the same path and id joined by a slash. *)
Theorem C20_report_partial answer l :
  (forall a b, a ∈ l -> b ∈ l -> report_key a = report_key b -> a = b) ->
  forall k r, snd (health answer l) !! k = Some r <-> exists a, a ∈ l /\ k = (k_path a ++ "/" ++ k_id a)%string /\ answer a = r.
Proof.
  intros Hk k r. rewrite health_report. split.
  - intros (l1 & a & l2 & -> & Hka & Ha & _). exists a. split_and!; [|done..]. apply elem_of_app. right. by left.
  - intros (a & Ha & -> & Hr).
    assert (HH : exists l1 l2, l = l1 ++ a :: l2 /\ forall b, b ∈ l2 -> report_key b <> report_key a).
    { assert (Hk' : forall b, b ∈ l -> report_key b = report_key a -> b = a) by (intros b Hb; by apply Hk).
      clear Hk. induction l as [|x l IH]; [by apply elem_of_nil in Ha|].
      destruct (decide (Exists (fun b => report_key b = report_key a) l)) as [He|He].
      - apply Exists_exists in He as (b & Hb & Heq). assert (b = a) as -> by (apply Hk'; [by right|done]).
        destruct IH as (l1 & l2 & -> & Hl); [done|intros c Hc; apply Hk'; by right|]. by exists (x :: l1), l2.
      - assert (x = a) as ->.
        { apply elem_of_cons in Ha as [->|Ha]; [done|]. destruct He. apply Exists_exists. eauto. }
        exists [], l. split; [done|]. intros b Hb Hbe. apply He. apply Exists_exists. eauto. }
    destruct HH as (l1 & l2 & -> & Hl). by exists l1, a, l2.
Qed.
Print Assumptions C20_report_partial.
(** Which actors those are: the system's own, and those registered and not removed since. *)
Theorem C20_registered sys l a :
  (forall s, KStart s ∉ l) -> a ∈ krun (KStart sys :: l) <-> registered sys l a.
Proof. apply registered_spec. Qed.
Print Assumptions C20_registered.
(** Two different actors can share a line of the report. *)
Theorem C20_report_refuted : exists answer a b,
  a <> b /\ answer a = Some 5 /\ answer b = None /\ map_to_list (snd (health answer [a; b])) = [("x/y/z", None)].
Proof.
  exists (fun a => if bool_decide (k_id a = "z") then None else Some 5), (Checked "x" "y/z"), (Checked "x/y" "z").
  split; [done|]. split; [done|]. split; [done|]. by vm_compute.
Qed.
Print Assumptions C20_report_refuted.
Example C20_example :
  let a := Checked "/s" "a" in let b := Checked "/s" "b" in let c := Checked "/s" "c" in
  let l := krun [KStart [a]; KRegister b; KRegister c; KRemove "b"] in
  l = [a; c] /\
  fst (health (fun x => if bool_decide (k_id x = "b") then None else Some 1500000000) l) = SysDegraded.
Proof. split; by vm_compute. Qed.

Print Assumptions C32_prompt.
Print Assumptions C32_silent.
Print Assumptions C32_late.
Print Assumptions C32_recorded.
Print Assumptions C32_disconnected.
Print Assumptions C32_not_pinged.
Print Assumptions C32_self.
Print Assumptions C32_timeout_refuted.
Print Assumptions C32_error_refuted.
Print Assumptions C33_elected_partial.
Print Assumptions C33_announced.
Print Assumptions C33_healthy.
Print Assumptions C33_some.
Print Assumptions C33_agreement_partial.
Print Assumptions C33_first_refuted.
Print Assumptions C34_current_partial.
Print Assumptions C34_changes_partial.
Print Assumptions C34_announced_partial.
Print Assumptions C34_callbacks.
Print Assumptions C34_callbacks_run.
Print Assumptions C34_large_refuted.
Print Assumptions C34_repeated_refuted.
Print Assumptions C35_once.
Print Assumptions C35_with_leader.
Print Assumptions C35_no_minimum.
Print Assumptions C35_reversed_refuted.
Print Assumptions C35_single_refuted.
