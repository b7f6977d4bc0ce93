(** Properties C53 to C56: cluster singletons. *)
From Verif Require Import Singleton_Model Singleton_Spec Singleton_Manager Singleton_Sys
  Singleton_Proofs Singleton_Progress Singleton_Proxy.
Local Open Scope string_scope.
Local Open Scope list_scope.
Local Open Scope N_scope.

(** ** C53 *)

(** Whenever a manager starts the singleton, the number of nodes that acknowledged since it
    took up leadership is the number of managers it knows. *)
Theorem C53_counted_partial includes n l i g effs eff :
  mrun includes n (l ++ [i]) = (g, effs ++ [eff]) -> starts eff ->
  size (acked_since (zip (l ++ [i]) (effs ++ [eff]))) = size (known n includes (l ++ [i])).
Proof. exact (counted includes n l i g effs eff). Qed.
Print Assumptions C53_counted_partial.

(** If acknowledgements come from known managers only, they are the same nodes. *)
Theorem C53_all_acked_partial includes n l i g effs eff :
  mrun includes n (l ++ [i]) = (g, effs ++ [eff]) -> acks_known n includes (l ++ [i]) -> starts eff ->
  acked_since (zip (l ++ [i]) (effs ++ [eff])) = known n includes (l ++ [i]).
Proof. exact (all_acked includes n l i g effs eff). Qed.
Print Assumptions C53_all_acked_partial.

(** If, since it took up leadership, no manager came, went or acknowledged twice, it started
    the singleton at most once. *)
Theorem C53_once_partial includes n l g effs :
  mrun includes n l = (g, effs) -> acks_known n includes l -> quiet_since (zip l effs) ->
  (starts_since (zip l effs) <= 1)%nat.
Proof. intros H1 H2 H3. exact (proj1 (once includes n l g effs H1 H2 H3)). Qed.
Print Assumptions C53_once_partial.

(** As long as it waits for acknowledgements, every manager it knows, whenever it joined, has
    been asked for the lease since it took up leadership. *)
Theorem C53_asked includes n l g effs acked m :
  mrun includes n l = (g, effs) -> g_state g = SStarting acked -> m ∈ known n includes l ->
  sent m (QRequest n) (since (zip l effs)).
Proof. exact (asked_run includes n l g effs acked m). Qed.
Print Assumptions C53_asked.

(** Once the singleton is up, every manager it knows, whenever it joined, has been told. *)
Theorem C53_told includes n l g effs a m :
  mrun includes n l = (g, effs) -> g_state g = SRunning a -> m ∈ known n includes l ->
  sent m (QStarted n) (since_up (zip l effs)).
Proof. exact (told_run includes n l g effs a m). Qed.
Print Assumptions C53_told.

Definition everyone (n : N) : bool := true.

(** A node joins while the manager waits for another one, and a third one once it runs. *)
Example C53_asked_example :
  let l := [IMemberUp 1 [1; 2]; IAdded 3] in
  (g_state (mrun everyone 1 l).1, bool_decide (3 ∈ known 1 everyone l), last (mrun everyone 1 l).2) =
  (SStarting ∅, true, Some [FSend 3 (QRequest 1)]).
Proof. by vm_compute. Qed.
Example C53_told_example :
  let l := [IMemberUp 1 [1; 2]; IMsg (QAck 2); IResult (Some 7); IAdded 3] in
  (g_state (mrun everyone 1 l).1, bool_decide (3 ∈ known 1 everyone l), last (mrun everyone 1 l).2) =
  (SRunning 7, true, Some [FSend 3 (QStarted 1)]).
Proof. by vm_compute. Qed.

(** Two managers acknowledge; the second acknowledgement starts the singleton. *)
Example C53_example :
  let l := [IMemberUp 1 [1; 2; 3]; IMsg (QAck 2)] in
  let i := IMsg (QAck 3) in
  let '(g, effs) := mrun everyone 1 (l ++ [i]) in
  effs = [[FSend 3 (QRequest 1); FSend 2 (QRequest 1)]; []; [FCreate]] \/
  effs = [[FSend 2 (QRequest 1); FSend 3 (QRequest 1)]; []; [FCreate]].
Proof. vm_compute. tauto. Qed.
Example C53_example_known :
  acks_known 1 everyone [IMemberUp 1 [1; 2; 3]; IMsg (QAck 2); IMsg (QAck 3)] /\
  quiet_since (zip [IMemberUp 1 [1; 2; 3]; IMsg (QAck 2); IMsg (QAck 3)]
                   (mrun everyone 1 [IMemberUp 1 [1; 2; 3]; IMsg (QAck 2); IMsg (QAck 3)]).2) /\
  starts_since (zip [IMemberUp 1 [1; 2; 3]; IMsg (QAck 2); IMsg (QAck 3)]
                   (mrun everyone 1 [IMemberUp 1 [1; 2; 3]; IMsg (QAck 2); IMsg (QAck 3)]).2) = 1%nat.
Proof.
  split_and!.
  - intros l1 n l2 H. destruct l1 as [|a [|b [|c [|d l1]]]]; simplify_eq/=; by vm_compute.
  - split.
    + vm_compute. apply NoDup_cons. split; [by rewrite elem_of_list_singleton|]. apply NoDup_cons. split; [by intros ?%elem_of_nil|by apply NoDup_nil].
    + intros e n He. cbn in He.
      repeat (apply elem_of_cons in He as [->|He]; [done|]). by apply elem_of_nil in He.
  - by vm_compute.
Qed.

(** An acknowledgement of a node that was removed meanwhile counts: the singleton starts
    although manager 2 never acknowledged. *)
Theorem C53_stranger_refuted :
  let l := [IMemberUp 1 [1; 2; 3]; IRemoved 3] in
  let i := IMsg (QAck 3) in
  let '(g, effs) := mrun everyone 1 (l ++ [i]) in
  last effs = Some [FCreate] /\
  2 ∈ known 1 everyone (l ++ [i]) /\ 2 ∉ acked_since (zip (l ++ [i]) effs).
Proof. vm_compute. split; [done|]. split; [done|]. intros H. by inversion H. Qed.
Print Assumptions C53_stranger_refuted.

(** One leadership, two starts: a node that joins, a node that leaves, or an acknowledgement
    that comes twice makes the manager start the singleton again. *)
Theorem C53_twice_refuted :
  Forall (fun l => starts_since (zip l (mrun everyone 1 l).2) = 2%nat)
    [ [IMemberUp 1 [1; 2]; IMsg (QAck 2); IAdded 3; IMsg (QAck 3)];
      [IMemberUp 1 [1; 2; 3]; IMsg (QAck 2); IMsg (QAck 3); IRemoved 3];
      [IMemberUp 1 [1; 2]; IMsg (QAck 2); IMsg (QAck 2)] ].
Proof. repeat (apply Forall_cons; split; [by vm_compute|]). by apply Forall_nil. Qed.
Print Assumptions C53_twice_refuted.

(** ** C54 *)

(** In a cluster with fixed membership and where no node is asked for the lease while its
    singleton is stopping, at most one node runs the singleton, in every interleaving. *)
Theorem C54_partial includes nl l y a b :
  (forall n, n ∈ nl -> includes n = true) ->
  always includes (fun y o => steady nl y o /\ patient y o) (new_sys nl) l ->
  srun includes (new_sys nl) l = Some y ->
  runs_singleton y a -> runs_singleton y b -> a = b.
Proof. intros H. exact (at_most_one includes nl H l y a b). Qed.
Print Assumptions C54_partial.

(** The nodes that run the singleton, for concrete runs. *)
Definition running (r : option ssys) : list N :=
  match r with
  | Some y => omap (fun kx => match n_live kx.2 with [] => None | _ => Some kx.1 end) (map_to_list (y_nodes y))
  | None => []
  end.
Lemma running_runs r n : n ∈ running r -> exists y, r = Some y /\ runs_singleton y n.
Proof.
  destruct r as [y|]; simpl; [|by intros ?%elem_of_nil].
  intros ([k x] & Hk & Hx)%elem_of_list_omap. apply elem_of_map_to_list in Hk. simpl in Hx.
  exists y. split; [done|]. destruct (n_live x) eqn:E; [done|]. injection Hx as <-. exists x. split; [done|]. by rewrite E.
Qed.

Lemma both_run r a b : a ∈ running r -> b ∈ running r ->
  exists y, r = Some y /\ runs_singleton y a /\ runs_singleton y b.
Proof. intros (y & -> & ?)%running_runs (y' & [= <-] & ?)%running_runs. eauto. Qed.

(** A check of the hypotheses for concrete runs. *)
Definition steadyb (ns : list N) (y : ssys) (o : sop) : bool :=
  match o with
  | YEvent n (IMemberUp _ nodes) =>
      match state_of y n with Some (SJoining _) => true | _ => false end &&
      forallb (fun m => bool_decide (m ∈ ns)) nodes && forallb (fun m => bool_decide (m ∈ nodes)) ns
  | YEvent _ (IAdded m) => bool_decide (m ∈ ns)
  | YEvent _ (IRemoved _) => false
  | _ => true
  end.
Definition patientb (y : ssys) (o : sop) : bool :=
  match o with
  | YDeliver k =>
      match y_net y !! k with
      | Some (n, QRequest _) =>
          match y_nodes y !! n with
          | Some x => match g_state (n_mgr x), n_live x with SStopping _ _, _ :: _ => false | _, _ => true end
          | None => true
          end
      | _ => true
      end
  | _ => true
  end.
Fixpoint alwaysb (P : ssys -> sop -> bool) (y : ssys) (l : list sop) : bool :=
  match l with
  | [] => true
  | o :: l' => P y o && match sstep everyone y o with Some y' => alwaysb P y' l' | None => true end
  end.
Lemma steadyb_ok ns y o : steadyb ns y o = true -> steady ns y o.
Proof.
  destruct o as [n i| | | | |]; simpl; try done. destruct i; simpl; try done; [|by intros ?%bool_decide_eq_true].
  destruct (state_of y n) as [[p| | | |]|]; simpl; try done.
  intros [H1 H2]%andb_prop. split; [by eexists|]. rewrite forallb_forall in H1, H2. intros m. split; intros Hm%elem_of_list_In.
  - by apply H1, bool_decide_eq_true in Hm.
  - by apply H2, bool_decide_eq_true in Hm.
Qed.
Lemma patientb_ok y o : patientb y o = true -> patient y o.
Proof.
  destruct o as [ |k| | | |]; simpl; try done. intros H n m x a w H1 H2 H3. rewrite H1, H2, H3 in H. by destruct (n_live x).
Qed.
Lemma alwaysb_ok Pb (P : ssys -> sop -> Prop) y l :
  (forall y o, Pb y o = true -> P y o) -> alwaysb Pb y l = true -> always everyone P y l.
Proof.
  intros HP. revert y. induction l as [|o l IH]; intros y; simpl; [done|].
  intros [H1 H2]%andb_prop. split; [by apply HP|]. destruct (sstep everyone y o); auto.
Qed.
Lemma ok_run ns l :
  alwaysb (fun y o => steadyb ns y o && patientb y o) (new_sys ns) l = true ->
  always everyone (fun y o => steady ns y o /\ patient y o) (new_sys ns) l.
Proof.
  apply alwaysb_ok. intros y o [H1 H2]%andb_prop. split; [by apply steadyb_ok|by apply patientb_ok].
Qed.
Lemma ok_steady ns y l : alwaysb (steadyb ns) y l = true -> always everyone (steady ns) y l.
Proof. apply alwaysb_ok, steadyb_ok. Qed.

Definition restedb (r : option ssys) : bool :=
  match r with
  | Some y =>
      match y_net y with [] => true | _ => false end &&
      forallb (fun kx : N * snode => match n_tasks kx.2, n_results kx.2, n_live kx.2 with O, [], [] => true | _, _, _ => false end)
        (map_to_list (y_nodes y))
  | None => false
  end.
Lemma restedb_ok r : restedb r = true -> exists y, r = Some y /\ at_rest y /\ forall n, ~ runs_singleton y n.
Proof.
  destruct r as [y|]; [|done]. intros [H1 H2]%andb_prop. exists y. split; [done|].
  rewrite forallb_forall in H2.
  assert (forall n x, y_nodes y !! n = Some x -> n_tasks x = 0%nat /\ n_results x = [] /\ n_live x = []) as W.
  { intros n x H%elem_of_map_to_list%elem_of_list_In. apply H2 in H. simpl in H.
    by destruct (n_tasks x), (n_results x), (n_live x). }
  split.
  - split; [by destruct (y_net y)|]. intros n x H. by destruct (W n x H) as (? & ? & ?).
  - intros n (x & Hx & Hl). by destruct (W n x Hx) as (? & ? & ?).
Qed.

(** Two nodes; node 1 leads and starts the singleton. *)
Definition start_run : list sop :=
  [ YEvent 1 (IMemberUp 1 [1; 2]);      (* node 1 asks node 2, which is still joining *)
    YDeliver 0;
    YEvent 2 (IMemberUp 1 [1; 2]);      (* node 2 acknowledges *)
    YDeliver 0;
    YCreate 1 true;
    YResult 1 0 ].
Example C54_example :
  always everyone (fun y o => steady [1; 2] y o /\ patient y o) (new_sys [1; 2]) start_run /\
  exists y, srun everyone (new_sys [1; 2]) start_run = Some y /\ runs_singleton y 1.
Proof.
  split; [apply ok_run; by vm_compute|].
  apply running_runs. vm_compute. by left.
Qed.

(** A request that reaches a node while its singleton is still stopping is granted at once:
    node 1 runs the singleton; nodes 3 and 2 ask for the lease, in this order; the request of
    node 2 reaches node 1 first. *)
Definition impatient_run : list sop :=
  [ YEvent 1 (IMemberUp 1 [1; 2; 3]);
    YEvent 2 (IMemberUp 1 [1; 2; 3]);
    YEvent 3 (IMemberUp 1 [1; 2; 3]);
    YDeliver 0; YDeliver 0;               (* requests *)
    YDeliver 0; YDeliver 0;               (* acknowledgements *)
    YCreate 1 true; YResult 1 0;
    YDeliver 0; YDeliver 0;               (* the others know the singleton runs *)
    YEvent 3 (ILeader 3);                 (* node 3 asks nodes 1 and 2 *)
    YDeliver 1; YDeliver 1;               (* node 2 acknowledges *)
    YEvent 2 (ILeader 2);                 (* node 2 asks nodes 1 and 3 *)
    YDeliver 1;                           (* node 1 begins to stop *)
    YDeliver 0; YDeliver 3;               (* it acknowledges node 3 *)
    YCreate 3 true ].
Theorem C54_stopping_refuted :
  always everyone (steady [1; 2; 3]) (new_sys [1; 2; 3]) impatient_run /\
  exists y, srun everyone (new_sys [1; 2; 3]) impatient_run = Some y /\ runs_singleton y 1 /\ runs_singleton y 3.
Proof.
  split; [apply ok_steady; by vm_compute|].
  apply both_run; vm_compute; set_solver.
Qed.
Print Assumptions C54_stopping_refuted.

(** Two nodes that do not know each other when the cluster comes up, or that lose sight of
    each other, both run the singleton. *)
Definition unaware_run : list sop :=
  [ YEvent 1 (IMemberUp 1 [1]); YCreate 1 true; YEvent 2 (IMemberUp 2 [2]); YCreate 2 true ].
Definition partition_run : list sop :=
  start_run ++ [ YEvent 2 (IRemoved 1); YEvent 2 (ILeader 2); YCreate 2 true ].
Theorem C54_membership_refuted :
  Forall (fun l => exists y, srun everyone (new_sys [1; 2]) l = Some y /\ runs_singleton y 1 /\ runs_singleton y 2)
    [unaware_run; partition_run].
Proof.
  repeat (apply Forall_cons; split; [apply both_run; vm_compute; set_solver|]). by apply Forall_nil.
Qed.
Print Assumptions C54_membership_refuted.

(** ** C55 *)

(** The old leader does stop its singleton: a request makes it ask the actor to stop and tell
    every manager. *)
Theorem C55_stops_partial includes g a n :
  g_state g = SRunning a ->
  let '(g', eff) := mstep includes g (IMsg (QRequest n)) in
  g_state g' = SStopping a n /\ FStop a ∈ eff /\
  forall m, m ∈ g_managers g -> FSend m (QStopped (g_node g)) ∈ eff.
Proof.
  intros H. cbn [mstep]. unfold on_request_lease, begin_stopping. rewrite H. cbn [is_running get_actor].
  split; [done|]. split; [by left|]. intros m Hm. right. unfold notify_managers. apply elem_of_list_fmap.
  exists m. split; [done|]. by apply elem_of_elements.
Qed.
Print Assumptions C55_stops_partial.

(** It would grant the lease if it were told that the actor has stopped... *)
Theorem C55_grants_partial includes g a n :
  g_state g = SStopping a n -> n ∈ g_managers g ->
  let '(g', eff) := mstep includes g IChildStopped in
  g_state g' = SIdle /\ eff = [FSend n (QAck (g_node g))].
Proof.
  intros H Hn. cbn [mstep]. unfold on_child_stopped, grant_lease, notify_manager. rewrite H.
  by rewrite decide_True.
Qed.
Print Assumptions C55_grants_partial.

(** ... but it is not: once a node of a steady cluster stops its singleton for another one,
    the other one waits for ever, with no creation under way, and does not get to run the
    singleton, whatever happens. *)
Theorem C55_refuted includes nl l y x a w l' y' :
  (forall n, n ∈ nl -> includes n = true) ->
  always includes (steady nl) (new_sys nl) l -> srun includes (new_sys nl) l = Some y ->
  state_of y x = Some (SStopping a w) ->
  always includes (steady nl) y l' -> srun includes y l' = Some y' ->
  (exists acked, state_of y' w = Some (SStarting acked) /\ x ∉ acked) /\
  (forall u, y_nodes y' !! w = Some u -> n_tasks u = 0%nat /\ n_results u = []) /\
  (runs_singleton y' w -> runs_singleton y w).
Proof. intros H. exact (handover_never includes nl H l y x a w l' y'). Qed.
Print Assumptions C55_refuted.

(** A complete handover from node 1 to node 2: everything has been delivered, the actor on
    node 1 has stopped, and no node runs the singleton. *)
Definition handover_run : list sop :=
  start_run ++ [ YDeliver 0; YEvent 1 (ILeader 2); YEvent 2 (ILeader 2); YDeliver 0; YDeliver 0; YStopped 1 0 ].
Example C55_refuted_example :
  always everyone (steady [1; 2]) (new_sys [1; 2]) handover_run /\
  exists y, srun everyone (new_sys [1; 2]) handover_run = Some y /\ at_rest y /\ forall n, ~ runs_singleton y n.
Proof.
  split; [apply ok_steady; by vm_compute|].
  apply restedb_ok. by vm_compute.
Qed.

(** Two nodes that take up leadership at the same time wait for each other. *)
Definition mutual_run : list sop :=
  [ YEvent 1 (IMemberUp 3 [1; 2]); YEvent 2 (IMemberUp 3 [1; 2]);
    YEvent 1 (ILeader 1); YEvent 2 (ILeader 2); YDeliver 0; YDeliver 0; YEvent 1 (ILeader 2); YEvent 2 (ILeader 2) ].
Theorem C55_mutual_refuted :
  always everyone (steady [1; 2]) (new_sys [1; 2]) mutual_run /\
  exists y, srun everyone (new_sys [1; 2]) mutual_run = Some y /\ at_rest y /\ forall n, ~ runs_singleton y n.
Proof.
  split; [apply ok_steady; by vm_compute|].
  apply restedb_ok. by vm_compute.
Qed.
Print Assumptions C55_mutual_refuted.

(** Between cluster events the managers come to rest: there is a bound on the number of steps. *)
Theorem C55_ends_partial includes y :
  exists bound, forall l y', Forall (fun o => internal o = true) l -> srun includes y l = Some y' ->
    (length l <= bound)%nat.
Proof.
  set (K := sum_list_with (fun kx : N * snode => size (g_managers (n_mgr kx.2))) (map_to_list (y_nodes y))).
  exists (wsys K y). intros l y'. apply run_ends. intros n x H%elem_of_map_to_list. unfold K.
  revert H. generalize (map_to_list (y_nodes y)). intros q. induction q as [|p q IH]; intros H; [by apply elem_of_nil in H|].
  apply elem_of_cons in H as [<-|H]; simpl; [lia|]. specialize (IH H). lia.
Qed.
Print Assumptions C55_ends_partial.

(** With one leader throughout, no message lost and no creation failing, the singleton does
    start: when the managers have come to rest and every node has seen the cluster come up,
    the leader runs it. *)
Theorem C55_first_start_partial includes nl leader l y :
  (forall n, n ∈ nl -> includes n = true) -> leader ∈ nl ->
  always includes (fun y o => steady nl y o /\ one_leader leader o) (new_sys nl) l ->
  srun includes (new_sys nl) l = Some y -> at_rest y ->
  (forall n, n ∈ nl -> exists s, state_of y n = Some s /\ is_joining s = false) ->
  exists a, state_of y leader = Some (SRunning a).
Proof.
  intros H1 H2. apply (lone_leader_starts includes nl H1 leader). by rewrite elem_of_list_to_set.
Qed.
Print Assumptions C55_first_start_partial.
Example C55_first_start_example :
  alwaysb (fun y o => steadyb [1; 2] y o && match o with YEvent _ (IMemberUp 1 _) | YDeliver _ | YCreate _ true | YResult _ _ => true | _ => false end)
     (new_sys [1; 2]) (start_run ++ [YDeliver 0]) = true /\
  match srun everyone (new_sys [1; 2]) (start_run ++ [YDeliver 0]) with
  | Some y => y_net y = [] /\ state_of y 1 = Some (SRunning 0) /\ state_of y 2 = Some SIdle
  | None => False
  end.
Proof. split; [by vm_compute|]. vm_compute. done. Qed.

(** ** C56 *)

(** Without notifications: nothing is lost or refused, and every request made is exactly once
    among those answered, those on their way, and those kept. Each answered one reached the
    singleton and the caller got its result. *)
Theorem C56_accounted_partial {R A} (l : list (pxop (R := R) A)) :
  no_notifications l ->
  let v := pxrun l in
  (asked l).*1 ≡ₚ (v_done v).*1 ++ (v_tasks v).*1 ++ kept v /\
  (v_done v).*1 = (v_got v).*1 /\ v_lost v = [] /\ v_refused v = [] /\ v_state v <> None.
Proof. intros H. destruct (kinv_run l H). done. Qed.
Print Assumptions C56_accounted_partial.

(** When the delivery tasks run in the order in which they were created, the singleton
    receives the requests in the order in which they were made. *)
Theorem C56_order_partial {R A} (l : list (pxop (R := R) A)) :
  no_notifications l -> in_turn l ->
  (asked l).*1 = (v_got (pxrun l)).*1 ++ (v_tasks (pxrun l)).*1 ++ kept (pxrun l).
Proof. exact (in_turn_run l). Qed.
Print Assumptions C56_order_partial.

(** As soon as the proxy knows the singleton it keeps nothing back. *)
Theorem C56_flushed_partial {R A} (l : list (pxop (R := R) A)) r :
  no_notifications l -> kept (pxrun (l ++ [VInput (XStarted r)])) = [].
Proof.
  intros H. rewrite pxrun_snoc. destruct (kinv_run l H) as [K1 K2 _ _ _ _]. unfold queue in K2. unfold kept. simpl.
  destruct (v_state (pxrun l)) as [[q|r']|]; [|done|done]. simpl. rewrite (drain_all _ K2). done.
Qed.
Print Assumptions C56_flushed_partial.

(** Whatever a proxy hands over when it handles something goes to the singleton it was told
    of last, also when that replaces an earlier one without a stop in between. *)
Theorem C56_current {R A} (l : list (pxop (R := R) A)) i : exists new,
  v_tasks (pxrun (l ++ [VInput i])) = v_tasks (pxrun l) ++ new /\
  forall x r, (x, r) ∈ new -> last_told (l ++ [VInput i]) = Some r.
Proof. exact (handed_last l i). Qed.
Print Assumptions C56_current.
Example C56_current_example :
  v_tasks (pxrun (A := N) [VInput (XDeliver 1 true); VInput (XStarted (RLocal 7)); VInput (XStarted (RRemote 2));
                  VInput (XDeliver 2 true)]) = [(1, RLocal 7); (2, RRemote 2)].
Proof. by vm_compute. Qed.

Example C56_example :
  let l := [ VInput (XDeliver 1 true); VInput (XDeliver 2 true); VInput (XStarted (RLocal 7));
             VInput (XDeliver 3 true); VRun 0 10; VRun 0 20; VInput XStopping;
             VInput (XDeliver 4 true); VRun 0 30 ] in
  no_notifications l /\ in_turn l /\
  v_done (pxrun l) = [(1, 10); (2, 20); (3, 30)] /\ kept (pxrun l) = [4].
Proof.
  cbv zeta. split_and!; [|by repeat constructor|by vm_compute|by vm_compute].
  intros x H. vm_compute in H. repeat (apply elem_of_cons in H as [?|H]; [done|]). by apply elem_of_nil in H.
Qed.

(** The tasks are independent: they may run out of order, and then the singleton receives the
    requests out of order. *)
Theorem C56_order_refuted :
  let l := [ VInput (XDeliver 1 true); VInput (XDeliver 2 true); VInput (XStarted (RLocal 7)); VRun 1 20; VRun 0 10 ] in
  no_notifications l /\ (asked l).*1 = [1; 2] /\ (v_got (pxrun l)).*1 = [2; 1].
Proof.
  cbv zeta. split_and!; [|by vm_compute|by vm_compute].
  intros x H. vm_compute in H. repeat (apply elem_of_cons in H as [?|H]; [done|]). by apply elem_of_nil in H.
Qed.
Print Assumptions C56_order_refuted.

(** A notification is not delivered. Sent while the singleton is known, it ends the proxy. *)
Theorem C56_notify_refuted {R A} (l l' : list (pxop (R := R) A)) r x :
  v_state (pxrun l) = Some (XActive r) ->
  let v := pxrun (l ++ [VInput (XDeliver x false)]) in
  v_tasks v = v_tasks (pxrun l) /\ v_lost v = v_lost (pxrun l) ++ [x] /\
  v_refused (fold_left pxsys_step l' v) = v_refused v ++ (asked l').*1.
Proof.
  intros H. cbv zeta. rewrite pxrun_snoc. destruct (notify_active _ _ x H) as (H1 & H2 & H3).
  split_and!; [done|done|]. by apply gone.
Qed.
Print Assumptions C56_notify_refuted.

(** Sent while the singleton is not known it is kept, and ends the proxy when the singleton
    starts; the requests kept behind it are lost, and every later one is refused. *)
Theorem C56_notify_kept_refuted {R A} (l l' : list (pxop (R := R) A)) q1 x q2 r :
  v_state (pxrun l) = Some (XBuffered (q1 ++ (x, false) :: q2)) -> (forall z, (z, false) ∉ q1) ->
  let v := pxrun (l ++ [VInput (XStarted r)]) in
  v_tasks v = v_tasks (pxrun l) ++ ((fun z => (z, r)) <$> q1.*1) /\
  v_lost v = v_lost (pxrun l) ++ x :: q2.*1 /\
  v_refused (fold_left pxsys_step l' v) = v_refused v ++ (asked l').*1.
Proof.
  intros H Hq. cbv zeta. rewrite pxrun_snoc. destruct (notify_kept _ _ _ _ r H Hq) as (H1 & H2 & H3).
  split_and!; [done|done|]. by apply gone.
Qed.
Print Assumptions C56_notify_kept_refuted.
Example C56_notify_example :
  let v := pxrun [ VInput (XDeliver 1 true); VInput (XDeliver 2 false); VInput (XDeliver 3 true);
                   VInput (XStarted (RLocal 7)); VRun 0 10; VInput (XDeliver 4 true) ] in
  v_done v = [(1, 10)] /\ v_lost v = [2; 3] /\ v_refused v = [4].
Proof. by vm_compute. Qed.

(** The proxy of the node that stops the singleton is not told: it goes on sending to the
    actor that stops. *)
Theorem C56_own_proxy_refuted includes g a n :
  g_state g = SRunning a -> proxied (mstep includes g (IMsg (QRequest n))).2 = [].
Proof.
  intros H. cbn [mstep]. unfold on_request_lease, begin_stopping, notify_managers. rewrite H. simpl.
  induction (elements (g_managers g)) as [|m q IH]; [done|]. simpl in *. done.
Qed.
Print Assumptions C56_own_proxy_refuted.
