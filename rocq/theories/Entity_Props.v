(** Property C50: the entities of a shard. *)
From Verif Require Import Entity_Model Entity_Spec Entity_Proofs.
Local Open Scope string_scope.
Local Open Scope list_scope.
Local Open Scope N_scope.

(** In every history each request for an entity is rejected, forwarded to its actor, dropped
    with its channel, or still in the buffer, exactly once. *)
Theorem C50_accounted {R} p (l : list (vop R)) id :
  outcomes id (v_log (vrun (esys_init p) l)) ++ buffered (vrun (esys_init p) l) id ≡ₚ arrived id l.
Proof. exact (run_accounted id l (esys_init p)). Qed.
Print Assumptions C50_accounted.

(** During one incarnation of the shard: the requests of known type, from the first one with a
    recipe on, are forwarded in the order of arrival, apart from the last ones, which are still
    in the buffer; the entity is created once, when the first of them arrives. *)
Theorem C50_order_partial {R} p (l : list (vop R)) id :
  forallb (undisturbed id) l = true ->
  let v := vrun (esys_init p) l in
  forwarded id (v_log v) ++ buffered v id = served false id l /\
  length (creations id (v_log v)) = match served false id l with [] => 0%nat | _ => 1%nat end.
Proof.
  intros Hu v. destruct (run_order id p l Hu) as [H1 H2 H3 H4]. split; [done|]. unfold v. rewrite H4, H2. by destruct (served false id l).
Qed.
Print Assumptions C50_order_partial.

(** When the entity has started, nothing remains in the buffer. *)
Theorem C50_running_partial {R} p (l : list (vop R)) id rc a :
  forallb (undisturbed id) l = true ->
  v_ents (vrun (esys_init p) l) !! id = Some (rc, EActive a) ->
  forwarded id (v_log (vrun (esys_init p) l)) = served false id l.
Proof.
  intros Hu E. destruct (run_order id p l Hu) as [_ _ H3 _]. unfold buffered in H3. rewrite E, app_nil_r in H3. done.
Qed.
Print Assumptions C50_running_partial.

(** A request without recipe for an unknown entity fails and changes nothing else; the same for
    messages of unknown type. *)
Theorem C50_no_recipe {R} (m : gmap N (N * estate R)) q :
  q_known q = true -> m !! q_id q = None -> q_recipe q = None ->
  on_entity_request m q = (m, [EReply (q_id q) (q_req q) NotFound]).
Proof. intros H1 H2 H3. unfold on_entity_request. by rewrite H1, H2, H3. Qed.
Print Assumptions C50_no_recipe.
Theorem C50_unknown_type {R} (m : gmap N (N * estate R)) q :
  q_known q = false -> on_entity_request m q = (m, [EReply (q_id q) (q_req q) NotSupported]).
Proof. intros H. unfold on_entity_request. by rewrite H. Qed.
Print Assumptions C50_unknown_type.

(** At most one live actor per entity, if the shard is not stopped while entities are being
    created and no entity is started twice by StartEntity messages. Any number of restarts of
    the shard. *)
Theorem C50_one_actor_partial {R} p (l : list (vop R)) id a b :
  orderly_run (esys_init p) l ->
  (id, a) ∈ v_live (vrun (esys_init p) l) -> (id, b) ∈ v_live (vrun (esys_init p) l) -> a = b.
Proof. intros Hl. apply one_live. by apply run_one. Qed.
Print Assumptions C50_one_actor_partial.

(** If the writes to the journal succeed, a shard that recovers creates again exactly the
    entities it had, each once, with their last recipes. *)
Theorem C50_recovered_partial {R} (l : list (vop R)) ord id rc :
  forallb stored l = true ->
  let v := vrun (esys_init true) l in
  let v' := vstep v (VRestart ord) in
  ((true, id, rc) ∈ v_tasks v' <-> exists st, v_ents v !! id = Some (rc, st)) /\
  (length (List.filter (fun x => x.1.1 && (x.1.2 =? id)%N) (v_tasks v')) <= 1)%nat.
Proof. intros Hl v v'. split; [apply restart_tasks; by apply run_rec|apply restart_once]. Qed.
Print Assumptions C50_recovered_partial.

(** Two entities; a restart of the shard in between. *)
Definition ex_ops : list (vop N) :=
  [VRequest (EReq 1 None true 100) true; VRequest (EReq 1 (Some 11) true 101) true; VRequest (EReq 1 None true 102) true;
   VRequest (EReq 2 (Some 22) true 103) true; VRequest (EReq 1 None false 104) true; VCreated 0 true; VResult 0;
   VRequest (EReq 1 (Some 99) true 105) true; VCreated 0 true; VResult 0; VDeliver 0; VDeliver 0; VDeliver 0; VDeliver 0].
Example C50_case :
  forallb (undisturbed 1) ex_ops = true /\ forallb stored ex_ops = true /\
  forwarded 1 (v_log (vrun (esys_init true) ex_ops)) = [101; 102; 105] /\
  v_live (vrun (esys_init true) ex_ops) = [(1, 0); (2, 1)] /\
  v_live (vrun (esys_init true) (ex_ops ++ [VRestart [2]; VCreated 0 true; VCreated 0 true])) = [(2, 2); (1, 3)] /\
  orderly_run (esys_init true) (ex_ops ++ [VRestart [2]; VCreated 0 true; VCreated 0 true]).
Proof. vm_compute. done. Qed.

(** ** Where the property fails *)

(** An entity whose creation fails stays as it is for good: requests for it are kept in the
    buffer and never answered, and no further creation is attempted. *)
Theorem C50_failed_start_refuted {R} (v : esys R) l id rc buf :
  v_ents v !! id = Some (rc, EStarting buf) -> idle_id id v -> forallb (undisturbed id) l = true ->
  v_ents (vrun v l) !! id = Some (rc, EStarting (buf ++ served true id l)) /\
  forwarded id (v_log (vrun v l)) = forwarded id (v_log v) /\
  creations id (v_log (vrun v l)) = creations id (v_log v).
Proof.
  intros He Hi Hu. destruct (idle_run id v l _ _ Hi Hu He) as (_ & H1 & H2 & H3). rewrite app_nil_r in H3. done.
Qed.
Print Assumptions C50_failed_start_refuted.
Example C50_failed_start_case :
  let v := vrun (esys_init true) [VRequest (EReq 1 (Some 11) true 101) true; VCreated 0 false; VResult 0] in
  v_ents v !! 1 = Some (11, EStarting [101]) /\ idle_id 1 v.
Proof. split; [vm_compute; done|]. split; intros *; vm_compute; by intros ?%elem_of_nil. Qed.

(** An entity that stopped by itself is never started again: its requests go to the dead
    actor, which receives nothing. *)
Theorem C50_stopped_entity_refuted {R} (v : esys R) l id rc a :
  v_ents v !! id = Some (rc, EActive a) -> (id, a) ∉ v_live v -> a < v_next v -> idle_id id v -> forallb (undisturbed id) l = true ->
  v_ents (vrun v l) !! id = Some (rc, EActive a) /\
  forwarded id (v_log (vrun v l)) = forwarded id (v_log v) ++ served true id l /\
  List.filter (fun x => is_ent id a x.1) (v_got (vrun v l)) = List.filter (fun x => is_ent id a x.1) (v_got v) /\
  creations id (v_log (vrun v l)) = creations id (v_log v).
Proof.
  intros He Hl Hn Hi Hu. destruct (idle_run id v l _ _ Hi Hu He) as (_ & H1 & H2 & H3). split_and!; try done. by eapply dead_run.
Qed.
Print Assumptions C50_stopped_entity_refuted.
Example C50_stopped_entity_case :
  let v := vrun (esys_init true) [VRequest (EReq 1 (Some 11) true 101) true; VCreated 0 true; VResult 0; VStopped 1 0] in
  v_ents v !! 1 = Some (11, EActive 0) /\ v_live v = [] /\ v_next v = 1 /\ idle_id 1 v.
Proof. split_and!; try (vm_compute; done). split; intros *; vm_compute; by intros ?%elem_of_nil. Qed.

(** Two live actors of one entity: the shard is restarted while the entity is being created. *)
Theorem C50_restart_race_refuted :
  let v := vrun (esys_init true) [VRequest (EReq 1 (Some 11) true 101) true; VRestart []; VCreated 0 true; VCreated 0 true; VResult 0] in
  v_live v = [(1, 0); (1, 1)] /\ v_ents v !! 1 = Some (11, EActive 1).
Proof. vm_compute. done. Qed.
Print Assumptions C50_restart_race_refuted.

(** Two live actors of one entity, and requests dropped: StartEntity for a known entity. *)
Theorem C50_started_twice_refuted :
  let v := vrun (esys_init true) [VRequest (EReq 1 (Some 11) true 101) true; VStart 1 12 true; VCreated 0 true; VCreated 0 true; VResult 0; VResult 0] in
  v_live v = [(1, 0); (1, 1)] /\ dropped 1 (v_log v) = [101].
Proof. vm_compute. done. Qed.
Print Assumptions C50_started_twice_refuted.

(** If the write fails, the entity runs but is not started again. *)
Theorem C50_not_stored_refuted :
  let v := vrun (esys_init true) [VRequest (EReq 1 (Some 11) true 101) false; VCreated 0 true; VResult 0] in
  v_live v = [(1, 0)] /\ v_tasks (vstep v (VRestart [])) = [].
Proof. vm_compute. done. Qed.
Print Assumptions C50_not_stored_refuted.

(** An entity recovered from a snapshot is not started, and its requests are rejected. Nothing
    writes such snapshots at present. *)
Theorem C50_snapshot_refuted {R} (id rc : N) (passivated : bool) ord (r : R) :
  let m := recover_snapshot [(id, rc, passivated)] in
  recover_entities ord m = [] /\
  (on_entity_request m (EReq id (Some rc) true r)).2 = [EReply id r ActorUnavailable].
Proof.
  intros m. assert (E : m = <[id := (rc, if passivated then EPassivated else EIdle)]> ∅) by done. split.
  - destruct (recover_entities ord m) as [|[k c] l] eqn:Er; [done|]. assert (H : (k, c) ∈ recover_entities ord m) by (rewrite Er; constructor).
    apply elem_recover_entities in H as [buf H]. rewrite E in H. apply lookup_insert_Some in H as [[_ H]|[_ H]]; [by destruct passivated|by rewrite lookup_empty in H].
  - rewrite E. unfold on_entity_request. simpl. rewrite lookup_insert. by destruct passivated.
Qed.
Print Assumptions C50_snapshot_refuted.

(** Forwarded requests are delivered by separate tasks, in any order. *)
Theorem C50_delivery_order_refuted :
  let v := vrun (esys_init true) [VRequest (EReq 1 (Some 11) true 101) true; VRequest (EReq 1 None true 102) true;
                                  VCreated 0 true; VResult 0; VDeliver 1; VDeliver 0] in
  forwarded 1 (v_log v) = [101; 102] /\ v_got v = [(1, 0, 102); (1, 0, 101)].
Proof. vm_compute. done. Qed.
Print Assumptions C50_delivery_order_refuted.
