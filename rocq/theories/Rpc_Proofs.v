(** Proofs about requests between nodes. *)
From Verif Require Import Rpc_Model Rpc_Spec.

(** ** The table of one node *)
Section table.
Variable parse : bytes -> option N.
Notation on_frame := (on_frame parse).
Notation tstep := (tstep parse).
Notation trun := (trun parse).
Notation says := (says parse).
Notation gives := (gives parse).
Notation fate := (fate parse).
Notation sound := (sound parse).

Lemma trun_app n l1 l2 : trun n (l1 ++ l2) = trun (trun n l1) l2.
Proof. apply fold_left_app. Qed.
Lemma trun_snoc n l o : trun n (l ++ [o]) = tstep (trun n l) o.
Proof. by rewrite trun_app. Qed.
Lemma pushes_app l1 l2 : pushes (l1 ++ l2) = (pushes l1 + pushes l2)%nat.
Proof. unfold pushes. by rewrite List.filter_app, app_length. Qed.

(** What a frame does to the table. *)
Inductive effect (t : rtable) (s : side) (f : bytes) : rtable * bool -> Prop :=
| eff_none ok : effect t s f (t, ok)
| eff_answer id r : says s f = Some (id, r) -> effect t s f (complete t id (Answered r), true)
| eff_closed id : says s f = None -> effect t s f (complete t id ChannelClosed, false).
Lemma on_frame_effect t s f : effect t s f (on_frame t s f).
Proof.
  unfold Rpc_Model.on_frame. destruct s.
  - destruct (read_client_event f) as [e| |] eqn:E; [|constructor..]. destruct e as [e|e|e|e|e|e]; simpl; try constructor.
    + destruct (parse (cr_message_id e)) as [id|] eqn:Ep; [|constructor]. apply eff_answer. simpl. rewrite E, Ep. done.
    + destruct (parse (ce_message_id e)) as [id|] eqn:Ep; [|constructor].
      destruct (t_requests t !! id) eqn:Et; [|constructor].
      destruct (ce_error e) as [p|] eqn:Ee; simpl.
      * destruct (err_of_proto p) as [err| |] eqn:Ex.
        -- apply eff_answer. simpl. by rewrite E, Ep; simpl; rewrite Ee, Ex.
        -- apply eff_closed. simpl. by rewrite E, Ep; simpl; rewrite Ee, Ex.
        -- apply eff_closed. simpl. by rewrite E, Ep; simpl; rewrite Ee, Ex.
      * apply eff_closed. simpl. by rewrite E, Ep; simpl; rewrite Ee.
    + destruct (parse (po_message_id e)) as [id|] eqn:Ep; [|constructor]. apply eff_answer. simpl. rewrite E, Ep. done.
  - destruct (read_session_event f) as [e| |] eqn:E; [|constructor..]. destruct e as [e|e|e|e|e|e|e|e|e|e|e|e]; simpl; try constructor.
    + destruct (parse (cr_message_id e)) as [id|] eqn:Ep; [|constructor]. apply eff_answer. simpl. rewrite E, Ep. done.
    + destruct (ce_error e) as [p|] eqn:Ee; simpl; [|constructor].
      destruct (err_of_proto p) as [err| |] eqn:Ex; [|constructor..].
      destruct (parse (ce_message_id e)) as [id|] eqn:Ep; [|constructor].
      apply eff_answer. simpl. by rewrite E, Ep; simpl; rewrite Ee, Ex.
Qed.
Lemma complete_none t id r : t_requests t !! id = None -> complete t id r = t.
Proof. intros H. unfold complete. by rewrite H. Qed.
(** A sound frame. *)
Lemma on_frame_sound t c s f : sound (TFrame c s f) = true ->
  on_frame t s f = match says s f with Some (id, r) => (complete t id (Answered r), true) | None => (t, true) end.
Proof.
  unfold Rpc_Spec.sound. intros [Hr Hm]%andb_true_iff. unfold Rpc_Model.on_frame, Rpc_Spec.says, meant, readable in *. destruct s.
  - destruct (read_client_event f) as [e| |] eqn:E; [|done..]. destruct e as [e|e|e|e|e|e]; simpl in *; try done.
    + destruct (parse (cr_message_id e)); simpl in *; done.
    + destruct (parse (ce_message_id e)) as [id|] eqn:Ep; simpl in *; [|done].
      destruct (ce_error e) as [p|]; simpl in *; [|done]. destruct (err_of_proto p); try done.
      destruct (t_requests t !! id) eqn:Et; [done|]. by rewrite complete_none.
    + destruct (parse (po_message_id e)); simpl in *; done.
  - destruct (read_session_event f) as [e| |] eqn:E; [|done..]. destruct e as [e|e|e|e|e|e|e|e|e|e|e|e]; simpl in *; try done.
    + destruct (parse (cr_message_id e)); simpl in *; done.
    + destruct (parse (ce_message_id e)) as [id|] eqn:Ep; simpl in *; [|done].
      destruct (ce_error e) as [p|]; simpl in *; [|done]. destruct (err_of_proto p); done.
Qed.

(** Numbers of requesters. *)
Definition tinv (t : rtable) : Prop :=
  (forall id k, t_requests t !! id = Some k -> (k < t_next t)%nat /\ k ∉ (t_ended t).*1) /\
  (forall id id' k, t_requests t !! id = Some k -> t_requests t !! id' = Some k -> id = id') /\
  (forall k, k ∈ (t_ended t).*1 -> (k < t_next t)%nat) /\ NoDup (t_ended t).*1.
Lemma tinv_complete t id r : tinv t -> tinv (complete t id r).
Proof.
  intros (I1 & I2 & I3 & I4). unfold complete. destruct (t_requests t !! id) as [k|] eqn:E; [|done].
  destruct (I1 _ _ E) as [Hk Hn]. unfold tinv. cbn [t_requests t_next t_ended]. rewrite fmap_app. simpl. split_and!.
  - intros id' k' [Hne Hl]%lookup_delete_Some. destruct (I1 _ _ Hl) as [? Hx]. split; [done|].
    intros [?| ->%elem_of_list_singleton]%elem_of_app; [done|]. apply Hne. by eapply I2.
  - intros id' id'' k' [_ ?]%lookup_delete_Some [_ ?]%lookup_delete_Some. by eapply I2.
  - intros k' [?| ->%elem_of_list_singleton]%elem_of_app; auto.
  - apply NoDup_app. split; [done|]. split; [|apply NoDup_singleton]. intros x Hx ->%elem_of_list_singleton. done.
Qed.
Lemma tinv_push t id : tinv t -> tinv (push_request t id).
Proof.
  intros (I1 & I2 & I3 & I4). unfold push_request, tinv. cbn [t_requests t_next t_ended]. rewrite fmap_app.
  assert (HO : forall k, k ∈ (match t_requests t !! id with Some k => [(k, ChannelClosed)] | None => [] end).*1 ->
    t_requests t !! id = Some k).
  { intros k. destruct (t_requests t !! id); simpl; [by intros ->%elem_of_list_singleton|by intros ?%elem_of_nil]. }
  split_and!.
  - intros id' k' [[<- <-]|[Hne Hl]]%lookup_insert_Some.
    + split; [lia|]. intros [Hx%I3|Hx%HO]%elem_of_app; [lia|]. apply I1 in Hx. lia.
    + destruct (I1 _ _ Hl). split; [lia|]. intros [?|Hx%HO]%elem_of_app; [done|]. apply Hne. by eapply I2.
  - intros id' id'' k' [[<- <-]|[Hne Hl]]%lookup_insert_Some [[<- Hy]|[Hne' Hl']]%lookup_insert_Some; [done| | |by eapply I2].
    + apply I1 in Hl'. lia.
    + apply I1 in Hl. lia.
  - intros k [Hx%I3|Hx%HO]%elem_of_app; [lia|]. apply I1 in Hx. lia.
  - apply NoDup_app. split; [done|]. split.
    + intros x Hx Hy%HO. by apply I1 in Hy as [_ ?].
    + destruct (t_requests t !! id); [apply NoDup_singleton|constructor].
Qed.
Lemma tinv_step n o : tinv (n_table n) -> tinv (n_table (tstep n o)).
Proof.
  intros H. destruct o as [id|c s f|id r]; simpl; [by apply tinv_push| |by apply tinv_complete].
  destruct (decide (c ∈ n_dead n)); [done|]. pose proof (on_frame_effect (n_table n) s f) as He.
  destruct (on_frame (n_table n) s f) as [t ok]. simpl. inversion He; subst; [done|by apply tinv_complete..].
Qed.
Lemma tinv_run n l : tinv (n_table n) -> tinv (n_table (trun n l)).
Proof. revert n. induction l as [|o l IH]; intros n H; [done|]. apply IH. by apply tinv_step. Qed.
Lemma tinv_new : tinv new_table.
Proof. split_and!; try done. intros k ?%elem_of_nil. done. apply NoDup_nil_2. Qed.

Lemma complete_next t id r : t_next (complete t id r) = t_next t.
Proof. unfold complete. by destruct (t_requests t !! id). Qed.
Lemma next_step n o : t_next (n_table (tstep n o)) = (t_next (n_table n) + if is_push o then 1 else 0)%nat.
Proof.
  destruct o as [id|c s f|id r]; simpl; [lia| |by rewrite complete_next; lia].
  destruct (decide (c ∈ n_dead n)); [lia|]. pose proof (on_frame_effect (n_table n) s f) as He.
  destruct (on_frame (n_table n) s f) as [t ok]. simpl. inversion He; subst; rewrite ?complete_next; lia.
Qed.
Lemma next_run n l : t_next (n_table (trun n l)) = (t_next (n_table n) + pushes l)%nat.
Proof.
  revert n. induction l as [|o l IH]; intros n; [simpl; unfold pushes; simpl; lia|].
  change (trun n (o :: l)) with (trun (tstep n o) l). rewrite IH, next_step. unfold pushes. simpl.
  destruct (is_push o); simpl; lia.
Qed.

(** Ended requests stay ended. *)
Lemma complete_mono t id r : t_ended t `prefix_of` t_ended (complete t id r).
Proof. unfold complete. destruct (t_requests t !! id); [|done]. by apply prefix_app_r. Qed.
Lemma ended_step n o : t_ended (n_table n) `prefix_of` t_ended (n_table (tstep n o)).
Proof.
  destruct o as [id|c s f|id r]; simpl; [by apply prefix_app_r| |by apply complete_mono].
  destruct (decide (c ∈ n_dead n)); [done|]. pose proof (on_frame_effect (n_table n) s f) as He.
  destruct (on_frame (n_table n) s f) as [t ok]. simpl. inversion He; subst; [done|by apply complete_mono..].
Qed.
Lemma ended_run n l : t_ended (n_table n) `prefix_of` t_ended (n_table (trun n l)).
Proof.
  revert n. induction l as [|o l IH]; intros n; [done|]. change (trun n (o :: l)) with (trun (tstep n o) l).
  etrans; [apply ended_step|apply IH].
Qed.

Lemma dead_sound n l : n_dead n = ∅ -> forallb sound l = true -> n_dead (trun n l) = ∅.
Proof.
  revert n. induction l as [|o l IH]; intros n Hd; [done|]. simpl. intros [Ho Hl]%andb_true_iff.
  apply IH; [|done]. destruct o as [id|c s f|id r]; simpl; [done| |done].
  rewrite decide_False by (rewrite Hd; set_solver). rewrite (on_frame_sound _ c) by done. destruct (says s f) as [[id r]|]; done.
Qed.

(** The end of a request that is outstanding. *)
Lemma fate_run n l id k : n_dead n = ∅ -> forallb sound l = true -> t_requests (n_table n) !! id = Some k ->
  match fate id l with
  | Some r => (k, r) ∈ t_ended (n_table (trun n l))
  | None => t_requests (n_table (trun n l)) !! id = Some k
  end.
Proof.
  revert n. induction l as [|o l IH]; intros n Hd; [done|]. cbn [forallb]. intros [Ho Hl]%andb_true_iff Hk.
  change (trun n (o :: l)) with (trun (tstep n o) l).
  assert (Hd' : n_dead (tstep n o) = ∅). { apply (dead_sound n [o]); [done|]. simpl. by rewrite Ho. }
  assert (HC : forall id' r, t_requests (n_table (tstep n o)) = t_requests (complete (n_table n) id' (Answered r)) ->
     t_ended (n_table (tstep n o)) = t_ended (complete (n_table n) id' (Answered r)) ->
     match (if (id' =? id)%N then Some (Answered r) else fate id l) with
     | Some r0 => (k, r0) ∈ t_ended (n_table (trun (tstep n o) l))
     | None => t_requests (n_table (trun (tstep n o) l)) !! id = Some k
     end).
  { intros id' r E1 E2. destruct (N.eqb_spec id' id) as [->|Hne].
    - eapply elem_of_prefix; [|apply ended_run]. rewrite E2. unfold complete. rewrite Hk. simpl. apply elem_of_app. right. by left.
    - apply IH; [done|done|]. rewrite E1. unfold complete. destruct (t_requests (n_table n) !! id'); [|done]. simpl. by rewrite lookup_delete_ne. }
  destruct o as [id'|c s f|id' r]; cbn [Rpc_Spec.fate Rpc_Spec.gives].
  - destruct (N.eqb_spec id' id) as [->|Hne].
    + eapply elem_of_prefix; [|apply ended_run]. simpl. rewrite Hk. apply elem_of_app. right. by left.
    + apply IH; [done|done|]. simpl. by rewrite lookup_insert_ne.
  - assert (E : n_table (tstep n (TFrame c s f)) = match says s f with Some (id, r) => complete (n_table n) id (Answered r) | None => n_table n end).
    { simpl. rewrite decide_False by (rewrite Hd; set_solver). rewrite (on_frame_sound _ c) by done. by destruct (says s f) as [[??]|]. }
    destruct (says s f) as [[id' r]|].
    + apply HC; by rewrite E.
    + apply IH; [done|done|]. by rewrite E.
  - by apply HC.
Qed.

Lemma fate_exact l1 id l2 : forallb sound (l1 ++ TPush id :: l2) = true ->
  let t := n_table (trun new_rnode (l1 ++ TPush id :: l2)) in
  match fate id l2 with
  | Some r => forall r', (pushes l1, r') ∈ t_ended t <-> r' = r
  | None => t_requests t !! id = Some (pushes l1) /\ forall r', (pushes l1, r') ∉ t_ended t
  end.
Proof.
  intros HS t. rewrite forallb_app in HS. cbn [forallb] in HS. apply andb_true_iff in HS as [H1 H2]. simpl in H2.
  assert (HI : tinv t) by (apply tinv_run, tinv_new).
  assert (HR : match fate id l2 with Some r => (pushes l1, r) ∈ t_ended t | None => t_requests t !! id = Some (pushes l1) end).
  { unfold t. rewrite trun_app. change (trun ?n (?o :: ?l)) with (trun (tstep n o) l).
    apply fate_run; [|done|].
    - simpl. by apply dead_sound.
    - simpl. rewrite lookup_insert. rewrite next_run. done. }
  destruct (fate id l2) as [r|].
  - intros r'. split; [|by intros ->]. intros Hr'. destruct HI as (_ & _ & _ & HN).
    apply elem_of_list_lookup in HR as [i Hi]. apply elem_of_list_lookup in Hr' as [j Hj].
    assert (i = j) as ->. { eapply (NoDup_lookup (t_ended t).*1 i j (pushes l1)); [done|..]; rewrite list_lookup_fmap; [by rewrite Hi|by rewrite Hj]. }
    congruence.
  - split; [done|]. intros r' Hr'. destruct HI as (HI & _). destruct (HI _ _ HR) as [_ Hx]. apply Hx.
    apply elem_of_list_fmap. by exists (pushes l1, r').
Qed.

(** Where an answer comes from. *)
Definition begun (l : list top) (id : N) (k : nat) : Prop :=
  exists l1 l2, l = l1 ++ TPush id :: l2 /\ pushes l1 = k /\ TPush id ∉ l2.
Definition traced (l : list top) (t : rtable) : Prop :=
  (forall id k, t_requests t !! id = Some k -> begun l id k) /\
  (forall k r, (k, Answered r) ∈ t_ended t ->
     exists l1 id l2 o l3, l = l1 ++ TPush id :: l2 ++ o :: l3 /\ pushes l1 = k /\ TPush id ∉ l2 /\ gives o = Some (id, r)).
Lemma begun_snoc l id k o : begun l id k -> o <> TPush id -> begun (l ++ [o]) id k.
Proof.
  intros (l1 & l2 & -> & Hp & Hn) Ho. exists l1, (l2 ++ [o]). rewrite <- app_assoc. simpl. split_and!; try done.
  intros [?|?%elem_of_list_singleton]%elem_of_app; congruence.
Qed.
Lemma traced_snoc l o k r :
  (exists l1 id l2 o l3, l = l1 ++ TPush id :: l2 ++ o :: l3 /\ pushes l1 = k /\ TPush id ∉ l2 /\ gives o = Some (id, r)) ->
  exists l1 id l2 o' l3, l ++ [o] = l1 ++ TPush id :: l2 ++ o' :: l3 /\ pushes l1 = k /\ TPush id ∉ l2 /\ gives o' = Some (id, r).
Proof.
  intros (l1 & id & l2 & o' & l3 & -> & ? & ? & ?). exists l1, id, l2, o', (l3 ++ [o]).
  rewrite <- app_assoc. simpl. rewrite <- app_assoc. done.
Qed.
Lemma traced_complete l t o id x : traced l t -> is_push o = false ->
  (forall r, x = Answered r -> gives o = Some (id, r)) -> traced (l ++ [o]) (complete t id x).
Proof.
  intros [T1 T2] Hp Hg. assert (Hne : forall i, o <> TPush i) by (intros i ->; done).
  unfold complete. destruct (t_requests t !! id) as [k|] eqn:E; split; cbn [t_requests t_ended].
  - intros id' k' [_ Hl]%lookup_delete_Some. apply begun_snoc; auto.
  - intros k' r [Hx|Hx%elem_of_list_singleton]%elem_of_app; [by apply (traced_snoc l), T2|].
    injection Hx as -> <-. destruct (T1 _ _ E) as (l1 & l2 & -> & Hpu & Hn).
    exists l1, id, l2, o, []. rewrite <- app_assoc. simpl. split_and!; try done. by apply Hg.
  - intros id' k' Hl. apply begun_snoc; auto.
  - intros k' r Hx. by apply (traced_snoc l), T2.
Qed.
Lemma traced_same l t o : traced l t -> is_push o = false -> traced (l ++ [o]) t.
Proof.
  intros [T1 T2] Hp. split.
  - intros id k Hl. apply begun_snoc; [auto|]. intros ->; done.
  - intros k r Hx. by apply (traced_snoc l), T2.
Qed.
Lemma traced_run l : traced l (n_table (trun new_rnode l)).
Proof.
  induction l as [|o l IH] using rev_ind.
  { split; [done|]. intros k r ?%elem_of_nil. done. }
  rewrite trun_snoc. pose proof (next_run new_rnode l) as Hnext. simpl in Hnext. destruct o as [id|c s f|id r]; simpl.
  - destruct IH as [T1 T2]. split; cbn [push_request t_requests t_ended].
    + intros id' k' [[<- <-]|[Hne Hl]]%lookup_insert_Some.
      * exists l, []. rewrite Hnext. split_and!; [done|done|by intros ?%elem_of_nil].
      * apply begun_snoc; [auto|congruence].
    + intros k r [Hx|Hx]%elem_of_app; [by apply (traced_snoc l), T2|].
      destruct (t_requests _ !! id); [by apply elem_of_list_singleton in Hx|by apply elem_of_nil in Hx].
  - destruct (decide (c ∈ n_dead (trun new_rnode l))); [by apply traced_same|].
    pose proof (on_frame_effect (n_table (trun new_rnode l)) s f) as He.
    destruct (on_frame (n_table (trun new_rnode l)) s f) as [t ok]. simpl. inversion He; subst.
    + by apply traced_same.
    + apply traced_complete; [done|done|]. by intros r' [= <-].
    + apply traced_complete; done.
  - apply traced_complete; [done|done|]. by intros r' [= <-].
Qed.

(** Frames on a connection whose receive loop is gone. *)
Definition on_conn (c : N) (o : top) : bool := match o with TFrame c' _ _ => (c' =? c)%N | _ => false end.
Lemma dead_mono n o c : c ∈ n_dead n -> c ∈ n_dead (tstep n o).
Proof.
  intros H. destruct o as [id|c' s f|id r]; simpl; [done| |done]. destruct (decide (c' ∈ n_dead n)); [done|].
  destruct (on_frame (n_table n) s f) as [t ok]. simpl. destruct ok; [done|]. set_solver.
Qed.
Lemma dead_run n c l : c ∈ n_dead n -> trun n l = trun n (List.filter (fun o => negb (on_conn c o)) l).
Proof.
  revert n. induction l as [|o l IH]; intros n Hc; [done|]. cbn [List.filter].
  change (trun n (o :: l)) with (trun (tstep n o) l). destruct (on_conn c o) eqn:E; cbn [negb].
  - destruct o as [id|c' s f|id r]; try done. simpl in E. apply N.eqb_eq in E as ->. simpl. rewrite decide_True by done. by apply IH.
  - change (trun n (o :: ?x)) with (trun (tstep n o) x). apply IH. by apply dead_mono.
Qed.
End table.

(** ** Residue *)
Lemma srun_app s l1 l2 : srun s (l1 ++ l2) = s' ← srun s l1; srun s' l2.
Proof. revert s. induction l1 as [|o l1 IH]; intros s; [done|]. simpl. destruct (sstep s o); simpl; [apply IH|done]. Qed.
Lemma srun_snoc s l o s' : srun s (l ++ [o]) = Some s' -> exists s1, srun s l = Some s1 /\ sstep s1 o = Some s'.
Proof.
  rewrite srun_app. destruct (srun s l) as [s1|]; simpl; [|done]. destruct (sstep s1 o) eqn:E; simpl; [|done]. intros [= <-]. eauto.
Qed.

(** Packets: ids were given out, answers go to where the request came from. *)
Definition pid (p : packet) : rid := match p with PRequest _ _ id _ | PPing _ _ id | PAnswer _ id => id end.
Definition proper (s : rsys) (p : packet) : Prop :=
  (snd (pid p) < s_next s)%N /\ match p with PRequest src _ id _ | PPing src _ id => fst id = src | PAnswer dst id => fst id = dst end.
Definition sinv (s : rsys) : Prop :=
  (forall p, p ∈ s_packets s -> proper s p) /\
  (forall n id, (n, id) ∈ s_reqs s -> (snd id < s_next s)%N) /\
  (forall id c, s_calls s !! id = Some c -> (snd id < s_next s)%N).

Lemma delete_in {A} (l : list A) i x : x ∈ delete i l -> x ∈ l.
Proof. intros H. by eapply elem_of_submseteq; [|apply (sublist_submseteq), sublist_delete]. Qed.

Lemma answer_fields s n id : s_packets (answer s n id) = s_packets s /\ s_next (answer s n id) = s_next s /\
  (forall x, x ∈ s_reqs (answer s n id) -> x ∈ s_reqs s) /\
  (forall x c, s_calls (answer s n id) !! x = Some c -> s_calls s !! x = Some c \/ (c = Ended /\ exists c', s_calls s !! x = Some c')).
Proof.
  unfold answer. destruct (decide ((n, id) ∈ s_reqs s)); [|by auto 10]. cbn [s_packets s_next s_reqs s_calls]. split_and!; try done; [set_solver|].
  intros x c. destruct (s_calls s !! id) as [[]|] eqn:E; [|by auto..]. destruct (fst id =? n)%N; [|by auto].
  intros [[<- <-]|[Hne Hl]]%lookup_insert_Some; [|by auto]. right. eauto.
Qed.
Lemma sinv_step s o s' : sinv s -> sstep s o = Some s' -> sinv s'.
Proof.
  intros (I1 & I2 & I3) H.
  assert (HM : forall nx p, (s_next s <= nx)%N -> p ∈ s_packets s -> (snd (pid p) < nx)%N /\ match p with PRequest src _ id _ | PPing src _ id => fst id = src | PAnswer dst id => fst id = dst end).
  { intros nx p Hle Hp. destruct (I1 p Hp) as [? ?]. split; [lia|done]. }
  assert (HD : forall i, sinv (drop_packet s i)).
  { intros i. split_and!; simpl; [|done|done]. intros p Hp%delete_in. by apply HM. }
  assert (HP : forall s1 p, sinv s1 -> proper s1 p -> sinv (put_packet s1 p)).
  { intros s1 p (J1 & J2 & J3) Hp. split_and!; simpl; [|done|done]. intros q [Hq| ->%elem_of_list_singleton]%elem_of_app; [by apply J1|done]. }
  assert (HA : forall s1 n id, sinv s1 -> sinv (answer s1 n id)).
  { intros s1 n id (J1 & J2 & J3). destruct (answer_fields s1 n id) as (F1 & F2 & F3 & F4). split_and!.
    - rewrite F1. intros p Hp. unfold proper. rewrite F2. by apply J1.
    - rewrite F2. intros n' id' Hx%F3. by eapply J2.
    - rewrite F2. intros id' c [Hx|(_ & c' & Hx)]%F4; by eapply J3. }
  destruct o as [n m e|n m|n m|id|i|i|i|i|i]; simpl in H.
  - injection H as <-. split_and!; unfold proper; cbn [s_packets s_next s_reqs s_calls].
    + intros p [Hp|Hp]%elem_of_app; [apply HM; [lia|done]|]. destruct e; [|by apply elem_of_nil in Hp].
      apply elem_of_list_singleton in Hp as ->. simpl. split; [lia|done].
    + intros n' id' [Hx|Hx%elem_of_singleton]%elem_of_union; [apply I2 in Hx; lia|]. injection Hx as -> ->. simpl. lia.
    + intros id' c [[<- <-]|[Hne Hl]]%lookup_insert_Some; [simpl; lia|]. apply I3 in Hl. lia.
  - injection H as <-. split_and!; unfold proper; cbn [s_packets s_next s_reqs s_calls].
    + intros p [Hp| ->%elem_of_list_singleton]%elem_of_app; [apply HM; [lia|done]|]. simpl. split; [lia|done].
    + intros n' id' Hx. apply I2 in Hx. lia.
    + intros id' c Hl. apply I3 in Hl. lia.
  - injection H as <-. split_and!; unfold proper; cbn [s_packets s_next s_reqs s_calls].
    + intros p [Hp| ->%elem_of_list_singleton]%elem_of_app; [apply HM; [lia|done]|]. simpl. split; [lia|done].
    + intros n' id' [Hx|Hx%elem_of_singleton]%elem_of_union; [apply I2 in Hx; lia|]. injection Hx as -> ->. simpl. lia.
    + intros id' c [[<- <-]|[Hne Hl]]%lookup_insert_Some; [simpl; lia|]. apply I3 in Hl. lia.
  - destruct (s_calls s !! id) as [[[]|]|] eqn:E; try done. injection H as <-. split_and!; cbn [s_packets s_next s_reqs s_calls]; [done|done|].
    intros id' c [[<- <-]|[Hne Hl]]%lookup_insert_Some; [by eapply I3|by eapply I3].
  - destruct (s_packets s !! i) as [[src dst id []|src dst id|dst id]|] eqn:E; try done; injection H as <-; [|done|];
      (apply elem_of_list_lookup_2 in E; apply HP; [done|]; destruct (I1 _ E) as [? ?]; done).
  - destruct (s_packets s !! i) as [[src dst id resp|src dst id|dst id]|] eqn:E; try done; injection H as <-.
    apply elem_of_list_lookup_2 in E. destruct (I1 _ E) as [? ?]. destruct (src =? dst)%N; [by apply HA|].
    apply HP; [|done]. destruct (HD i) as (J1 & J2 & J3). split_and!; [done| |done]. simpl.
    intros n' id' [Hx|Hx%elem_of_singleton]%elem_of_union; [by eapply I2|]. by injection Hx as -> ->.
  - destruct (s_packets s !! i) as [[src dst id resp|src dst id|dst id]|] eqn:E; try done; injection H as <-. done.
  - destruct (s_packets s !! i) as [[src dst id resp|src dst id|dst id]|] eqn:E; try done; injection H as <-. by apply HA.
  - destruct (s_packets s !! i) as [p|] eqn:E; try done; injection H as <-. done.
Qed.
Lemma sinv_run l s : srun new_rsys l = Some s -> sinv s.
Proof.
  revert s. induction l as [|o l IH] using rev_ind; intros s.
  - intros [= <-]. split_and!; [by intros p ?%elem_of_nil|set_solver|done].
  - intros (s1 & H1 & H2)%srun_snoc. eapply sinv_step; [|done]. auto.
Qed.

(** An entry that no answer can reach stays. *)
Lemma answer_keeps s n id n' id' : (n, id) <> (n', id') -> (n', id') ∈ s_reqs s -> (n', id') ∈ s_reqs (answer s n id).
Proof. intros Hne Hin. unfold answer. destruct (decide _); [|done]. simpl. set_solver. Qed.
(** At a node other than the one that made the id. *)
Lemma foreign_step s o s' n id : sinv s -> sstep s o = Some s' -> fst id <> n -> (n, id) ∈ s_reqs s -> (n, id) ∈ s_reqs s'.
Proof.
  intros (I1 & I2 & I3) H Hf Hin. destruct o as [a m e|a m|a m|x|i|i|i|i|i]; simpl in H.
  - injection H as <-. simpl. set_solver.
  - injection H as <-. done.
  - injection H as <-. simpl. set_solver.
  - destruct (s_calls s !! x) as [[[]|]|] eqn:E; try done. by injection H as <-.
  - destruct (s_packets s !! i) as [[src dst x []|src dst x|dst x]|] eqn:E; try done; by injection H as <-.
  - destruct (s_packets s !! i) as [[src dst x resp|src dst x|dst x]|] eqn:E; try done; injection H as <-.
    apply elem_of_list_lookup_2 in E. destruct (I1 _ E) as [? Ho]. simpl in Ho. destruct (N.eqb_spec src dst) as [->|Hne].
    + apply answer_keeps; [|done]. intros [= -> ->]. done.
    + simpl. set_solver.
  - destruct (s_packets s !! i) as [[src dst x resp|src dst x|dst x]|] eqn:E; try done; by injection H as <-.
  - destruct (s_packets s !! i) as [[src dst x resp|src dst x|dst x]|] eqn:E; try done; injection H as <-.
    apply elem_of_list_lookup_2 in E. destruct (I1 _ E) as [? Ho]. simpl in Ho. apply answer_keeps; [|done]. intros [= -> ->]. done.
  - destruct (s_packets s !! i) as [p|] eqn:E; try done; by injection H as <-.
Qed.
Lemma foreign_run l s s' n id : sinv s -> srun s l = Some s' -> fst id <> n -> (n, id) ∈ s_reqs s -> (n, id) ∈ s_reqs s'.
Proof.
  revert s. induction l as [|o l IH]; intros s HI Hr Hf Hin; simpl in Hr; [by injection Hr as <-|].
  destruct (sstep s o) as [s1|] eqn:E; simpl in Hr; [|done]. eapply IH; [|done|done|].
  - by eapply sinv_step.
  - by eapply foreign_step.
Qed.
(** Without a packet. *)
Definition silent (s : rsys) (id : rid) : Prop := (snd id < s_next s)%N /\ forall p, p ∈ s_packets s -> pid p <> id.
Lemma silent_step s o s' id : silent s id -> sstep s o = Some s' ->
  silent s' id /\ (forall n, (n, id) ∈ s_reqs s -> (n, id) ∈ s_reqs s') /\ (s_calls s !! id = Some (Waiting false) -> s_calls s' !! id = Some (Waiting false)).
Proof.
  intros [Hlt Hs] H.
  assert (HD : forall i p, p ∈ delete i (s_packets s) -> pid p <> id) by (intros i p Hp%delete_in; auto).
  assert (HA : forall s1 n id', id' <> id -> s_packets (answer s1 n id') = s_packets s1 /\ s_next (answer s1 n id') = s_next s1 /\
    (forall n0, (n0, id) ∈ s_reqs s1 -> (n0, id) ∈ s_reqs (answer s1 n id')) /\ (s_calls (answer s1 n id') !! id = s_calls s1 !! id)).
  { intros s1 n id' Hne. destruct (answer_fields s1 n id') as (F1 & F2 & _ & _). split_and!; [done|done| |].
    - intros n' Hin. unfold answer. destruct (decide _); [|done]. simpl. destruct (decide (n' = n)); set_solver.
    - unfold answer. destruct (decide _); [|done]. simpl. destruct (s_calls s1 !! id') as [[]|]; [|done..]. destruct (fst id' =? n)%N; [|done].
      by rewrite lookup_insert_ne. }
  destruct o as [a m e|a m|a m|x|i|i|i|i|i]; simpl in H.
  - injection H as <-. unfold silent. cbn [s_next s_packets s_reqs s_calls]. split_and!; [lia| |set_solver|].
    + intros p [Hp|Hp]%elem_of_app; [by apply Hs|]. destruct e; [|by apply elem_of_nil in Hp]. apply elem_of_list_singleton in Hp as ->. simpl. intros <-. simpl in Hlt. lia.
    + intros Hc. rewrite lookup_insert_ne; [done|]. intros <-. simpl in Hlt. lia.
  - injection H as <-. unfold silent. cbn [s_next s_packets s_reqs s_calls]. split_and!; [lia| |done|done].
    intros p [Hp| ->%elem_of_list_singleton]%elem_of_app; [by apply Hs|]. simpl. intros <-. simpl in Hlt. lia.
  - injection H as <-. unfold silent. cbn [s_next s_packets s_reqs s_calls]. split_and!; [lia| |set_solver|].
    + intros p [Hp| ->%elem_of_list_singleton]%elem_of_app; [by apply Hs|]. simpl. intros <-. simpl in Hlt. lia.
    + intros Hc. rewrite lookup_insert_ne; [done|]. intros <-. simpl in Hlt. lia.
  - destruct (s_calls s !! x) as [[[]|]|] eqn:E; try done. injection H as <-. unfold silent. cbn [s_next s_packets s_reqs s_calls]. split_and!; try done.
    intros Hc. rewrite lookup_insert_ne; [done|]. congruence.
  - destruct (s_packets s !! i) as [[src dst x []|src dst x|dst x]|] eqn:E; try done; injection H as <-; unfold silent; cbn [s_next s_packets s_reqs s_calls put_packet drop_packet];
      apply elem_of_list_lookup_2 in E; apply Hs in E; simpl in E; split_and!; try done; intros p Hp; try (by eapply HD);
      (apply elem_of_app in Hp as [Hp|Hp%elem_of_list_singleton]; [by eapply HD|by subst p]).
  - destruct (s_packets s !! i) as [[src dst x resp|src dst x|dst x]|] eqn:E; try done; injection H as <-.
    apply elem_of_list_lookup_2 in E; apply Hs in E; simpl in E. destruct (src =? dst)%N.
    + destruct (HA (drop_packet s i) dst x E) as (F1 & F2 & F3 & F4). unfold silent. rewrite F1, F2, F4. simpl. split_and!; try done. intros p Hp. by eapply HD.
    + unfold silent; cbn [s_next s_packets s_reqs s_calls put_packet drop_packet]. split_and!; [done| |set_solver|done].
      intros p [Hp| ->%elem_of_list_singleton]%elem_of_app; [by eapply HD|done].
  - destruct (s_packets s !! i) as [[src dst x resp|src dst x|dst x]|] eqn:E; try done; injection H as <-. unfold silent; simpl. split_and!; try done. intros p Hp. by eapply HD.
  - destruct (s_packets s !! i) as [[src dst x resp|src dst x|dst x]|] eqn:E; try done; injection H as <-.
    apply elem_of_list_lookup_2 in E; apply Hs in E; simpl in E.
    destruct (HA (drop_packet s i) dst x E) as (F1 & F2 & F3 & F4). unfold silent. rewrite F1, F2, F4. simpl. split_and!; try done. intros p Hp. by eapply HD.
  - destruct (s_packets s !! i) as [p|] eqn:E; try done; injection H as <-. unfold silent; simpl. split_and!; try done. intros q Hq. by eapply HD.
Qed.
Lemma silent_run l s s' id : silent s id -> srun s l = Some s' ->
  (forall n, (n, id) ∈ s_reqs s -> (n, id) ∈ s_reqs s') /\ (s_calls s !! id = Some (Waiting false) -> s_calls s' !! id = Some (Waiting false)).
Proof.
  revert s. induction l as [|o l IH]; intros s Hs Hr; simpl in Hr; [by injection Hr as <-|].
  destruct (sstep s o) as [s1|] eqn:E; simpl in Hr; [|done]. destruct (silent_step _ _ _ _ Hs E) as (H1 & H2 & H3).
  destruct (IH _ H1 Hr) as [H4 H5]. auto.
Qed.

(** Clean runs: an entry belongs to a call that waits, at the node that made it. *)
Definition held (s : rsys) : Prop := forall n id, (n, id) ∈ s_reqs s -> exists p, s_calls s !! id = Some (Waiting p) /\ fst id = n.
Lemma held_answer s n id : held s -> held (answer s n id).
Proof.
  intros HH n' id' Hin. unfold answer in *. destruct (decide ((n, id) ∈ s_reqs s)) as [Hd|Hd]; [|by apply HH]. simpl in *.
  assert (Hin' : (n', id') ∈ s_reqs s) by set_solver. assert (Hne : (n', id') <> (n, id)) by set_solver.
  destruct (HH _ _ Hd) as (p & Hp & Hfst). destruct (HH _ _ Hin') as (p' & Hp' & Hfst'). rewrite Hp.
  destruct (fst id =? n)%N; [|by eauto]. rewrite lookup_insert_ne; [by eauto|]. intros <-. congruence.
Qed.
Lemma held_step s o s' : sinv s -> held s -> clean o -> sstep s o = Some s' -> held s'.
Proof.
  intros (I1 & I2 & I3) HH Hc H. destruct o as [a m e|a m|a m|x|i|i|i|i|i]; simpl in Hc, H; try done.
  - subst e. injection H as <-. intros n id [Hx|Hx%elem_of_singleton]%elem_of_union; cbn [s_calls].
    + rewrite lookup_insert_ne; [by apply HH|]. intros <-. apply I2 in Hx. simpl in Hx. lia.
    + injection Hx as -> ->. rewrite lookup_insert. eauto.
  - injection H as <-. done.
  - injection H as <-. intros n id [Hx|Hx%elem_of_singleton]%elem_of_union; cbn [s_calls].
    + rewrite lookup_insert_ne; [by apply HH|]. intros <-. apply I2 in Hx. simpl in Hx. lia.
    + injection Hx as -> ->. rewrite lookup_insert. eauto.
  - destruct (s_packets s !! i) as [[src dst x []|src dst x|dst x]|] eqn:E; try done; injection H as <-; done.
  - destruct (s_packets s !! i) as [[src dst x resp|src dst x|dst x]|] eqn:E; try done; injection H as <-; done.
  - destruct (s_packets s !! i) as [[src dst x resp|src dst x|dst x]|] eqn:E; try done; injection H as <-. by apply held_answer.
  - destruct (s_packets s !! i) as [p|] eqn:E; try done; injection H as <-. done.
Qed.
Lemma held_run l s : srun new_rsys l = Some s -> Forall clean l -> held s.
Proof.
  revert s. induction l as [|o l IH] using rev_ind; intros s.
  - intros [= <-] _ n id Hx. set_solver.
  - intros (s1 & H1 & H2)%srun_snoc [Hl [Ho _]%Forall_cons]%Forall_app. eapply held_step; [by eapply sinv_run|by auto|done|done].
Qed.
