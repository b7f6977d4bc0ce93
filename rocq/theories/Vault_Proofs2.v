(** Persistent sharded entities: requests reach actors of their entity. *)
From Verif Require Import Journal_Model Journal_Spec Durable_Model Durable_Spec Durable_Proofs.
From Verif Require Import Host_Model Entity_Model Sharded_Model Sharded_Spec Sharded_Results Vault_Model Vault_Spec Vault_Proofs.
Local Open Scope N_scope.

Section own.
Variable shard_of : N -> N.
Variable readable : bytes -> bool.
Notation zstep := (zstep shard_of readable).
(** Entity actor [e] is one of entity [id]. *)
Variable own : N -> N -> Prop.

Definition has (n e id : N) : Prop := e < n /\ own e id.
Definition ents_own (n : N) (m : gmap N (N * estate ticket)) : Prop := forall id rc e, m !! id = Some (rc, EActive e) -> has n e id.
Definition eff_own (n : N) (eff : list (eeffect ticket)) : Prop := forall id e t, EForward id e t ∈ eff -> has n e id.
Definition tasks_own (n : N) (l : list task) : Prop := forall m s a id e t, TEntity m s a id e t ∈ l -> has n e id.
Record owned (z : sys) : Prop := {
  ow_shards : forall x m, z_shards z !! x = Some m -> ents_own (z_nexte z) m;
  ow_tasks : tasks_own (z_nexte z) (z_tasks z) }.

Lemma tasks_own_app n l l' : tasks_own n l -> tasks_own n l' -> tasks_own n (l ++ l').
Proof. intros H H' m s a id e t. rewrite elem_of_app. intros [?|?]; [by eapply H|by eapply H']. Qed.
Lemma remove_nth_elem {A} (l : list A) i x : x ∈ remove_nth i l -> x ∈ l.
Proof. unfold remove_nth. intros H. rewrite <- (take_drop i l). apply elem_of_app in H as [H|H]; apply elem_of_app; [by left|right]. apply elem_of_list_lookup in H as [j H]. rewrite lookup_drop in H. apply (elem_of_list_lookup_2 _ (S j)). rewrite lookup_drop, <- H. f_equal. lia. Qed.
Lemma tasks_own_remove n l i : tasks_own n l -> tasks_own n (remove_nth i l).
Proof. intros H m s a id e t ?%remove_nth_elem. by eapply H. Qed.
Lemma tasks_own_mono n n' l : n <= n' -> tasks_own n l -> tasks_own n' l.
Proof. intros Hn H m s a id e t Hin. destruct (H _ _ _ _ _ _ Hin). split; [lia|done]. Qed.
Lemma ents_own_mono n n' m : n <= n' -> ents_own n m -> ents_own n' m.
Proof. intros Hn H id rc e Hin. destruct (H _ _ _ Hin). split; [lia|done]. Qed.

Lemma resolve_tasks n t x : forall y, y ∈ (resolve readable n t x).1 -> exists k o r, y = TAnswer n k o r.
Proof. unfold resolve. destruct (t_origin t); cbn; intros y H; [|by apply elem_of_nil in H]. apply elem_of_list_singleton in H as ->. eauto. Qed.
Lemma resolve_all_tasks n l : forall y, y ∈ (resolve_all readable n l).1 -> exists k o r, y = TAnswer n k o r.
Proof.
  unfold resolve_all. cbn [fst]. intros y H. apply elem_of_list_In, in_flat_map in H as (p & _ & H). apply elem_of_list_In in H. by eapply resolve_tasks.
Qed.
Lemma answers_own n nn l : (forall y, y ∈ l -> exists k o r, y = TAnswer n k o r) -> tasks_own nn l.
Proof. intros H m s a id e t Hin. destruct (H _ Hin) as (? & ? & ? & ?). done. Qed.

Lemma do_host_owned z n mail h eff : owned z -> owned (do_host readable z n mail h eff).1.
Proof.
  intros [O1 O2]. unfold do_host. destruct (resolve_all readable n (host_dropped eff)) as [ts evs] eqn:Er. cbn [fst]. split; cbn [z_shards z_nexte z_tasks].
  - generalize (host_started n eff) as l. induction l as [|y l IH]; cbn [fold_right]; [done|]. intros x m.
    destruct (fold_right _ (z_shards z) l !! y) eqn:E; [apply IH|].
    destruct (decide (x = y)) as [->|Hne]; [rewrite lookup_insert; intros [= <-]; done|rewrite lookup_insert_ne by done; apply IH].
  - apply tasks_own_app; [done|]. apply tasks_own_app.
    + intros m s a id e t Hin. unfold host_tasks in Hin. apply elem_of_list_omap in Hin as (y & _ & Hy). by destruct y.
    + apply (answers_own n). intros y Hy. apply (resolve_all_tasks n (host_dropped eff)). by rewrite Er.
Qed.
Lemma do_shard_owned z n s a tasks m eff : owned z -> tasks_own (z_nexte z) tasks -> ents_own (z_nexte z) m -> eff_own (z_nexte z) eff ->
  owned (do_shard readable z n s a tasks m eff).1.
Proof.
  intros [O1 O2] Ht Hm He. unfold do_shard. destruct (resolve_all readable n (shard_replies eff)) as [ts evs] eqn:Er. cbn [fst]. split; cbn [z_shards z_nexte z_tasks].
  - intros x m'. destruct (decide (x = (n, s, a))) as [->|Hne]; [rewrite lookup_insert; by intros [= <-]|rewrite lookup_insert_ne by done; apply O1].
  - apply tasks_own_app; [done|]. apply tasks_own_app.
    + intros m' s' a' id e t Hin. unfold shard_tasks in Hin. apply elem_of_list_omap in Hin as (y & Hin & Hy). destruct y; try done. injection Hy as _ _ _ -> -> ->. by eapply He.
    + apply (answers_own n). intros y Hy. apply (resolve_all_tasks n (shard_replies eff)). by rewrite Er.
Qed.

Lemma on_entity_request_own n m q : ents_own n m -> ents_own n (on_entity_request m q).1 /\ eff_own n (on_entity_request m q).2.
Proof.
  intros H. unfold on_entity_request. destruct (q_known q); cbn [fst snd].
  2: { split; [done|]. intros id e t Hin. by apply elem_of_list_singleton in Hin. }
  destruct (m !! q_id q) as [[rc st]|] eqn:E.
  - destruct st as [|buf|a|]; cbn [entity_request fst snd]; (split; [intros id rc' e; destruct (decide (id = q_id q)) as [->|Hne];
      [rewrite lookup_insert; intros [= <- He]; try done; subst; by eapply H|rewrite lookup_insert_ne by done; apply H]|]).
    + intros id e t Hin. by apply elem_of_list_singleton in Hin.
    + intros id e t Hin. by apply elem_of_nil in Hin.
    + intros id e t Hin. apply elem_of_list_singleton in Hin as [= -> -> _]. by eapply H.
    + intros id e t Hin. by apply elem_of_list_singleton in Hin.
  - destruct (q_recipe q) as [rc|]; cbn [fst snd]; (split; [|intros id e t Hin; by apply elem_of_list_singleton in Hin]); [|done].
    intros id rc' e. destruct (decide (id = q_id q)) as [->|Hne]; [by rewrite lookup_insert|rewrite lookup_insert_ne by done; apply H].
Qed.
Lemma on_start_entity_own n m id rc : ents_own n m -> ents_own n (on_start_entity m id rc).1 /\ eff_own n (on_start_entity m id rc).2.
Proof.
  intros H. unfold on_start_entity. cbn [fst snd]. split.
  - intros id' rc' e. destruct (decide (id' = id)) as [->|Hne]; [by rewrite lookup_insert|rewrite lookup_insert_ne by done; apply H].
  - intros id' e t Hin. apply elem_of_app in Hin as [Hin|Hin]; [|by apply elem_of_list_singleton in Hin].
    unfold drop_buffer in Hin. destruct (m !! id) as [[? [|buf| |]]|]; try by apply elem_of_nil in Hin. apply elem_of_list_fmap in Hin as (? & ? & _). done.
Qed.
Lemma on_start_result_own n m id res : ents_own n m -> (forall e, res = Some e -> has n e id) ->
  ents_own n (on_start_result m id res).1 /\ eff_own n (on_start_result m id res).2.
Proof.
  intros H Hr. unfold on_start_result. destruct res as [a|]; [|split; [done|intros ??? Hin; by apply elem_of_nil in Hin]].
  destruct (m !! id) as [[rc st]|]; [|split; [done|intros ??? Hin; by apply elem_of_nil in Hin]]. cbn [fst snd]. split.
  - intros id' rc' e. destruct (decide (id' = id)) as [->|Hne]; [rewrite lookup_insert; intros [= _ <-]; by apply Hr|rewrite lookup_insert_ne by done; apply H].
  - intros id' e t Hin. destruct st as [|buf| |]; try by apply elem_of_nil in Hin. apply elem_of_list_fmap in Hin as (? & [= -> -> _] & _). by apply Hr.
Qed.

Lemma owned_tasks z l : owned z -> tasks_own (z_nexte z) l -> owned (set_tasks z l).
Proof. intros [O1 O2] H. by split. Qed.
Lemma do_resolve_owned z l n t x : owned z -> tasks_own (z_nexte z) l -> owned (do_resolve readable z l n t x).1.
Proof.
  intros O H. unfold do_resolve. destruct (resolve readable n t x) as [ts evs] eqn:Er. cbn [fst]. apply owned_tasks; [done|]. apply tasks_own_app; [done|].
  apply (answers_own n). intros y Hy. apply (resolve_tasks n t x). by rewrite Er.
Qed.
Lemma shard_request_owned z n s a l m r t known : owned z -> z_shards z !! (n, s, a) = Some m -> tasks_own (z_nexte z) l ->
  owned (shard_request readable z n s a l m r t known).1.
Proof.
  intros O Hm Hl. unfold shard_request. pose proof (on_entity_request_own (z_nexte z) m (EReq (t_ent t) (r_recipe r) known t) (ow_shards _ O _ _ Hm)) as [H1 H2].
  destruct (on_entity_request m _) as [m' eff]. by apply do_shard_owned.
Qed.

Lemma owned_step z o : owned z ->
  (forall i n s a id rc, o = OCreated i true -> z_tasks z !! i = Some (TCreate n s a id rc) -> own (z_nexte z) id) -> owned (zstep z o).1.
Proof.
  intros O Hc. pose proof O as [O1 O2]. destruct o as [n id m recipe enc typed|i|n c|i a known|i|i d|i|i ok|n s a id rc|n s a|n]; cbn [Sharded_Model.zstep].
  - destruct enc; [destruct typed; [destruct (z_hosts z !! n)|]|]; cbn; by split.
  - destruct (z_mail z !! i) as [[n r]|]; [|done]. destruct (z_hosts z !! n) as [h|]; [|done].
    destruct (hstep h _) as [h' eff]. by apply do_host_owned.
  - assert (Hx : owned (match z_hosts z !! n with Some h => let '(h', eff) := hstep h c in do_host readable z n (z_mail z) h' eff | None => (z, []) end).1).
    { destruct (z_hosts z !! n) as [h|]; [|done]. destruct (hstep h c) as [h' eff]. by apply do_host_owned. }
    destruct c; done.
  - destruct (z_tasks z !! i) as [[n s a' r|n m s r|n s a' id e t|n k or x|n s a' id rc]|] eqn:Ei; try done.
    + destruct (z_shards z !! (n, s, a')) as [m|] eqn:Es; [apply shard_request_owned; [done|done|]|apply do_resolve_owned; [done|]]; by apply tasks_own_remove.
    + destruct (z_shards z !! (m, s, a)) as [m'|] eqn:Es; [apply shard_request_owned; [done|done|]|apply owned_tasks; [done|]]; by apply tasks_own_remove.
  - destruct (z_tasks z !! i) as [[]|]; try done; apply owned_tasks; try done; by apply tasks_own_remove.
  - destruct (z_tasks z !! i) as [[n s a' r|n m s r|n s a' id e t|n k or x|n s a' id rc]|] eqn:Ei; try done.
    pose proof (do_resolve_owned z (remove_nth i (z_tasks z)) n t (entity_result d) O ltac:(by apply tasks_own_remove)) as H.
    destruct (do_resolve readable z _ n t _) as [z' evs]. done.
  - destruct (z_tasks z !! i) as [[n s a' r|n m s r|n s a' id e t|n k or x|n s a' id rc]|] eqn:Ei; try done.
    destruct (z_waiting z !! k); [|apply owned_tasks; [done|by apply tasks_own_remove]]. split; [done|]. by apply tasks_own_remove.
  - destruct (z_tasks z !! i) as [[n s a' r|n m s r|n s a' id e t|n k or x|n s a' id rc]|] eqn:Ei; try done.
    set (z' := Sys _ _ _ _ _ _ _). assert (Oz : owned z').
    { split; cbn; [intros; eapply ents_own_mono; [|by eapply O1]; lia|eapply tasks_own_mono; [|exact O2]; lia]. }
    assert (Hl : tasks_own (z_nexte z') (remove_nth i (z_tasks z))). { apply tasks_own_remove. exact (ow_tasks _ Oz). }
    destruct (z_shards z !! (n, s, a')) as [m|] eqn:Es; [|by apply owned_tasks].
    pose proof (on_start_result_own (z_nexte z') m id (if ok then Some (z_nexte z) else None) (ow_shards _ Oz _ _ Es)) as H.
    destruct (on_start_result m id _) as [m' eff]. destruct H as [H1 H2]; [|by apply do_shard_owned].
    intros e He. destruct ok; [|done]. injection He as <-. split; [cbn; lia|]. by eapply Hc.
  - destruct (z_shards z !! (n, s, a)) as [m|] eqn:Es; [|done]. pose proof (on_start_entity_own (z_nexte z) m id rc (O1 _ _ Es)) as [H1 H2].
    destruct (on_start_entity m id rc) as [m' eff]. by apply do_shard_owned.
  - destruct (z_shards z !! (n, s, a)) as [m|] eqn:Es; [|done]. destruct (resolve_all readable n (kept_tickets m)) as [ts evs] eqn:Er. split; cbn.
    + intros x m' [_ Hx]%lookup_delete_Some. by eapply O1.
    + apply tasks_own_app; [done|]. apply (answers_own n). intros y Hy. apply (resolve_all_tasks n (kept_tickets m)). by rewrite Er.
  - split; cbn.
    + intros x m [Hx _]%map_filter_lookup_Some. by eapply O1.
    + intros m s a id e t Hin. apply elem_of_list_In, filter_In in Hin as [Hin _]. apply elem_of_list_In in Hin. by eapply O2.
Qed.
End own.

Lemma owned_weaken (own own' : N -> N -> Prop) z : owned own z -> (forall e id, e < z_nexte z -> own e id -> own' e id) -> owned own' z.
Proof.
  intros [O1 O2] H. split.
  - intros x m Hx id rc e Hm. destruct (O1 _ _ Hx _ _ _ Hm) as [? ?]. split; [done|]. by apply H.
  - intros m s a id e t Hin. destruct (O2 _ _ _ _ _ _ Hin) as [? ?]. split; [done|]. by apply H.
Qed.
Lemma owned_init own nodes : owned own (sys_init nodes).
Proof. split; cbn; [done|]. intros m s a id e t H. by apply elem_of_nil in H. Qed.

(** Handlers run in one kind of step only. *)
Section handled.
Variable shard_of : N -> N.
Variable readable : bytes -> bool.
Notation zstep := (zstep shard_of readable).

Definition no_handled (l : list zevent) : Prop := forall k id e m v, ZHandled k id e m v ∉ l.
Lemma resolve_unhandled n t x : no_handled (resolve readable n t x).2.
Proof. unfold resolve. intros k id e m v. destruct (t_origin t); cbn; intros H; [by apply elem_of_nil in H|by apply elem_of_list_singleton in H]. Qed.
Lemma resolve_all_unhandled n l : no_handled (resolve_all readable n l).2.
Proof.
  intros k id e m v H. unfold resolve_all in H. cbn [snd] in H. apply elem_of_list_In, in_flat_map in H as (p & _ & H). apply elem_of_list_In in H. by eapply resolve_unhandled.
Qed.
Lemma do_host_unhandled z n mail h eff : no_handled (do_host readable z n mail h eff).2.
Proof. unfold do_host. pose proof (resolve_all_unhandled n (host_dropped eff)). by destruct (resolve_all readable n _). Qed.
Lemma do_shard_unhandled z n s a l m eff : no_handled (do_shard readable z n s a l m eff).2.
Proof. unfold do_shard. pose proof (resolve_all_unhandled n (shard_replies eff)). by destruct (resolve_all readable n _). Qed.
Lemma do_resolve_unhandled z l n t x : no_handled (do_resolve readable z l n t x).2.
Proof. unfold do_resolve. pose proof (resolve_unhandled n t x). by destruct (resolve readable n t x). Qed.
Lemma shard_request_unhandled z n s a l m r t known : no_handled (shard_request readable z n s a l m r t known).2.
Proof. unfold shard_request. destruct (on_entity_request m _). apply do_shard_unhandled. Qed.
Lemma nil_unhandled : no_handled [].
Proof. intros ????? H. by apply elem_of_nil in H. Qed.
Lemma gone_unhandled l : no_handled (gone l).
Proof. intros ????? H. unfold gone in H. by apply elem_of_list_fmap in H as (? & ? & _). Qed.

Lemma step_unhandled z o : (forall i d, o <> OEntity i d) -> no_handled (zstep z o).2.
Proof.
  intros Ho. destruct o as [n id m recipe enc typed|i|n c|i a known|i|i d|i|i ok|n s a id rc|n s a|n]; cbn [Sharded_Model.zstep].
  - destruct enc; [destruct typed; [destruct (z_hosts z !! n)|]|]; cbn; intros ????? H; rewrite ?elem_of_cons, ?elem_of_nil in H; destruct_or? H; done.
  - destruct (z_mail z !! i) as [[n r]|]; [|apply nil_unhandled]. destruct (z_hosts z !! n) as [h|]; [|apply nil_unhandled].
    destruct (hstep h _) as [h' eff]. apply do_host_unhandled.
  - assert (Hx : no_handled (match z_hosts z !! n with Some h => let '(h', eff) := hstep h c in do_host readable z n (z_mail z) h' eff | None => (z, []) end).2).
    { destruct (z_hosts z !! n) as [h|]; [|apply nil_unhandled]. destruct (hstep h c) as [h' eff]. apply do_host_unhandled. }
    destruct c; try done. apply nil_unhandled.
  - destruct (z_tasks z !! i) as [[n s a' r|n m s r|n s a' id e t|n k or x|n s a' id rc]|] eqn:Ei; try apply nil_unhandled.
    + destruct (z_shards z !! (n, s, a')); [apply shard_request_unhandled|apply do_resolve_unhandled].
    + destruct (z_shards z !! (m, s, a)); [apply shard_request_unhandled|]. intros ????? H. by apply elem_of_list_singleton in H.
  - destruct (z_tasks z !! i) as [[]|]; try apply nil_unhandled; intros ????? H; by apply elem_of_list_singleton in H.
  - by destruct (Ho i d).
  - destruct (z_tasks z !! i) as [[n s a' r|n m s r|n s a' id e t|n k or x|n s a' id rc]|] eqn:Ei; try apply nil_unhandled.
    destruct (z_waiting z !! k); intros ????? H; by apply elem_of_list_singleton in H.
  - destruct (z_tasks z !! i) as [[n s a' r|n m s r|n s a' id e t|n k or x|n s a' id rc]|] eqn:Ei; try apply nil_unhandled.
    destruct (z_shards z !! (n, s, a')); [|apply nil_unhandled]. destruct (on_start_result _ _ _). apply do_shard_unhandled.
  - destruct (z_shards z !! (n, s, a)); [|apply nil_unhandled]. destruct (on_start_entity _ _ _). apply do_shard_unhandled.
  - destruct (z_shards z !! (n, s, a)) as [m|]; [|apply nil_unhandled]. pose proof (resolve_all_unhandled n (kept_tickets m)). by destruct (resolve_all readable n (kept_tickets m)).
  - apply gone_unhandled.
Qed.
Lemma entity_step z i n s a id e t d : z_tasks z !! i = Some (TEntity n s a id e t) ->
  exists evs, no_handled evs /\ (zstep z (OEntity i d)).2 = match entity_handled d with Some v => ZHandled (t_call t) id e (t_msg t) v :: evs | None => evs end.
Proof.
  intros H. cbn [Sharded_Model.zstep]. rewrite H. pose proof (do_resolve_unhandled z (remove_nth i (z_tasks z)) n t (entity_result d)) as Hn.
  destruct (do_resolve readable z _ n t _) as [z' evs]. exists evs. by destruct (entity_handled d).
Qed.
(** A handler can run only for what was called. *)
Lemma task_called nodes ops i n s a id e t : z_tasks (zrun shard_of readable nodes ops).1 !! i = Some (TEntity n s a id e t) ->
  exists n', ZCalled (t_call t) n' id (t_msg t) ∈ (zrun shard_of readable nodes ops).2.
Proof.
  intros H. destruct (entity_step _ _ _ _ _ _ _ _ DPanicked H) as (evs & Hn & E). cbn [entity_handled] in E.
  destruct (handled_called shard_of readable nodes (ops ++ [OEntity i DPanicked]) (t_call t) id e (t_msg t) None) as [n' Hc].
  { rewrite zrun_snoc. cbn [snd]. apply elem_of_app. right. rewrite E. by left. }
  exists n'. rewrite zrun_snoc in Hc. cbn [snd] in Hc. apply elem_of_app in Hc as [Hc|Hc]; [done|]. exfalso.
  destruct (zstep_called shard_of readable (zrun shard_of readable nodes ops).1 (OEntity i DPanicked) (t_call t)) as [_ Hz].
  pose proof (count_elem (is_called (t_call t)) _ _ Hc) as Hk. cbn [is_called] in Hk. rewrite N.eqb_refl in Hk. specialize (Hk eq_refl). lia.
Qed.
End handled.
