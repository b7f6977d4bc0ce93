(** Properties C81 and C82: several singletons of one actor type, such as several sharded
    entity types. *)
From Verif Require Import Singleton_Spec Singleton_Props Twin_Spec Twin_Proofs Twin_Proofs2 Twin_Proofs3 Twin_Proofs4.

Local Open Scope N_scope.

(** ** C81 Every one of them is started and answers *)

(** Not so: on a node that has company, the kind that is started first never gets an actor,
    and none of the requests sent for it from this node is ever handled: a later kind takes
    its manager's place in the registry, so no lease is ever granted to it. *)
Theorem C81_first_refuted includes ns l y n k :
  trun includes (tnew ns) l = Some y -> followed includes n k l ->
  (exists x, slot_of y n k = Some x /\ t_live x = []) /\
  forall h, h ∈ t_log y -> ~ (h_from h = n /\ h_kind h = k).
Proof.
  intros Hr Hf. destruct (followed_unserved includes ns l y n k Hr Hf) as ((x & Hx & _ & _ & _ & Hl & _) & _ & Hlog).
  split; [exists x; done|exact Hlog].
Qed.
Print Assumptions C81_first_refuted.

(** When it is so on every node, the first of two entity types is never served at all. *)
Theorem C81_never_refuted includes ns l y k :
  trun includes (tnew ns) l = Some y -> (forall n, TStart n k ∈ l -> followed includes n k l) ->
  forall h, h ∈ t_log y -> h_kind h <> k.
Proof.
  intros Hr Hf h Hh Hk.
  assert (Hst : TStart (h_from h) (h_kind h) ∈ l).
  { destruct (slot_of y (h_from h) (h_kind h)) as [x|] eqn:E.
    - apply (started_iff includes ns l y _ _ Hr). exists x. done.
    - destruct (unstarted_silent includes ns l y _ _ Hr E) as [_ Hl]. destruct (Hl h Hh). done. }
  rewrite Hk in Hst. destruct (C81_first_refuted includes ns l y (h_from h) k Hr (Hf _ Hst)) as [_ H].
  exact (H h Hh (conj eq_refl Hk)).
Qed.
Print Assumptions C81_never_refuted.

(** What holds: a kind that is alone in the cluster runs as a singleton, so that what is said
    of singletons (C53-C55) holds of it. *)
Theorem C81_alone_partial includes ns l t k :
  trun includes (tnew ns) l = Some t -> Forall (one_kind k) l ->
  exists l' y, srun includes (new_sys ns) l' = Some y /\ same_singleton ns k t y.
Proof.
  intros Hr Ho. destruct (alone includes ns k l t Hr Ho) as (l' & y & Hy & Hs).
  exists l', y. split; [done|]. exact (sim_same ns k t y Hs).
Qed.
Print Assumptions C81_alone_partial.

(** Two entity types, 0 and then 1, on two nodes; node 1 leads. *)
Definition both_up (k : N) : list top := [TEvent 1 k (IMemberUp 1 [1; 2]); TEvent 2 k (IMemberUp 1 [1; 2])].
Definition same_order : list top :=
  [TStart 1 0; TStart 1 1; TStart 2 0; TStart 2 1] ++ both_up 0 ++ both_up 1 ++
  [TSend 1 0 70 true; TProxy 1 0; TSend 1 1 71 true; TProxy 1 1;
   TDeliver 0; TDeliver 0;         (* both requests for the lease arrive at kind 1 on node 2 *)
   TDeliver 0; TDeliver 0;         (* both acknowledgements arrive at kind 1 on node 1 *)
   TCreate 1 1 true; TResult 1 1 0; TProxy 1 1; TRun 1 1 0; TDeliver 0;
   TProxy 2 1; TSend 2 1 72 true; TProxy 2 1; TRun 2 1 0; TArrive 0;
   TSend 2 0 73 true; TProxy 2 0].

(** The first type is not served, the second is; 70 and 73 wait for ever. *)
Example C81_example :
  (fun y => (t_log y, t_px <$> slot_of y 1 0, t_px <$> slot_of y 2 0)) <$> trun everyone (tnew [1; 2]) same_order =
  Some ([THit 1 1 71 1 1 0; THit 2 1 72 1 1 0],
        Some (Some (XBuffered [(70, true)])), Some (Some (XBuffered [(73, true)]))).
Proof. vm_compute. reflexivity. Qed.

(** It meets the hypotheses of the theorems. *)
Example C81_case n : TStart n 0 ∈ same_order -> followed everyone n 0 same_order.
Proof.
  intros H. unfold same_order, both_up in H. cbn [app] in H.
  repeat (apply elem_of_cons in H as [H|H]; [try discriminate|]); [injection H as ->|injection H as ->|apply elem_of_nil in H; done].
  - exists [], [], 1, (drop 2 same_order). split; [done|]. split; [done|]. split; [apply Forall_nil; done|].
    cbn. apply Forall_singleton. exists 2. split; [|done]. right. left.
  - exists (take 2 same_order), [], 1, (drop 4 same_order). split; [done|]. split; [done|]. split; [apply Forall_nil; done|].
    cbn. apply Forall_singleton. exists 1. split; [|done]. left.
Qed.

(** On a node of its own both types get their actors. *)
Example C81_single_example :
  t_log <$> trun everyone (tnew [1]) [TStart 1 0; TStart 1 1; TEvent 1 0 (IMemberUp 1 [1]); TEvent 1 1 (IMemberUp 1 [1]);
    TCreate 1 0 true; TCreate 1 1 true; TResult 1 0 0; TResult 1 1 0; TProxy 1 0; TProxy 1 1;
    TSend 1 0 70 true; TProxy 1 0; TRun 1 0 0; TSend 1 1 71 true; TProxy 1 1; TRun 1 1 0] =
  Some [THit 1 0 70 0 1 0; THit 1 1 71 1 1 1].
Proof. vm_compute. reflexivity. Qed.

(** One type alone: its run, and the run of a singleton that it corresponds to. *)
Definition one_type : list top :=
  [TStart 1 7; TStart 2 7] ++ both_up 7 ++
  [TDeliver 0; TDeliver 0; TCreate 1 7 true; TResult 1 7 0; TDeliver 0;
   TProxy 2 7; TSend 2 7 72 true; TProxy 2 7; TRun 2 7 0; TArrive 0].
Example C81_alone_case : Forall (one_kind 7) one_type.
Proof. unfold one_type, both_up. cbn [app]. repeat (apply Forall_cons; split; [cbn; done|]). apply Forall_nil. done. Qed.
Example C81_alone_example : t_log <$> trun everyone (tnew [1; 2]) one_type = Some [THit 2 7 72 7 1 0].
Proof. vm_compute. reflexivity. Qed.

(** ** C82 A request is handled by an actor of the kind it was sent to *)

(** Not so: with the types started in another order on node 2, a request for type 0 sent
    there is handled by the actor of type 1 on node 1. *)
Definition other_order : list top :=
  [TStart 1 0; TStart 1 1; TStart 2 1; TStart 2 0] ++ both_up 0 ++ both_up 1 ++
  [TDeliver 0; TDeliver 0; TDeliver 0; TDeliver 0; TCreate 1 1 true; TResult 1 1 0; TDeliver 0;
   TProxy 2 0; TSend 2 0 73 true; TProxy 2 0; TRun 2 0 0; TArrive 0].
Theorem C82_mixed_refuted : exists ns l y h, trun everyone (tnew ns) l = Some y /\ h ∈ t_log y /\
  (h_kind h, h_from h, h_by h, h_at h) = (0, 2, 1, 1).
Proof.
  assert (H : t_log <$> trun everyone (tnew [1; 2]) other_order = Some [THit 2 0 73 1 1 0]) by (vm_compute; reflexivity).
  exists [1; 2], other_order. destruct (trun everyone (tnew [1; 2]) other_order) as [y|]; [|discriminate].
  injection H as H. exists y, (THit 2 0 73 1 1 0). split; [reflexivity|]. rewrite H. split; [left|reflexivity].
Qed.
Print Assumptions C82_mixed_refuted.

(** What holds: it was sent (no request is handled more often than it was sent), and it was
    handled by an actor of some kind started on that node. *)
Theorem C82_sent includes ns l y n k q :
  trun includes (tnew ns) l = Some y -> (hits n k q (t_log y) <= sends n k q l)%nat.
Proof. exact (hits_sent includes ns l y n k q). Qed.
Print Assumptions C82_sent.

Theorem C82_actor includes ns l y h :
  trun includes (tnew ns) l = Some y -> h ∈ t_log y ->
  TCreate (h_at h) (h_by h) true ∈ l /\ TStart (h_at h) (h_by h) ∈ l.
Proof.
  intros Hr Hh. pose proof (hit_created includes ns l y h Hr Hh) as Hc. split; [exact Hc|].
  exact (create_started includes ns l y _ _ true Hr Hc).
Qed.
Print Assumptions C82_actor.

(** A request handled on the node where it was sent is handled by its own kind. *)
Theorem C82_local_partial includes ns l y h :
  trun includes (tnew ns) l = Some y -> h ∈ t_log y -> h_at h = h_from h -> h_by h = h_kind h.
Proof. exact (local_own includes ns l y h). Qed.
Print Assumptions C82_local_partial.

(** With one kind, all are. *)
Theorem C82_alone_partial includes ns l y h k :
  trun includes (tnew ns) l = Some y -> h ∈ t_log y -> Forall (one_kind k) l -> h_by h = h_kind h.
Proof.
  intros Hr Hh Ho. rewrite Forall_forall in Ho.
  destruct (C82_actor includes ns l y h Hr Hh) as [_ Hs]. pose proof (Ho _ Hs) as E1. cbn in E1.
  assert (Hst : TStart (h_from h) (h_kind h) ∈ l).
  { destruct (slot_of y (h_from h) (h_kind h)) as [x|] eqn:E.
    - apply (started_iff includes ns l y _ _ Hr). exists x. done.
    - destruct (unstarted_silent includes ns l y _ _ Hr E) as [_ Hl]. destruct (Hl h Hh). done. }
  pose proof (Ho _ Hst) as E2. cbn in E2. congruence.
Qed.
Print Assumptions C82_alone_partial.

(** When the actor of one kind stops, those of the other kinds on that node cannot be reached
    from other nodes any more, until a further one is created there. *)
Theorem C82_cut_refuted includes ns l n k a l' y1 y :
  trun includes (tnew ns) (l ++ [TStopped n k a]) = Some y1 ->
  trun includes y1 l' = Some y -> (forall k', TCreate n k' true ∉ l') ->
  forall h, h ∈ t_log y -> h ∈ t_log y1 \/ h_at h <> n \/ h_from h = n.
Proof.
  intros Hr Hr' Hno h Hh. rewrite trun_app in Hr. destruct (trun includes (tnew ns) l) as [y0|]; [|done].
  cbn [mbind option_bind trun] in Hr. destruct (tstep includes y0 (TStopped n k a)) as [y2|] eqn:E; [|done].
  cbn [mbind option_bind] in Hr. injection Hr as <-.
  destruct (cut includes y0 _ y2 n k a l' y eq_refl E Hr' Hno h Hh) as [H|[H|[H _]]]; [left|right; left|right; right]; done.
Qed.
Print Assumptions C82_cut_refuted.

(** Both types run on node 1, alone at first. Node 2 joins; its requests for type 1 are
    handled. Then the actor of type 0 stops, and the next request for type 1 finds nobody,
    although the actor of type 1 is still there. *)
Definition grown : list top :=
  [TStart 1 0; TStart 1 1; TEvent 1 0 (IMemberUp 1 [1]); TEvent 1 1 (IMemberUp 1 [1]);
   TCreate 1 0 true; TCreate 1 1 true; TResult 1 0 0; TResult 1 1 0;
   TStart 2 0; TStart 2 1; TEvent 1 0 (IAdded 2); TEvent 1 1 (IAdded 2);
   TDeliver 0; TDeliver 0; TProxy 2 1; TProxy 2 1; TSend 2 1 74 true; TProxy 2 1; TRun 2 1 0; TArrive 0].
Example C82_cut_example :
  let later := [TSend 2 1 75 true; TProxy 2 1; TRun 2 1 0; TArrive 0] in
  (fun y => (t_log y, t_calls y)) <$> trun everyone (tnew [1; 2]) (grown ++ later) =
    Some ([THit 2 1 74 1 1 1; THit 2 1 75 1 1 1], []) /\
  (fun y => (t_log y, t_live <$> slot_of y 1 1, t_calls y)) <$> trun everyone (tnew [1; 2]) (grown ++ [TStopped 1 0 0] ++ later) =
    Some ([THit 2 1 74 1 1 1], Some [1], []).
Proof. vm_compute. split; reflexivity. Qed.
