(** Property C63: singletons that are restricted to some nodes. *)
From Verif Require Import Selector_Model Nodes_Model Selector_Spec Singleton_Spec Singleton_Manager Selector_Proofs.
Local Open Scope N_scope.

(** A manager writes only to other nodes that have what the selector asks for. *)
Theorem C63_recipients node_of sel n l g effs eff m q :
  mrun (selected node_of sel) n l = (g, effs) -> eff ∈ effs -> FSend m q ∈ eff -> m <> n /\ carries node_of sel m.
Proof.
  intros E He Hs. destruct (run_sends _ _ _ _ _ _ _ _ E He Hs) as [H1 H2]. split; [done|]. by apply selected_carries.
Qed.
Print Assumptions C63_recipients.

(** It asks all of them: as long as it waits, every such node that was announced, at whatever
    time, and did not leave since, was asked for the lease. *)
Theorem C63_asked node_of sel n l1 i l2 g effs acked m :
  mrun (selected node_of sel) n (l1 ++ i :: l2) = (g, effs) -> g_state g = SStarting acked ->
  announces m i -> (forall a, IRemoved a ∈ l2 -> a <> m) -> m <> n -> carries node_of sel m ->
  sent m (QRequest n) (since (zip (l1 ++ i :: l2) effs)).
Proof.
  intros E Hs Ha Hr Hn Hc. apply (asked_run _ _ _ _ _ _ _ E Hs). apply known_announced; try done. by apply selected_carries.
Qed.
Print Assumptions C63_asked.

(** Whoever runs the singleton was told that it leads the cluster. *)
Theorem C63_only_leaders includes nl l y a :
  srun includes (new_sys nl) l = Some y -> runs_singleton y a -> exists i, YEvent a i ∈ l /\ names_leader a i.
Proof.
  intros E (x & Ex & Hl). apply (proj2 (led_run includes [] l _ _ (led_new nl) E a x Ex)). by do 3 right.
Qed.
Print Assumptions C63_only_leaders.

(** As long as one selected node is part of the cluster, only selected nodes run the singleton. *)
Theorem C63_runs_selected_partial node_of sel p nl l y a :
  carries node_of sel p -> always_member p l ->
  srun (selected node_of sel) (new_sys nl) l = Some y -> runs_singleton y a -> carries node_of sel a.
Proof.
  intros Hp Ha E (x & Ex & Hl). apply selected_carries in Hp. apply selected_carries.
  destruct (selected node_of sel a) eqn:Es; [done|]. exfalso.
  destruct (apart_run _ p Hp _ _ _ Ha (apart_new _ p nl) E) as [H _]. destruct (H a x Ex) as (_ & _ & Hc). by destruct (Hc Es) as (_ & _ & Hz & _).
Qed.
Print Assumptions C63_runs_selected_partial.

(** But then the singleton does not run at all while the leader is not selected: leaders are
    elected among all nodes. *)
Theorem C63_unselected_leader_refuted node_of sel p nl l y a :
  carries node_of sel p -> always_member p l ->
  (forall n i b, YEvent n i ∈ l -> names_leader b i -> ~ carries node_of sel b) ->
  srun (selected node_of sel) (new_sys nl) l = Some y -> ~ runs_singleton y a.
Proof.
  intros Hp Ha Hl E Hr. destruct (C63_only_leaders _ _ _ _ _ E Hr) as (i & Hi & Hn). apply (Hl a i a Hi Hn).
  by apply (C63_runs_selected_partial node_of sel p nl l y a).
Qed.
Print Assumptions C63_unselected_leader_refuted.

(** Nodes 2 and 3 have the role. *)
Local Open Scope string_scope.
Definition C63_node (n : N) : rnode := RNode n "" "" None (if (n =? 1)%N then {[ "role" := "web" ]} else {[ "role" := "db" ]}).
Definition C63_sel : selector := SelAttribute "role" "db".
Definition C63_ups (leader : N) : list sop := map (fun n => YEvent n (IMemberUp leader [1; 2; 3])) [1; 2; 3].
Example C63_carries_example : carries C63_node C63_sel 2 /\ ~ carries C63_node C63_sel 1.
Proof. rewrite <-!selected_carries. vm_compute. done. Qed.
Example C63_recipients_example :
  (mrun (selected C63_node C63_sel) 2 [IMemberUp 1 [1; 2; 3]; IMsg (QRequest 1); ILeader 2]).2 = [[]; []; [FSend 3 (QRequest 2)]].
Proof. vm_compute. done. Qed.
(** Node 2 leads: it asks node 3 only, and starts the singleton. *)
Definition C63_run2 : list sop := C63_ups 2 ++ [YDeliver 0; YDeliver 0; YCreate 2 true].
Example C63_runs_example :
  match srun (selected C63_node C63_sel) (new_sys [1; 2; 3]) C63_run2 with
  | Some y => map (fun p => (p.1, n_live p.2)) (map_to_list (y_nodes y)) ≡ₚ [(1, []); (2, [0]); (3, [])]
  | None => False
  end.
Proof. vm_compute. repeat constructor. Qed.
Example C63_member_example : always_member 3 C63_run2 /\ always_member 3 (C63_ups 1).
Proof.
  split; intros n i Hi; cbv in Hi; repeat (apply elem_of_cons in Hi as [Hi|Hi]; [try discriminate; injection Hi as -> ->; set_solver|]); by apply elem_of_nil in Hi.
Qed.
(** Node 1 leads and is not selected: it asks both others, who do not answer. *)
Example C63_silence_example :
  match srun (selected C63_node C63_sel) (new_sys [1; 2; 3]) (C63_ups 1 ++ [YDeliver 0; YDeliver 0]) with
  | Some y => y_net y = [] /\ forall n, ~ runs_singleton y n
  | None => False
  end.
Proof.
  destruct (srun _ _ _) as [y|] eqn:E; [|by vm_compute in E]. split.
  - assert (y_net <$> srun (selected C63_node C63_sel) (new_sys [1; 2; 3]) (C63_ups 1 ++ [YDeliver 0; YDeliver 0]) = Some []) as H by (clear; by vm_compute).
    rewrite E in H. by injection H.
  - intros n. apply (C63_unselected_leader_refuted C63_node C63_sel 3 _ _ _ n) in E; [done|..].
    + apply selected_carries. by vm_compute.
    + intros m i Hi. cbv in Hi. repeat (apply elem_of_cons in Hi as [Hi|Hi]; [try discriminate; injection Hi as -> ->; set_solver|]). by apply elem_of_nil in Hi.
    + intros m i b Hi Hb. rewrite <-selected_carries. cbv in Hi.
      repeat (apply elem_of_cons in Hi as [Hi|Hi]; [try discriminate; injection Hi as -> ->; simpl in Hb; subst b; by vm_compute|]). by apply elem_of_nil in Hi.
Qed.

(** Without a selected node in the cluster, unselected leaders start it without asking anybody,
    and two nodes run it when leadership moves. *)
Theorem C63_unselected_refuted :
  let l := [YEvent 1 (IMemberUp 1 [1; 4]); YEvent 4 (IMemberUp 1 [1; 4]); YCreate 1 true; YEvent 1 (ILeader 4); YEvent 4 (ILeader 4); YCreate 4 true] in
  let sel := SelAttribute "role" "cache" in
  match srun (selected C63_node sel) (new_sys [1; 4]) l with
  | Some y => runs_singleton y 1 /\ runs_singleton y 4
  | None => False
  end.
Proof. vm_compute. split; eexists; split; try reflexivity; discriminate. Qed.
Print Assumptions C63_unselected_refuted.
