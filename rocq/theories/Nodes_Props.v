(** Properties C29 and C58: the nodes of the cluster and the ring over them. *)
From Verif Require Import Nodes_Model Nodes_Spec Nodes_Proofs.
Local Open Scope string_scope.
Local Open Scope list_scope.
Local Open Scope N_scope.

(** ** C29 *)

(** Nodes learned one by one, each once: whatever the order in which they were learned, the
    iteration order of the tables and the hash function, every key gets the same node. *)
Theorem C29_orders {K} rhash (khash : K -> N) search (l1 l2 : list (list N * rnode)) k :
  NoDup (r_id <$> l1.*2) -> l1.*2 ≡ₚ l2.*2 ->
  get_by_key rhash khash search (drun rhash search ((fun p => DAdd p.1 p.2) <$> l1)) k =
  get_by_key rhash khash search (drun rhash search ((fun p => DAdd p.1 p.2) <$> l2)) k.
Proof. intros H1 H2. unfold get_by_key. by rewrite (adds_same_ring rhash search l1 l2 H1 H2). Qed.
Print Assumptions C29_orders.

(** In longer histories (nodes learned again, status updates) with one record for each node
    and no equal hashes: nodes that know the same nodes agree on every key. *)
Theorem C29_agreement_partial {K} rhash (khash : K -> N) search l1 l2 k :
  searches search -> consistent l1 -> consistent l2 -> (forall n, member l1 n <-> member l2 n) ->
  no_collision rhash (member l1) ->
  get_by_key rhash khash search (drun rhash search l1) k = get_by_key rhash khash search (drun rhash search l2) k.
Proof. intros H. exact (agreement rhash khash search H l1 l2 k). Qed.
Print Assumptions C29_agreement_partial.

(** The assigned node is a known node, the next one on the ring; there is one as soon as a
    node is known. *)
Theorem C29_assigned {K} rhash (khash : K -> N) search l k n :
  searches search -> consistent l -> get_by_key rhash khash search (drun rhash search l) k = Some n ->
  next_on_ring rhash (member l) (khash k) n.
Proof. intros H. exact (assigned rhash khash search H l k n). Qed.
Print Assumptions C29_assigned.
Theorem C29_some {K} rhash (khash : K -> N) search l k :
  searches search -> consistent l -> (exists n, member l n) ->
  exists n, get_by_key rhash khash search (drun rhash search l) k = Some n.
Proof. intros H. exact (assigned_some rhash khash search H l k). Qed.
Print Assumptions C29_some.

(** A search that meets its description. *)
Definition search_first (ks : list N) (k : N) : nat := length (List.filter (fun x => x <? k) ks).
Lemma search_first_ok : searches search_first.
Proof.
  intros ks k Hs. split; [|done]. unfold search_first.
  induction Hs as [|x ks Hs IH Hx]; [by intros ?%elem_of_nil|]. intros Hin. simpl.
  destruct (x <? k) eqn:E; simpl.
  - apply IH. apply elem_of_cons in Hin as [->|?]; [|done]. apply N.ltb_lt in E. lia.
  - apply N.ltb_ge in E. assert (k <= x) by lia.
    assert (List.filter (fun y => y <? k) ks = []) as ->.
    { clear -Hx E. induction ks as [|y ks IH]; [done|]. apply Forall_cons in Hx as [Hy Hx]. simpl.
      assert ((y <? k) = false) as -> by (apply N.ltb_ge; lia). by apply IH. }
    simpl. apply elem_of_cons in Hin as [->|Hin]; [done|].
    rewrite Forall_forall in Hx. specialize (Hx k Hin). f_equal. lia.
Qed.

(** Nodes hashed by the time they started. *)
Definition time_hash (id : N) (addr tag : string) (started : option Z) : N :=
  match started with Some z => Z.to_N z | None => id end.
Definition node (id : N) (started : Z) : rnode := RNode id "host" "tag" (Some started) ∅.

Example C29_example :
  let a := drun time_hash search_first [DAdd [] (node 1 100); DAdd [2; 1] (node 2 300); DTerminated 1; DAdd [] (node 3 200)] in
  let b := drun time_hash search_first [DAdd [] (node 3 200); DAdd [] (node 1 100); DAdd [3] (node 2 300)] in
  (r_id <$> get_by_key time_hash id search_first a 150, r_id <$> get_by_key time_hash id search_first b 150,
   r_id <$> get_by_key time_hash id search_first a 301, r_id <$> get_by_key time_hash id search_first b 301)
  = (Some 3, Some 3, Some 1, Some 1).
Proof. by vm_compute. Qed.
Example C29_example_consistent :
  let l := [DAdd [] (node 1 100); DAdd [2; 1] (node 2 300); DTerminated 1; DUpdate [RState (node 2 300) (Some 5) (Some 7%Z) Healthy]] in
  consistent l /\ no_collision time_hash (member l).
Proof.
  cbv zeta.
  assert (forall n, member [DAdd [] (node 1 100); DAdd [2; 1] (node 2 300); DTerminated 1; DUpdate [RState (node 2 300) (Some 5) (Some 7%Z) Healthy]] n ->
    n = node 1 100 \/ n = node 2 300) as W.
  { intros n [ord H]. repeat (apply elem_of_cons in H as [H|H]; [simplify_eq; by eauto|]). by apply elem_of_nil in H. }
  split.
  - split_and!.
    + intros a b [->| ->]%W [->| ->]%W; done.
    + intros l1 u l2 s H Hs. destruct l1 as [|? [|? [|? [|? [|? l1]]]]]; simplify_eq/=.
      apply elem_of_list_singleton in Hs as ->. exists [2; 1]. right. by left.
    + intros n H. repeat (apply elem_of_cons in H as [H|H]; [done|]). by apply elem_of_nil in H.
  - intros a b [->| ->]%W [->| ->]%W; done.
Qed.

(** A node that restarted (same id, later start): one node saw it before and after, another
    one only after. They hold the same records but disagree on where an actor belongs, since
    the first one still has the old record on its ring. *)
Theorem C29_restart_refuted :
  let a := drun time_hash search_first [DAdd [] (node 1 100); DAdd [] (node 2 50); DTerminated 2; DAdd [] (node 2 200)] in
  let b := drun time_hash search_first [DAdd [] (node 1 100); DAdd [] (node 2 200)] in
  (forall n, record a n = record b n) /\
  r_id <$> get_by_key time_hash id search_first a 10 = Some 2 /\
  r_id <$> get_by_key time_hash id search_first b 10 = Some 1.
Proof.
  cbv zeta. split; [|by vm_compute]. intros n.
  set (a0 := [DAdd [] (node 1 100); DAdd [] (node 2 50); DTerminated 2]).
  pose proof (add_record time_hash [] (drun time_hash search_first a0) (node 2 200) n (keyed_run _ _ _)) as Ha.
  pose proof (add_record time_hash [] (drun time_hash search_first [DAdd [] (node 1 100)]) (node 2 200) n (keyed_run _ _ _)) as Hb.
  change (record (drun time_hash search_first (a0 ++ [DAdd [] (node 2 200)])) n =
          record (drun time_hash search_first ([DAdd [] (node 1 100)] ++ [DAdd [] (node 2 200)])) n).
  unfold drun in *. rewrite !fold_left_app. cbn [fold_left dstep] in *. rewrite Ha, Hb.
  destruct (decide (n = r_id (node 2 200))) as [|Hn]; [done|]. clear Ha Hb.
  unfold a0. cbn [fold_left dstep].
  set (d1 := add_node time_hash [] (new_store time_hash []) (node 1 100)).
  unfold node_terminated, record at 1. cbn [d_nodes]. rewrite lookup_alter_ne by (simpl in Hn; congruence).
  pose proof (add_record time_hash [] d1 (node 2 50) n (keyed_run time_hash search_first [DAdd [] (node 1 100)])) as Hc.
  unfold record in Hc. rewrite Hc. rewrite decide_False by done. done.
Qed.
Print Assumptions C29_restart_refuted.

(** ** C58 *)

(** The node an operation is about. *)
Definition about (o : dop) (k : N) : Prop :=
  match o with
  | DAdd _ n => r_id n = k
  | DUpdate l => exists s, s ∈ l /\ s_id s = k
  | DTerminated n | DRemove n => n = k
  end.
(** In every history, an operation changes no record of a node it is not about. *)
Theorem C58_others rhash search l o k :
  ~ about o k -> record (drun rhash search (l ++ [o])) k = record (drun rhash search l) k.
Proof.
  intros H. unfold drun. rewrite fold_left_app. cbn [fold_left]. set (d := fold_left _ l _).
  destruct o as [ord n|u|n|n]; cbn [dstep]; simpl in H.
  - rewrite (add_record rhash ord d n k (keyed_run rhash search l)). by rewrite decide_False.
  - rewrite update_record. destruct (find _ _) as [s|] eqn:E; [|done].
    apply find_some in E as [E1 E2]. destruct H. exists s. split; [|by apply N.eqb_eq]. apply elem_of_list_In. by apply in_rev.
  - unfold record, node_terminated. cbn [d_nodes]. by rewrite lookup_alter_ne.
  - unfold record, remove_node. destruct (d_nodes d !! n); [|done]. cbn [d_nodes]. by rewrite lookup_delete_ne.
Qed.
Print Assumptions C58_others.

(** What it does to the node it is about; status changes leave the assignment of keys alone. *)
Theorem C58_terminated rhash search l k :
  let d := drun rhash search l in let d' := drun rhash search (l ++ [DTerminated k]) in
  record d' k = (fun s => RState (s_node s) (s_latency s) (s_beat s) Terminated) <$> record d k /\
  d_ring d' = d_ring d.
Proof.
  cbv zeta. unfold drun. rewrite fold_left_app. cbn [fold_left dstep]. unfold record, node_terminated. cbn [d_nodes d_ring].
  split; [|done]. by rewrite lookup_alter.
Qed.
Print Assumptions C58_terminated.
Theorem C58_updated rhash search l u1 s u2 :
  (forall x, x ∈ u2 -> s_id x <> s_id s) ->
  let d := drun rhash search l in let d' := drun rhash search (l ++ [DUpdate (u1 ++ s :: u2)]) in
  record d' (s_id s) = Some s /\ d_ring d' = d_ring d.
Proof.
  intros Hu. cbv zeta. unfold drun. rewrite fold_left_app. cbn [fold_left dstep]. split; [|done].
  rewrite update_record, rev_app_distr. simpl. rewrite <-app_assoc. simpl.
  assert (find (fun x => s_id x =? s_id s) (rev u2 ++ s :: rev u1) = Some s) as ->; [|done].
  assert (forall x, x ∈ rev u2 -> s_id x <> s_id s) as Hr.
  { intros x Hx. apply Hu. apply elem_of_list_In, in_rev, elem_of_list_In, Hx. }
  clear Hu. induction (rev u2) as [|x v IH]; simpl; [by rewrite N.eqb_refl|].
  assert ((s_id x =? s_id s) = false) as -> by (apply N.eqb_neq, Hr; by left). apply IH. intros y Hy. apply Hr. by right.
Qed.
Print Assumptions C58_updated.
(** A node that is added, again or for the first time, starts as a joining node. *)
Theorem C58_added rhash search l ord n :
  record (drun rhash search (l ++ [DAdd ord n])) (r_id n) = Some (new_state n).
Proof.
  unfold drun. rewrite fold_left_app. cbn [fold_left dstep].
  pose proof (add_record rhash ord _ n (r_id n) (keyed_run rhash search l)) as H. unfold drun in H. rewrite H.
  by rewrite decide_True.
Qed.
Print Assumptions C58_added.

(** Nodes added once each, with different hashes: a removed node is gone from the records, and
    no key is assigned to it any more. *)
Theorem C58_removed_partial {K} rhash (khash : K -> N) search (l : list (list N * rnode)) n k m :
  searches search -> NoDup (r_id <$> l.*2) -> NoDup (node_hash rhash <$> l.*2) -> n ∈ l.*2 ->
  let d := drun rhash search (((fun p => DAdd p.1 p.2) <$> l) ++ [DRemove (r_id n)]) in
  record d (r_id n) = None /\ (get_by_key rhash khash search d k = Some m -> m ∈ l.*2 /\ m <> n).
Proof.
  intros HS H1 H2 H3. cbv zeta. unfold drun. rewrite fold_left_app. cbn [fold_left].
  destruct (remove_adds rhash search HS l n H1 H2 H3) as (R1 & R2 & R3). split; [done|].
  intros H%ring_get_next; [|done|done]. destruct H as [H _]. by apply R2.
Qed.
Print Assumptions C58_removed_partial.
Example C58_removed_example :
  let d := drun time_hash search_first [DAdd [] (node 1 100); DAdd [2; 1] (node 2 300); DRemove 2] in
  record d 2 = None /\ r_id <$> get_by_key time_hash id search_first d 250 = Some 1.
Proof. by vm_compute. Qed.

(** A node that was registered twice (it came back) stays on the ring when it is removed. *)
Theorem C58_removed_refuted :
  let d := drun time_hash search_first [DAdd [] (node 1 100); DAdd [] (node 2 300); DAdd [] (node 2 300); DRemove 2] in
  record d 2 = None /\ r_id <$> get_by_key time_hash id search_first d 250 = Some 2.
Proof. by vm_compute. Qed.
Print Assumptions C58_removed_refuted.

(** An update of a node that is not known adds it: a node removed while a heartbeat is being
    evaluated comes back. *)
Theorem C58_unknown_refuted rhash search l s :
  record (drun rhash search l) (s_id s) = None ->
  record (drun rhash search (l ++ [DUpdate [s]])) (s_id s) = Some s.
Proof.
  intros _. unfold drun. rewrite fold_left_app. cbn [fold_left dstep]. rewrite update_record. simpl. by rewrite N.eqb_refl.
Qed.
Print Assumptions C58_unknown_refuted.
