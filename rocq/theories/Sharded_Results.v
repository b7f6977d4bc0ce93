(** What follows for calls of sharded entities. *)
From Verif Require Import Sharded_Model Entity_Model Sharded_Spec Sharded_Proofs.
Local Open Scope Z_scope.

Definition b2z (b : bool) : Z := if b then 1 else 0.
Lemma zsum_count f tr : zsum (fun e => b2z (f e)) tr = Z.of_nat (count f tr).
Proof. unfold count. induction tr as [|e tr IH]; [done|]. simpl. destruct (f e); simpl; lia. Qed.
Lemma zsum_scale {A} (f : A -> Z) (c : Z) l : zsum (fun x => c * f x) l = c * zsum f l.
Proof. induction l as [|x l IH]; simpl; [lia|]. rewrite IH. ring. Qed.
Lemma count_app f tr tr' : count f (tr ++ tr') = (count f tr + count f tr')%nat.
Proof. unfold count. by rewrite List.filter_app, app_length. Qed.
Lemma count_elem f tr e : e ∈ tr -> f e = true -> (1 <= count f tr)%nat.
Proof.
  intros He Hf. apply elem_of_list_split in He as (l1 & l2 & ->). rewrite count_app. unfold count at 2. simpl. rewrite Hf. simpl. lia.
Qed.
Lemma count_pos f tr : (0 < count f tr)%nat -> exists e, e ∈ tr /\ f e = true.
Proof.
  unfold count. induction tr as [|e tr IH]; simpl; [lia|]. destruct (f e) eqn:E.
  - intros _. exists e. split; [by left|done].
  - intros H. destruct (IH H) as (e' & H1 & H2). exists e'. split; [by right|done].
Qed.
Lemma count_zero f tr e : count f tr = 0%nat -> e ∈ tr -> f e = false.
Proof. intros H He. destruct (f e) eqn:E; [|done]. pose proof (count_elem f tr e He E). lia. Qed.

Section results.
Variable shard_of : N -> N.
Variable readable : bytes -> bool.
Notation zstep := (zstep shard_of readable).
Notation zrun := (zrun shard_of readable).
Implicit Types (z : sys) (k : N).

Lemma zrun_snoc nodes ops o : zrun nodes (ops ++ [o]) =
  ((zstep (zrun nodes ops).1 o).1, (zrun nodes ops).2 ++ (zstep (zrun nodes ops).1 o).2).
Proof.
  unfold Sharded_Model.zrun. generalize (sys_init nodes). induction ops as [|o' ops IH]; intros z; simpl.
  - destruct (zstep z o) as [z' evs]. simpl. by rewrite app_nil_r.
  - destruct (zstep z o') as [z' evs]. specialize (IH z'). destruct (run zstep z' (ops ++ [o])) as [z1 e1].
    destruct (run zstep z' ops) as [z2 e2]. simpl in *. injection IH as -> ->. by rewrite app_assoc.
Qed.
Lemma zrun_ind nodes (P : sys -> list zevent -> Prop) :
  P (sys_init nodes) [] -> (forall z tr o, P z tr -> P (zstep z o).1 (tr ++ (zstep z o).2)) -> forall ops, P (zrun nodes ops).1 (zrun nodes ops).2.
Proof. intros H0 H1 ops. induction ops as [|o ops IH] using rev_ind; [done|]. rewrite zrun_snoc. by apply H1. Qed.

(** One call per number. *)
Lemma resolve_all_called n l k : count (is_called k) (resolve_all readable n l).2 = 0%nat.
Proof.
  unfold resolve_all. simpl. induction l as [|[t x] l IH]; [done|]. simpl. rewrite count_app, IH. unfold resolve. by destruct (t_origin t).
Qed.
Lemma resolve_called n t x k : count (is_called k) (resolve readable n t x).2 = 0%nat.
Proof. unfold resolve. by destruct (t_origin t). Qed.
Lemma do_host_called z n mail h eff k : count (is_called k) (do_host readable z n mail h eff).2 = 0%nat /\ z_next (do_host readable z n mail h eff).1 = z_next z.
Proof. unfold do_host. pose proof (resolve_all_called n (host_dropped eff) k) as H. by destruct (resolve_all _ _ _) as [ts evs]. Qed.
Lemma do_shard_called z n s a tasks m eff k : count (is_called k) (do_shard readable z n s a tasks m eff).2 = 0%nat /\ z_next (do_shard readable z n s a tasks m eff).1 = z_next z.
Proof. unfold do_shard. pose proof (resolve_all_called n (shard_replies eff) k) as H. by destruct (resolve_all _ _ _) as [ts evs]. Qed.
Lemma shard_request_called z n s a tasks m r t known k :
  count (is_called k) (shard_request readable z n s a tasks m r t known).2 = 0%nat /\ z_next (shard_request readable z n s a tasks m r t known).1 = z_next z.
Proof. unfold shard_request. destruct (on_entity_request _ _). apply do_shard_called. Qed.
Lemma do_resolve_called z tasks n t x k : count (is_called k) (do_resolve readable z tasks n t x).2 = 0%nat /\ z_next (do_resolve readable z tasks n t x).1 = z_next z.
Proof. unfold do_resolve. pose proof (resolve_called n t x k). by destruct (resolve _ _ _ _). Qed.

Lemma zstep_called z o k :
  match o with
  | OCall n id m _ _ _ => z_next (zstep z o).1 = (z_next z + 1)%N /\ count (is_called k) (zstep z o).2 = (if (z_next z =? k)%N then 1 else 0)%nat
  | _ => z_next (zstep z o).1 = z_next z /\ count (is_called k) (zstep z o).2 = 0%nat
  end.
Proof.
  destruct o as [n id m recipe encodes typed|i|n c|i a known|i|i d|i|i ok|n s a id rc|n s a|n]; cbn [Sharded_Model.zstep].
  - destruct encodes, typed; [destruct (z_hosts z !! n)|..]; simpl; unfold count; simpl; by destruct (z_next z =? k)%N.
  - destruct (z_mail z !! i) as [[n r]|]; [|done]. destruct (z_hosts z !! n) as [h|]; [|done]. destruct (hstep h _).
    apply and_comm, do_host_called.
  - destruct c; [done|..]; (destruct (z_hosts z !! n) as [h|]; [|done]); destruct (hstep h _); apply and_comm, do_host_called.
  - destruct (z_tasks z !! i) as [[n s a' r|n m s r| | | ]|]; try done.
    + destruct (z_shards z !! _); [apply and_comm, shard_request_called|apply and_comm, do_resolve_called].
    + destruct (z_shards z !! _); [apply and_comm, shard_request_called|done].
  - by destruct (z_tasks z !! i) as [[]|].
  - destruct (z_tasks z !! i) as [[ | |n s a id e t| | ]|]; try done.
    pose proof (do_resolve_called z (remove_nth i (z_tasks z)) n t (entity_result d) k) as H. destruct (do_resolve _ _ _ _ _ _).
    destruct (entity_handled d); simpl in *; tauto.
  - destruct (z_tasks z !! i) as [[]|]; try done. by destruct (z_waiting z !! _).
  - destruct (z_tasks z !! i) as [[]|]; try done. destruct (z_shards z !! _); [|done]. destruct (on_start_result _ _ _) as [m' eff].
    match goal with |- context [do_shard readable ?z' ?n ?s ?a ?t _ _] => pose proof (do_shard_called z' n s a t m' eff k) as [H1 H2] end.
    split; [exact H2|exact H1].
  - destruct (z_shards z !! _); [|done]. destruct (on_start_entity _ _ _). apply and_comm, do_shard_called.
  - destruct (z_shards z !! _) as [m|]; [|done]. pose proof (resolve_all_called n (kept_tickets m) k). by destruct (resolve_all _ _ _).
  - split; [done|]. simpl. unfold gone. generalize (crashed_calls z n). intros l. by induction l.
Qed.
Lemma called_once nodes ops k : count (is_called k) (zrun nodes ops).2 = (if (k <? z_next (zrun nodes ops).1)%N then 1 else 0)%nat.
Proof.
  apply (zrun_ind nodes (fun z tr => count (is_called k) tr = (if (k <? z_next z)%N then 1 else 0)%nat)); [by destruct (k <? _)%N eqn:E; [apply N.ltb_lt in E; simpl in E; lia|]|].
  intros z tr o IH. rewrite count_app, IH. pose proof (zstep_called z o k) as H.
  destruct o; destruct H as [-> ->]; try lia.
  destruct (N.ltb_spec k (z_next z)), (N.ltb_spec k (z_next z + 1)), (N.eqb_spec (z_next z) k); lia.
Qed.

(** Requests and answers of a call. *)
Definition unhandled (k : N) (z : sys) : Z := total (fun k' _ _ => b2z (k' =? k)%N) (fun _ _ => 0) z.
Definition present (k : N) (z : sys) : Z := total (fun k' _ _ => b2z (k' =? k)%N) (fun k' _ => b2z (k' =? k)%N) z.

Lemma b2z_nonneg b : 0 <= b2z b. Proof. destruct b; simpl; lia. Qed.
Lemma total_nonneg w wa z : (forall k id m, 0 <= w k id m) -> (forall k x, 0 <= wa k x) -> 0 <= total w wa z.
Proof.
  intros Hw Ha. assert (forall r, 0 <= req_w w r) as Hr by (intros r; apply Hw).
  assert (forall i x, 0 <= host_w w i x) as Hh.
  { intros i h. unfold host_w. pose proof (msum_nonneg (hstate_w w) (sh_hosted h)) as H1. pose proof (msum_nonneg (fun _ => zsum (req_w w)) (sh_pending h)) as H2.
    enough (0 <= msum (hstate_w w) (sh_hosted h) /\ 0 <= msum (fun _ => zsum (req_w w)) (sh_pending h)) by lia. split; [apply H1|apply H2]; intros.
    - unfold hstate_w. destruct x; try lia. by apply zsum_nonneg.
    - by apply zsum_nonneg. }
  assert (forall i x, 0 <= ents_w w i x) as He.
  { intros i m. apply msum_nonneg. intros id x. unfold estate_w. destruct x.2; try lia. apply zsum_nonneg. intros t. apply Hw. }
  assert (forall t, 0 <= task_w w wa t) as Ht by (intros [ | | | | ]; simpl; try apply Hw; try apply Ha; lia).
  unfold total. pose proof (zsum_nonneg (fun p : N * sreq => req_w w p.2) (z_mail z) (fun p => Hr p.2)).
  pose proof (msum_nonneg (host_w w) (z_hosts z) Hh). pose proof (zsum_nonneg _ (z_tasks z) Ht). pose proof (msum_nonneg _ (z_shards z) He). lia.
Qed.

Lemma total_scale c w wa z : total (fun k id m => c * w k id m) (fun k x => c * wa k x) z = c * total w wa z.
Proof.
  unfold total.
  assert (forall r, req_w (fun k id m => c * w k id m) r = c * req_w w r) as Hr by done.
  rewrite (zsum_ext _ (fun p : N * sreq => c * req_w w p.2)) by (intros p; apply Hr). rewrite zsum_scale.
  assert (msum (host_w (fun k id m => c * w k id m)) (z_hosts z) = c * msum (host_w w) (z_hosts z)) as ->.
  { unfold msum. rewrite <-zsum_scale. apply zsum_ext. intros [n h]. simpl. unfold host_w. rewrite Z.mul_add_distr_l. f_equal.
    - unfold msum. rewrite <-zsum_scale. apply zsum_ext. intros [s st]. simpl. destruct st; simpl; try lia. rewrite <-zsum_scale. by apply zsum_ext.
    - unfold msum. rewrite <-zsum_scale. apply zsum_ext. intros [s l]. simpl. rewrite <-zsum_scale. by apply zsum_ext. }
  assert (msum (ents_w (fun k id m => c * w k id m)) (z_shards z) = c * msum (ents_w w) (z_shards z)) as ->.
  { unfold msum at 1 2. rewrite <-zsum_scale. apply zsum_ext. intros [p m]. simpl. unfold ents_w, msum. rewrite <-zsum_scale. apply zsum_ext.
    intros [id [rc st]]. simpl. unfold estate_w. simpl. destruct st; simpl; try lia. rewrite <-zsum_scale. by apply zsum_ext. }
  rewrite (zsum_ext _ (fun t => c * task_w w wa t)) by (intros [ | | | | ]; simpl; try done; lia). rewrite zsum_scale. lia.
Qed.

(** Every call is under way or kept, or it returned, or it is gone. *)
Lemma accounted nodes ops k :
  present k (zrun nodes ops).1 + Z.of_nat (count (is_returned k) (zrun nodes ops).2) + Z.of_nat (count (is_gone k) (zrun nodes ops).2) =
  Z.of_nat (count (is_called k) (zrun nodes ops).2).
Proof.
  assert (forall c, (c = 1 \/ c = -1) ->
    c * present k (zrun nodes ops).1 + c * (Z.of_nat (count (is_returned k) (zrun nodes ops).2) + Z.of_nat (count (is_gone k) (zrun nodes ops).2) -
     Z.of_nat (count (is_called k) (zrun nodes ops).2)) <= 0) as H.
  { intros c Hc. unfold present. rewrite <-total_scale.
    pose proof (run_w shard_of readable (fun k' _ _ => c * b2z (k' =? k)%N) (fun k' _ => c * b2z (k' =? k)%N)
      (fun e => c * (b2z (is_returned k e) + (b2z (is_gone k e) + (-1) * b2z (is_called k e))))) as H.
    match type of H with ?A -> ?B -> ?C -> ?D -> ?E -> _ =>
      assert A as H1 by (intros; simpl; lia); assert B as H2 by (intros; simpl; lia); assert C as H3 by (intros; simpl; lia);
      assert D as H4 by (intros; simpl; lia); assert E as H5 by (intros; simpl; lia) end.
    specialize (H H1 H2 H3 H4 H5 nodes ops). rewrite zsum_scale, !zsum_plus, zsum_scale, !zsum_count in H.
    clear H1 H2 H3 H4 H5. destruct Hc as [-> | ->]; lia. }
  pose proof (H 1 (or_introl eq_refl)). pose proof (H (-1) (or_intror eq_refl)). lia.
Qed.
(** Every call is handled at most once, and only while its request is there. *)
Lemma handled_le nodes ops k :
  unhandled k (zrun nodes ops).1 + Z.of_nat (count (is_handled k) (zrun nodes ops).2) <= Z.of_nat (count (is_called k) (zrun nodes ops).2).
Proof.
  pose proof (run_w shard_of readable (fun k' _ _ => b2z (k' =? k)%N) (fun k' _ => 0)
      (fun e => b2z (is_handled k e) + (-1) * b2z (is_called k e)) ) as H.
  unfold unhandled.
  match type of H with ?A -> ?B -> ?C -> ?D -> ?E -> _ =>
    assert A as H1 by (intros; simpl; lia); assert B as H2 by (intros; apply b2z_nonneg); assert C as H3 by (intros; simpl; lia);
    assert D as H4 by (intros; simpl; lia); assert E as H5 by (intros; simpl; lia) end.
  specialize (H H1 H2 H3 H4 H5 nodes ops). rewrite zsum_plus, zsum_scale, !zsum_count in H. lia.
Qed.
Lemma step_handled z o k : Z.of_nat (count (is_handled k) (zstep z o).2) <= unhandled k z + Z.of_nat (count (is_called k) (zstep z o).2).
Proof.
  pose proof (zstep_w shard_of readable (fun k' _ _ => b2z (k' =? k)%N) (fun k' _ => 0)
      (fun e => b2z (is_handled k e) + (-1) * b2z (is_called k e))) as H.
  match type of H with ?A -> ?B -> ?C -> ?D -> ?E -> _ =>
    assert A as H1 by (intros; simpl; lia); assert B as H2 by (intros; apply b2z_nonneg); assert C as H3 by (intros; simpl; lia);
    assert D as H4 by (intros; simpl; lia); assert E as H5 by (intros; simpl; lia) end.
  specialize (H H1 H2 H3 H4 H5 z o). rewrite zsum_plus, zsum_scale, !zsum_count in H. unfold unhandled.
  pose proof (total_nonneg (fun k' _ _ => b2z (k' =? k)%N) (fun _ _ => 0) (zstep z o).1 (fun _ _ _ => b2z_nonneg _) (fun _ _ => Z.le_refl 0)). lia.
Qed.
Lemma unhandled_le k z : unhandled k z <= present k z.
Proof.
  unfold unhandled, present, total. enough (zsum (task_w (fun k' _ _ => b2z (k' =? k)%N) (fun _ _ => 0)) (z_tasks z) <= zsum (task_w (fun k' _ _ => b2z (k' =? k)%N) (fun k' _ => b2z (k' =? k)%N)) (z_tasks z)) by lia.
  apply zsum_le. intros [ | | |n k' o x| ] _; try apply Z.le_refl. simpl. apply b2z_nonneg.
Qed.
Lemma present_nonneg k z : 0 <= present k z.
Proof. apply total_nonneg; intros; apply b2z_nonneg. Qed.
Lemma unhandled_nonneg k z : 0 <= unhandled k z.
Proof. apply total_nonneg; intros; [apply b2z_nonneg|lia]. Qed.

Lemma called_le nodes ops k : (count (is_called k) (zrun nodes ops).2 <= 1)%nat.
Proof. rewrite called_once. destruct (_ <? _)%N; lia. Qed.

(** Returned or gone calls are never handled nor returned later. *)
Lemma finished_later nodes ops o k :
  (0 < count (is_returned k) (zrun nodes ops).2 + count (is_gone k) (zrun nodes ops).2)%nat ->
  count (is_handled k) (zstep (zrun nodes ops).1 o).2 = 0%nat /\ count (is_returned k) (zstep (zrun nodes ops).1 o).2 = 0%nat.
Proof.
  intros Hf. pose proof (accounted nodes ops k) as H1. pose proof (called_le nodes ops k) as H2.
  pose proof (accounted nodes (ops ++ [o]) k) as H3. pose proof (called_le nodes (ops ++ [o]) k) as H4.
  rewrite zrun_snoc in H3, H4. cbn [fst snd] in H3, H4. rewrite !count_app in H3. rewrite count_app in H4.
  pose proof (step_handled (zrun nodes ops).1 o k) as H5. pose proof (unhandled_le k (zrun nodes ops).1).
  pose proof (present_nonneg k (zrun nodes ops).1). pose proof (present_nonneg k (zstep (zrun nodes ops).1 o).1). split; lia.
Qed.
Lemma returned_le nodes ops k : (count (is_returned k) (zrun nodes ops).2 <= 1)%nat.
Proof. pose proof (accounted nodes ops k). pose proof (called_le nodes ops k). pose proof (present_nonneg k (zrun nodes ops).1). lia. Qed.
Lemma handled_once nodes ops k : (count (is_handled k) (zrun nodes ops).2 <= 1)%nat.
Proof. pose proof (handled_le nodes ops k). pose proof (called_le nodes ops k). pose proof (unhandled_nonneg k (zrun nodes ops).1). lia. Qed.

(** What is handled was called, with this entity and message. *)
Lemma handled_called nodes ops k id e m v : ZHandled k id e m v ∈ (zrun nodes ops).2 -> exists n, ZCalled k n id m ∈ (zrun nodes ops).2.
Proof.
  intros Hh.
  set (is_this := fun x => match x with ZCalled k' _ id' m' => (k' =? k)%N && (id' =? id)%N && bool_decide (m' = m) | _ => false end).
  set (is_handled' := fun x => match x with ZHandled k' id' _ m' _ => (k' =? k)%N && (id' =? id)%N && bool_decide (m' = m) | _ => false end).
  pose proof (run_w shard_of readable (fun k' id' m' => b2z ((k' =? k)%N && (id' =? id)%N && bool_decide (m' = m))) (fun k' _ => 0)
      (fun e => b2z (is_handled' e) + (-1) * b2z (is_this e)) ) as H.
  match type of H with ?A -> ?B -> ?C -> ?D -> ?E -> _ =>
    assert A as H1 by (intros; simpl; lia); assert B as H2 by (intros; apply b2z_nonneg); assert C as H3 by (intros; simpl; lia);
    assert D as H4 by (intros; simpl; lia); assert E as H5 by (intros; simpl; lia) end.
  specialize (H H1 H2 H3 H4 H5 nodes ops). rewrite zsum_plus, zsum_scale, !zsum_count in H.
  pose proof (count_elem is_handled' _ _ Hh) as Hc. cbn in Hc. rewrite !N.eqb_refl, bool_decide_true in Hc by done. specialize (Hc eq_refl).
  match type of H with ?t + _ <= 0 => assert (0 <= t) by (apply total_nonneg; intros; [apply b2z_nonneg|lia]) end.
  destruct (count_pos is_this (zrun nodes ops).2) as (x & Hx & Ex); [lia|]. destruct x as [k' n id' m'| | |]; try done. cbn in Ex.
  apply andb_true_iff in Ex as [Ex Em]. apply andb_true_iff in Ex as [->%N.eqb_eq ->%N.eqb_eq]. apply bool_decide_eq_true in Em as ->.
  by exists n.
Qed.
End results.
