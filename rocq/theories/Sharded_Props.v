(** Property C62: requests to sharded entities, end to end. *)
From Verif Require Import Sharded_Model Entity_Model Sharded_Spec Sharded_Proofs Sharded_Results Sharded_Progress.
Local Open Scope N_scope.

Section props.
Variable shard_of : N -> N.
Variable readable : bytes -> bool.
Notation zstep := (zstep shard_of readable).
Notation zrun := (zrun shard_of readable).

(** Wherever the shard is and however it moves, a request is handled at most once and its call
    returns at most once. *)
Theorem C62_once nodes ops k :
  (count (is_handled k) (zrun nodes ops).2 <= 1)%nat /\ (count (is_returned k) (zrun nodes ops).2 <= 1)%nat.
Proof. split; [apply handled_once|apply returned_le]. Qed.

(** What an entity handles was sent to it: same entity, same message. *)
Theorem C62_handled_called nodes ops k id e m v :
  ZHandled k id e m v ∈ (zrun nodes ops).2 -> exists n, ZCalled k n id m ∈ (zrun nodes ops).2.
Proof. apply handled_called. Qed.

(** A result that is returned is the one which the entity of this call gave for its message. *)
Theorem C62_result nodes ops k v :
  ZReturned k (SOk v) ∈ (zrun nodes ops).2 ->
  exists n id e m, ZCalled k n id m ∈ (zrun nodes ops).2 /\ ZHandled k id e m (Some v) ∈ (zrun nodes ops).2.
Proof.
  intros H. destruct (proj2 (results_genuine shard_of readable nodes ops) k v H) as (id & e & m & Hh).
  destruct (handled_called shard_of readable nodes ops _ _ _ _ _ Hh) as [n Hn]. by exists n, id, e, m.
Qed.

(** After a call has returned, with whatever result, its message is not handled any more. *)
Theorem C62_not_late nodes ops k x tr1 tr2 :
  (zrun nodes ops).2 = tr1 ++ ZReturned k x :: tr2 -> count (is_handled k) tr2 = 0%nat.
Proof. apply not_late. Qed.

Lemma called_count nodes ops k n id m : ZCalled k n id m ∈ (zrun nodes ops).2 -> count (is_called k) (zrun nodes ops).2 = 1%nat.
Proof.
  intros H. pose proof (count_elem (is_called k) _ _ H) as H1. simpl in H1. rewrite N.eqb_refl in H1.
  pose proof (called_le shard_of readable nodes ops k). specialize (H1 eq_refl). lia.
Qed.
Lemma effective_rest nodes ops :
  exists b, forall ops', effective_run shard_of readable (zrun nodes ops).1 ops' ->
    (length ops' <= b)%nat /\
    ((forall o, internal o -> zstep (zrun nodes (ops ++ ops')).1 o = ((zrun nodes (ops ++ ops')).1, [])) -> at_rest (zrun nodes (ops ++ ops')).1).
Proof.
  exists (Z.to_nat (measure (zrun nodes ops).1)). intros ops' He. split.
  - pose proof (run_measure shard_of readable _ _ He). lia.
  - intros Hs. apply (stuck_rest shard_of readable); [apply run_up|done].
Qed.

(** Left alone, the requests under way come to an end, in a bounded number of steps: then every
    call has returned or waits for the coordinator or for the start of its shard or entity, or
    the request or its answer was lost. *)
Theorem C62_settles_partial nodes ops :
  exists b, forall ops', effective_run shard_of readable (zrun nodes ops).1 ops' ->
    (length ops' <= b)%nat /\
    ((forall o, internal o -> zstep (zrun nodes (ops ++ ops')).1 o = ((zrun nodes (ops ++ ops')).1, [])) ->
     forall k n id m, ZCalled k n id m ∈ (zrun nodes (ops ++ ops')).2 ->
       (exists x, ZReturned k x ∈ (zrun nodes (ops ++ ops')).2) \/ ZGone k ∈ (zrun nodes (ops ++ ops')).2 \/
       waits_allocation (zrun nodes (ops ++ ops')).1 k \/ waits_shard (zrun nodes (ops ++ ops')).1 k \/
       waits_entity (zrun nodes (ops ++ ops')).1 k /\ exists i, OCreated i false ∈ ops ++ ops').
Proof.
  destruct (effective_rest nodes ops) as [b Hb]. exists b. intros ops' He. destruct (Hb ops' He) as [Hl Hr]. split; [done|].
  intros Hs k n id m Hc. specialize (Hr Hs). apply called_count in Hc.
  pose proof (accounted shard_of readable nodes (ops ++ ops') k) as Ha. rewrite Hc in Ha.
  destruct (decide (0 < count (is_returned k) (zrun nodes (ops ++ ops')).2)%nat) as [Hd|Hd].
  { left. destruct (count_pos _ _ Hd) as (e & Hin & Hk). destruct e as [ | |k' x| ]; try done. simpl in Hk. apply N.eqb_eq in Hk as ->. by exists x. }
  destruct (decide (0 < count (is_gone k) (zrun nodes (ops ++ ops')).2)%nat) as [Hd'|Hd'].
  { right. left. destruct (count_pos _ _ Hd') as (e & Hin & Hk). destruct e as [ | | |k']; try done. simpl in Hk. by apply N.eqb_eq in Hk as ->. }
  right. right. destruct (rest_waits shard_of (zrun nodes (ops ++ ops')).1 k Hr) as [H|[H|H]]; [lia|by left|by right; left|].
  right. right. split; [done|].
  assert (Hdec : (exists i, OCreated i false ∈ ops ++ ops') \/ forall i, OCreated i false ∉ ops ++ ops').
  { clear. induction (ops ++ ops') as [|o l IH]; [right; intros i; apply not_elem_of_nil|].
    destruct IH as [[i H]|H]; [left; exists i; by right|].
    destruct o as [ | | | | | | |i [|]| | | ]; try (right; intros j Hj; apply elem_of_cons in Hj as [Hj|Hj]; [discriminate|by apply (H j)]).
    left. exists i. by left. }
  destruct Hdec as [Hd1|Hd1]; [done|]. exfalso. pose proof (run_creating shard_of readable nodes (ops ++ ops') Hd1) as Hcr.
  destruct H as ([[n' s'] a'] & m' & id' & rc & buf & t & E & Em & _). destruct (Hcr _ _ _ _ _ _ _ E Em) as [rc' Hin].
  rewrite (proj2 Hr) in Hin. by apply elem_of_nil in Hin.
Qed.

(** False without these cases. A call whose request or answer is lost, or whose shard is not
    running on the node which the caller's node believes, never returns. *)
Theorem C62_gone_refuted nodes ops ops' k :
  ZGone k ∈ (zrun nodes ops).2 -> forall x, ZReturned k x ∉ (zrun nodes (ops ++ ops')).2.
Proof.
  intros Hg x Hx.
  assert (Hin : ZGone k ∈ (zrun nodes (ops ++ ops')).2).
  { clear x Hx. induction ops' as [|o l IH] using rev_ind; [by rewrite app_nil_r|]. rewrite app_assoc, zrun_snoc. cbn [snd]. apply elem_of_app. by left. }
  pose proof (count_elem (is_gone k) _ _ Hin) as H1. pose proof (count_elem (is_returned k) _ _ Hx) as H2. simpl in H1, H2. rewrite N.eqb_refl in H1, H2.
  specialize (H1 eq_refl). specialize (H2 eq_refl). pose proof (accounted shard_of readable nodes (ops ++ ops') k). pose proof (called_le shard_of readable nodes (ops ++ ops') k).
  pose proof (present_nonneg shard_of k (zrun nodes (ops ++ ops')).1). lia.
Qed.

(** Once everything has come to rest, calls that wait do so until somebody else acts. *)
Lemma rest_stays z o : at_rest z -> internal o -> zstep z o = (z, []).
Proof. intros [E1 E2] Ho. destruct o; try done; cbn [Sharded_Model.zstep]; by rewrite ?E1, ?E2. Qed.
Lemma rest_silent nodes ops ops' : at_rest (zrun nodes ops).1 -> Forall internal ops' -> zrun nodes (ops ++ ops') = zrun nodes ops.
Proof.
  intros Hr. induction ops' as [|o l IH] using rev_ind; intros Hf; [by rewrite app_nil_r|].
  apply Forall_app in Hf as [Hf Ho]. inversion_clear Ho. rewrite app_assoc, zrun_snoc, (IH Hf), rest_stays by done. cbn [fst snd]. rewrite app_nil_r. by destruct (zrun nodes ops).
Qed.
End props.
Print Assumptions C62_once.
Print Assumptions C62_handled_called.
Print Assumptions C62_result.
Print Assumptions C62_not_late.
Print Assumptions C62_settles_partial.
Print Assumptions C62_gone_refuted.

(** Two nodes; shard 5 runs on node 1, and node 2 knows it. *)
Definition C62_shard (id : N) : N := id mod 10.
Definition C62_all (v : bytes) : bool := true.
Notation C62_run := (zrun C62_shard C62_all [1; 2]).
Definition C62_setup : list zop := [OControl 1 (MAllocated 5 1); OControl 1 (MReady 5 0); OControl 2 (MAllocated 5 1)].
Definition C62_msg : bytes := [1].
Definition C62_call : list zop := [OCall 2 15 C62_msg (Some 7) true true; OHandle 0; OArrive 0 0 true; OCreated 0 true].

(** A call from the other node, which creates the entity; a second one from the own node is
    handled by the same actor. *)
Example C62_example :
  (C62_run (C62_setup ++ C62_call ++ [OEntity 0 (DDone [2]); OAnswer 0;
     OCall 1 15 C62_msg None true true; OHandle 0; OArrive 0 9 true; OEntity 0 (DDone [3])])).2 =
  [ZCalled 0 2 15 C62_msg; ZHandled 0 15 0 C62_msg (Some [2]); ZReturned 0 (SOk [2]);
   ZCalled 1 1 15 C62_msg; ZHandled 1 15 0 C62_msg (Some [3]); ZReturned 1 (SOk [3])].
Proof. vm_compute. done. Qed.

(** Five steps that settle a call. *)
Example C62_settles_example :
  effective_run C62_shard C62_all (C62_run (C62_setup ++ [OCall 2 15 C62_msg (Some 7) true true])).1
    [OHandle 0; OArrive 0 0 true; OCreated 0 true; OEntity 0 (DDone [2]); OAnswer 0].
Proof. unfold effective_run. split_and!; try exact I; intros H; apply (f_equal (fun p => (length (z_mail p.1), z_nexte p.1, z_tasks p.1))) in H; vm_compute in H; discriminate H. Qed.

(** An error does not mean that the message was not handled: its result could not be encoded, or
    the handler panicked half way. *)
Theorem C62_error_handled_refuted : forall d, d = DUnencoded [2] \/ d = DPanicked ->
  let tr := (C62_run (C62_setup ++ C62_call ++ [OEntity 0 d; OAnswer 0])).2 in
  (exists e v, ZHandled 0 15 e C62_msg v ∈ tr) /\ (exists e, ZReturned 0 (SErr e) ∈ tr).
Proof.
  intros d [-> | ->]; (split; [eexists _, _|eexists]); vm_compute; by repeat constructor.
Qed.
Print Assumptions C62_error_handled_refuted.

(** Node 2 believes that shard 5 is on node 1, where it has stopped: the call never returns. *)
Theorem C62_moved_refuted ops' x :
  ZReturned 0 x ∉ (C62_run ((C62_setup ++ [OStopShard 1 5 0; OCall 2 15 C62_msg (Some 7) true true; OHandle 0; OArrive 0 0 true]) ++ ops')).2.
Proof. apply C62_gone_refuted. vm_compute. by repeat constructor. Qed.
Print Assumptions C62_moved_refuted.

(** The creation of the entity fails: the call waits, whatever happens to the requests; so it does
    if nobody allocates the shard. *)
Theorem C62_failed_start_refuted ops' x : Forall internal ops' ->
  ZReturned 0 x ∉ (C62_run ((C62_setup ++ [OCall 2 15 C62_msg (Some 7) true true; OHandle 0; OArrive 0 0 true; OCreated 0 false]) ++ ops')).2.
Proof.
  intros Hf. rewrite rest_silent; [|split; by vm_compute|done]. intros H. clear -H. vm_compute in H.
  repeat (apply elem_of_cons in H as [H|H]; [discriminate|]). by apply elem_of_nil in H.
Qed.
Print Assumptions C62_failed_start_refuted.
Theorem C62_unallocated_refuted ops' x : Forall internal ops' ->
  ZReturned 0 x ∉ (C62_run ([OCall 2 15 C62_msg (Some 7) true true; OHandle 0] ++ ops')).2.
Proof.
  intros Hf. rewrite rest_silent; [|split; by vm_compute|done]. intros H. clear -H. vm_compute in H.
  repeat (apply elem_of_cons in H as [H|H]; [discriminate|]). by apply elem_of_nil in H.
Qed.
Print Assumptions C62_unallocated_refuted.
(** The next request to this entity is kept as well. *)
Example C62_failed_start_later :
  (C62_run (C62_setup ++ [OCall 2 15 C62_msg (Some 7) true true; OHandle 0; OArrive 0 0 true; OCreated 0 false;
     OCall 1 15 C62_msg (Some 7) true true; OHandle 0; OArrive 0 0 true])).2 = [ZCalled 0 2 15 C62_msg; ZCalled 1 1 15 C62_msg].
Proof. vm_compute. done. Qed.
