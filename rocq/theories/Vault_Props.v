(** Properties C79 and C80: persistent entities behind sharding. *)
From Verif Require Import Redis_Model Redis_Spec Redis_Proofs Redis_Proofs2 Redis_Props.
From Verif Require Import Journal_Model Journal_Spec Journal_Props Durable_Model Durable_Spec Durable_Proofs Durable_Props.
From Verif Require Import Host_Model Entity_Model Sharded_Model Sharded_Spec Sharded_Results Sharded_Progress Sharded_Props.
From Verif Require Import Vault_Model Vault_Spec Vault_Proofs Vault_Proofs2 Vault_Proofs3 Vault_Proofs4 Vault_Proofs5.
Local Open Scope N_scope.
Local Open Scope list_scope.

Section props.
Variables (hashtags : bool) (prefix : string) (conf : string -> jtypes).
Variable shard_of : N -> N.
Variable readable : bytes -> bool.
Variable pid_of : N -> string.
Variable stored_as : bytes -> option (N * bytes).
Variable answer : list (N * bytes) -> bytes -> bytes.
Variable failure : bytes.
Hypothesis conf_ok : forall p, unambiguous_types (conf p).
Hypothesis conf_ids : forall p, good_identifiers (conf p).
Variable nodes : list N.
Notation trace ops := (wruns (the_redis hashtags prefix) conf shard_of readable pid_of stored_as answer failure (wsys_init nodes ∅) ops).2.

(** A write that a caller was told of (the call returned another result than the failure) is
    found by every actor of the entity that recovers later, wherever, after whatever moves,
    crashes, lost messages and retries. *)
Theorem C79_kept_partial ops t1 k v t2 i snap ms t3 n id m x :
  trace ops = t1 ++ WZ (ZReturned k (SOk v)) :: t2 ++ WD (VRecovered i (pid_of id) snap ms) :: t3 ->
  good_trace (journals (trace ops)) ->
  WZ (ZCalled k n id m) ∈ trace ops -> stored_as m = Some x -> v <> failure ->
  x ∈ ms.
Proof. exact (kept hashtags prefix conf shard_of readable pid_of stored_as answer failure conf_ok conf_ids nodes ops t1 k v t2 i snap ms t3 n id m x). Qed.

(** Whatever is recovered was sent in a call to an entity with this persistence id, before. *)
Theorem C79_genuine ops t1 i pid snap ms t2 y :
  trace ops = t1 ++ WD (VRecovered i pid snap ms) :: t2 -> good_trace (journals (trace ops)) -> y ∈ ms ->
  exists k n id m, pid_of id = pid /\ stored_as m = Some y /\ WZ (ZCalled k n id m) ∈ t1.
Proof. exact (genuine hashtags prefix conf shard_of readable pid_of stored_as answer failure conf_ok conf_ids nodes ops t1 i pid snap ms t2 y). Qed.

(** A handler that ends with a result works on a state of which every part was sent to the
    entity before. *)
Theorem C80_genuine ops t1 k id e m v t2 :
  (forall a b, pid_of a = pid_of b -> a = b) ->
  trace ops = t1 ++ WZ (ZHandled k id e m (Some v)) :: t2 -> good_trace (journals (trace ops)) ->
  ((exists y, stored_as m = Some y) /\ v = failure) \/
  exists st, v = answer st m /\ forall y, y ∈ st -> exists k' n m', stored_as m' = Some y /\ WZ (ZCalled k' n id m') ∈ t1.
Proof.
  intros Hp E Hg.
  destruct (all_sent hashtags prefix conf shard_of readable pid_of stored_as answer failure conf_ok conf_ids nodes ops t1 k id e m v t2 E Hg) as [(y & Hy & ->)|(st & -> & Hst)].
  - left. split; [by exists y|done].
  - right. exists st. split; [done|]. intros y Hy. destruct (Hst y Hy) as (k' & n & id' & m' & G1 & G2 & G3). apply Hp in G1 as ->. by exists k', n, m'.
Qed.

(** If the incarnations of the entity do not overlap, every handler run after a confirmed write
    works on a state that includes it. *)
Theorem C80_apart_partial ops ta k v tb k' e' m' v' tc n id m x :
  trace ops = ta ++ WZ (ZReturned k (SOk v)) :: tb ++ WZ (ZHandled k' id e' m' (Some v')) :: tc ->
  good_trace (journals (trace ops)) -> apart (pid_of id) (journals (trace ops)) ->
  WZ (ZCalled k n id m) ∈ trace ops -> stored_as m = Some x -> v <> failure ->
  ((exists y, stored_as m' = Some y) /\ v' = failure) \/ exists st, x ∈ st /\ v' = answer st m'.
Proof.
  intros E Hg Ha Hc Hs Hv.
  destruct (seen hashtags prefix conf shard_of readable pid_of stored_as answer failure conf_ok conf_ids nodes ops ta k v tb k' e' m' v' tc n id m x E Hg Hc Hs Hv)
    as [(y & Hy & ->)|H]; [by right; right|left; split; [by exists y|done]|by right].
Qed.

(** For callers: what is read in a call made after the write was confirmed includes it. *)
Theorem C80_read_partial ops ta k v tb k' n' m' tc v' n id m x :
  trace ops = ta ++ WZ (ZReturned k (SOk v)) :: tb ++ WZ (ZCalled k' n' id m') :: tc ->
  WZ (ZReturned k' (SOk v')) ∈ trace ops ->
  good_trace (journals (trace ops)) -> apart (pid_of id) (journals (trace ops)) ->
  WZ (ZCalled k n id m) ∈ trace ops -> stored_as m = Some x -> v <> failure -> stored_as m' = None ->
  exists st, x ∈ st /\ v' = answer st m'.
Proof.
  intros E Hr Hg Ha Hc Hs Hv Hm'. destruct (trace_requests hashtags prefix conf shard_of readable pid_of stored_as answer failure nodes ops) as [zo Ez].
  set (t0 := ta ++ WZ (ZReturned k (SOk v)) :: tb) in *.
  assert (E0 : trace ops = t0 ++ WZ (ZCalled k' n' id m') :: tc). { rewrite E. unfold t0. by rewrite <- app_assoc. }
  assert (Hh : exists e', ZHandled k' id e' m' (Some v') ∈ requests (trace ops)).
  { apply elem_of_list_split in Hr as (r1 & r2 & Er). pose proof Ez as Ez'. rewrite Er, requests_split in Ez'. symmetry in Ez'.
    destruct (result_handled _ _ _ _ _ _ _ _ n' id m' Ez') as [e' He].
    - rewrite <- Ez. apply requests_elem. rewrite E0. apply elem_of_app. right. by left.
    - exists e'. rewrite Er, requests_split. apply elem_of_app. by left. }
  destruct Hh as [e' Hh]. apply requests_elem in Hh. rewrite E0 in Hh. apply elem_of_app in Hh as [Hh|[Hh|Hh]%elem_of_cons]; [exfalso|done|].
  { pose proof Ez as Ez'. rewrite E0, requests_split in Ez'. symmetry in Ez'. apply requests_elem in Hh. by eapply handled_later in Ez'. }
  apply elem_of_list_split in Hh as (c1 & c2 & ->).
  assert (E1 : trace ops = ta ++ WZ (ZReturned k (SOk v)) :: (tb ++ WZ (ZCalled k' n' id m') :: c1) ++ WZ (ZHandled k' id e' m' (Some v')) :: c2).
  { rewrite E. by rewrite <- app_assoc. }
  destruct (C80_apart_partial _ _ _ _ _ _ _ _ _ _ _ _ _ _ E1 Hg Ha Hc Hs Hv) as [[[y Hy] _]|H]; [congruence|done].
Qed.

(** Without that: the actor that made the write, and every actor that starts after the write was
    confirmed, work on a state that includes it. *)
Theorem C80_known_partial ops ta k v tb k' e' m' v' tc n id m x :
  trace ops = ta ++ WZ (ZReturned k (SOk v)) :: tb ++ WZ (ZHandled k' id e' m' (Some v')) :: tc ->
  good_trace (journals (trace ops)) ->
  WZ (ZCalled k n id m) ∈ trace ops -> stored_as m = Some x -> v <> failure ->
  WZ (ZHandled k id e' m (Some v)) ∈ ta \/ (exists i, WUp e' i ∈ trace ops /\ WD (VStart i (pid_of id)) ∈ tb) ->
  ((exists y, stored_as m' = Some y) /\ v' = failure) \/ exists st, x ∈ st /\ v' = answer st m'.
Proof.
  intros E Hg Hc Hs Hv Hor.
  destruct (seen hashtags prefix conf shard_of readable pid_of stored_as answer failure conf_ok conf_ids nodes ops ta k v tb k' e' m' v' tc n id m x E Hg Hc Hs Hv)
    as [(y & Hy & ->)|H]; [tauto|left; split; [by exists y|done]|by right].
Qed.
End props.
Print Assumptions C79_kept_partial.
Print Assumptions C79_genuine.
Print Assumptions C80_genuine.
Print Assumptions C80_apart_partial.
Print Assumptions C80_read_partial.
Print Assumptions C80_known_partial.

(** A test for [apart]. *)
Lemma apartb_from_ok pid l : forall live l0, apartb_from pid live l = true ->
  (forall j, VStart j pid ∈ l0 -> VGone j pid ∈ l0 \/ j ∈ live) ->
  forall l1 i l2, l = l1 ++ VStart i pid :: l2 -> forall j, VStart j pid ∈ l0 ++ l1 -> VGone j pid ∈ l0 ++ l1.
Proof.
  induction l as [|ev l IH]; intros live l0 Hb Hl l1 i l2 E j Hj; [by destruct l1|].
  destruct l1 as [|ev1 l1].
  - injection E as -> _. cbn in Hb. rewrite bool_decide_true in Hb by done. destruct live; [|done]. rewrite app_nil_r in *. destruct (Hl _ Hj) as [H|H]; [done|by apply elem_of_nil in H].
  - injection E as <- E. change (l0 ++ ev :: l1) with (l0 ++ [ev] ++ l1) in *. rewrite app_assoc in Hj |- *.
    assert (G : forall live', apartb_from pid live' l = true -> (forall j, VStart j pid ∈ l0 ++ [ev] -> VGone j pid ∈ l0 ++ [ev] \/ j ∈ live') -> VGone j pid ∈ (l0 ++ [ev]) ++ l1).
    { intros live' H1 H2. exact (IH _ _ H1 H2 _ _ _ E _ Hj). }
    assert (Hold : forall j, VStart j pid ∈ l0 -> VGone j pid ∈ l0 ++ [ev] \/ j ∈ live).
    { intros j' Hj'. destruct (Hl _ Hj') as [?|?]; [left; apply elem_of_app; by left|by right]. }
    destruct ev as [i' p|i' p sn ms|i' p c|i' p c ok|i' p]; cbn in Hb.
    + case_bool_decide as Hp.
      * subst p. destruct live; [|done]. apply (G _ Hb). intros j' [Hj'|Hj']%elem_of_app; [destruct (Hold _ Hj') as [?|?%elem_of_nil]; [by left|done]|].
        apply elem_of_list_singleton in Hj' as [= ->]. right. by left.
      * apply (G _ Hb). intros j' [Hj'|Hj']%elem_of_app; [by apply Hold|]. apply elem_of_list_singleton in Hj' as [= -> ->]. done.
    + apply (G _ Hb). intros j' [Hj'|Hj']%elem_of_app; [by apply Hold|]. by apply elem_of_list_singleton in Hj'.
    + apply (G _ Hb). intros j' [Hj'|Hj']%elem_of_app; [by apply Hold|]. by apply elem_of_list_singleton in Hj'.
    + apply (G _ Hb). intros j' [Hj'|Hj']%elem_of_app; [by apply Hold|]. by apply elem_of_list_singleton in Hj'.
    + apply (G _ Hb). intros j' [Hj'|Hj']%elem_of_app; [|by apply elem_of_list_singleton in Hj']. destruct (Hold _ Hj') as [?|Hin]; [by left|].
      case_bool_decide as Hp; [|by right]. subst p. destruct (decide (j' = i')) as [->|Hne]; [left; apply elem_of_app; right; by left|].
      right. apply elem_of_list_In, filter_In. split; [by apply elem_of_list_In|]. apply negb_true_iff. by apply N.eqb_neq.
Qed.
Lemma apartb_ok pid l : apartb pid l = true -> apart pid l.
Proof. intros H l1 i l2 E j Hj. apply (apartb_from_ok pid l [] [] H) with (l1 := l1) (i := i) (l2 := l2); try done. intros j' ?%elem_of_nil. done. Qed.

(** ** Examples: three nodes; a message [1 :: b] stores [b], any other one reads the state. *)
Definition ex_pid (id : N) : string := String (Ascii.ascii_of_N id) EmptyString.
Definition ex_stored (m : bytes) : option (N * bytes) := match m with x :: b => if x =? 1 then Some (1, b) else None | [] => None end.
Definition ex_answer (st : list (N * bytes)) (m : bytes) : bytes := concat (map snd st).
Definition ex_failure : bytes := [255].
Notation vault ops := (wruns (the_redis true "") ex_conf C62_shard C62_all ex_pid ex_stored ex_answer ex_failure (wsys_init [1; 2; 3] ∅) ops).2.
Definition on_hosts (l : list zop) : list wop := map WShard l.
(** Shard 5 is allocated to node [n] and runs there. *)
Definition given (n : N) : list wop := on_hosts [OControl n (MAllocated 5 n); OControl n (MReady 5 0)].
(** A call made on node [n], up to the shard; the entity is created there; its handler stores. *)
Definition call (n : N) (m : bytes) : list wop := on_hosts [OCall n 65 m (Some 7) true true; OHandle 0; OArrive 0 0 true].
Definition begin_with (i : N) : list wop := [WStart 0; WLoad i; WCreated 0 i].
Definition store (e k : N) : list wop := [WTake 0; WPerform k; WStored e 0].
(** Shard and actor stop. *)
Definition ended (n i : N) : list wop := [WShard (OStopShard n 5 0); WStop i].

(** A write on node 1, which crashes; a write and a read on node 2. *)
Definition ex_moved : list wop :=
  given 1 ++ call 1 [1; 6] ++ begin_with 1 ++ store 0 2 ++ [WCrash 1] ++
  given 2 ++ call 2 [1; 7] ++ begin_with 3 ++ store 1 4 ++ call 2 [0] ++ [WTake 0].
Example C80_example : requests (vault ex_moved) =
  [ZCalled 0 1 65 [1; 6]; ZHandled 0 65 0 [1; 6] (Some [6]); ZReturned 0 (SOk [6]);
   ZCalled 1 2 65 [1; 7]; ZHandled 1 65 1 [1; 7] (Some [6; 7]); ZReturned 1 (SOk [6; 7]);
   ZCalled 2 2 65 [0]; ZHandled 2 65 1 [0] (Some [6; 7]); ZReturned 2 (SOk [6; 7])].
Proof. vm_compute. done. Qed.
(** The hypotheses hold there. *)
Definition is_back (k : N) (e : wevent) : bool := match e with WZ (ZReturned k' (SOk _)) => k' =? k | _ => false end.
Definition is_call (k : N) (e : wevent) : bool := match e with WZ (ZCalled k' _ _ _) => k' =? k | _ => false end.
Example C80_case : exists ta v tb n' m' tc v' n m x,
  vault ex_moved = ta ++ WZ (ZReturned 0 (SOk v)) :: tb ++ WZ (ZCalled 2 n' 65 m') :: tc /\
  WZ (ZReturned 2 (SOk v')) ∈ vault ex_moved /\ good_trace (journals (vault ex_moved)) /\ apart (ex_pid 65) (journals (vault ex_moved)) /\
  WZ (ZCalled 0 n 65 m) ∈ vault ex_moved /\ ex_stored m = Some x /\ v <> ex_failure /\ ex_stored m' = None.
Proof.
  exists (take 7 (vault ex_moved)), [6], (take 9 (drop 8 (vault ex_moved))), 2, [0], (drop 18 (vault ex_moved)), [6; 7], 1, [1; 6], (1, [6]).
  split; [vm_compute; reflexivity|]. split; [vm_compute; repeat (first [by left|right])|]. split; [apply good_traceb_ok; by vm_compute|].
  split; [apply apartb_ok; by vm_compute|]. split; [vm_compute; repeat (first [by left|right])|]. done.
Qed.
Example C79_case : exists t1 v t2 i snap ms t3 n m x,
  vault ex_moved = t1 ++ WZ (ZReturned 0 (SOk v)) :: t2 ++ WD (VRecovered i (ex_pid 65) snap ms) :: t3 /\
  good_trace (journals (vault ex_moved)) /\ WZ (ZCalled 0 n 65 m) ∈ vault ex_moved /\ ex_stored m = Some x /\ v <> ex_failure /\ x ∈ ms.
Proof.
  exists (take 7 (vault ex_moved)), [6], (take 3 (drop 8 (vault ex_moved))), 3, None, [(1, [6])], (drop 12 (vault ex_moved)), 1, [1; 6], (1, [6]).
  split; [vm_compute; reflexivity|]. split; [apply good_traceb_ok; by vm_compute|]. split; [vm_compute; repeat (first [by left|right])|].
  split; [done|]. split; [done|]. by left.
Qed.

(** Two writes of the same value, each confirmed, with an orderly move between: one is found. The
    second actor takes the sequence id of the last message for its first one
    (journal/mod.rs:366-369), and redis keeps equal entries once. *)
Definition ex_lost : list wop :=
  given 1 ++ call 1 [1; 6] ++ begin_with 1 ++ store 0 2 ++ ended 1 1 ++
  given 2 ++ call 2 [1; 6] ++ begin_with 3 ++ store 1 4 ++ ended 2 3 ++
  given 3 ++ call 3 [0] ++ begin_with 5 ++ [WTake 0].
Theorem C79_each_refuted :
  exists ops, apart (ex_pid 65) (journals (vault ops)) /\ good_trace (journals (vault ops)) /\
    requests (vault ops) =
    [ZCalled 0 1 65 [1; 6]; ZHandled 0 65 0 [1; 6] (Some [6]); ZReturned 0 (SOk [6]);
     ZCalled 1 2 65 [1; 6]; ZHandled 1 65 1 [1; 6] (Some [6; 6]); ZReturned 1 (SOk [6; 6]);
     ZCalled 2 3 65 [0]; ZHandled 2 65 2 [0] (Some [6]); ZReturned 2 (SOk [6])].
Proof. exists ex_lost. split; [apply apartb_ok; by vm_compute|]. split; [apply good_traceb_ok; by vm_compute|]. vm_compute. done. Qed.

(** Confirmed writes in another order. *)
Definition ex_reordered : list wop :=
  given 1 ++ call 1 [1; 5] ++ begin_with 1 ++ store 0 2 ++ call 1 [1; 7] ++ store 0 3 ++ ended 1 1 ++
  given 2 ++ call 2 [1; 6] ++ begin_with 4 ++ store 1 5 ++ ended 2 4 ++
  given 3 ++ call 3 [0] ++ begin_with 6 ++ [WTake 0].
Theorem C79_order_refuted :
  exists ops, apart (ex_pid 65) (journals (vault ops)) /\ good_trace (journals (vault ops)) /\
    requests (vault ops) =
    [ZCalled 0 1 65 [1; 5]; ZHandled 0 65 0 [1; 5] (Some [5]); ZReturned 0 (SOk [5]);
     ZCalled 1 1 65 [1; 7]; ZHandled 1 65 0 [1; 7] (Some [5; 7]); ZReturned 1 (SOk [5; 7]);
     ZCalled 2 2 65 [1; 6]; ZHandled 2 65 1 [1; 6] (Some [5; 7; 6]); ZReturned 2 (SOk [5; 7; 6]);
     ZCalled 3 3 65 [0]; ZHandled 3 65 2 [0] (Some [5; 6; 7]); ZReturned 3 (SOk [5; 6; 7])].
Proof. exists ex_reordered. split; [apply apartb_ok; by vm_compute|]. split; [apply good_traceb_ok; by vm_compute|]. vm_compute. done. Qed.

(** A failed write is found: the storage performs it after the actor has given up. *)
Definition ex_failed : list wop :=
  given 1 ++ call 1 [1; 6] ++ begin_with 1 ++ [WTake 0; WGiveUp 0 0; WPerform 2] ++ ended 1 1 ++
  given 2 ++ call 2 [0] ++ begin_with 3 ++ [WTake 0].
Theorem C79_failed_refuted :
  exists ops, apart (ex_pid 65) (journals (vault ops)) /\ good_trace (journals (vault ops)) /\
    requests (vault ops) =
    [ZCalled 0 1 65 [1; 6]; ZHandled 0 65 0 [1; 6] (Some ex_failure); ZReturned 0 (SOk ex_failure);
     ZCalled 1 2 65 [0]; ZHandled 1 65 1 [0] (Some [6]); ZReturned 1 (SOk [6])].
Proof. exists ex_failed. split; [apply apartb_ok; by vm_compute|]. split; [apply good_traceb_ok; by vm_compute|]. vm_compute. done. Qed.

(** Node 1 goes on serving the shard when node 2 has got it: a confirmed write on node 1 is not
    seen by a later call on node 2, although the entity there answers. *)
Definition ex_overlap : list wop :=
  given 1 ++ call 1 [1; 6] ++ begin_with 1 ++ store 0 2 ++
  given 2 ++ call 2 [0] ++ begin_with 3 ++ [WTake 0] ++
  call 1 [1; 7] ++ store 0 4 ++ call 2 [0] ++ [WTake 0].
Theorem C80_overlap_refuted :
  exists ops, good_trace (journals (vault ops)) /\
    requests (vault ops) =
    [ZCalled 0 1 65 [1; 6]; ZHandled 0 65 0 [1; 6] (Some [6]); ZReturned 0 (SOk [6]);
     ZCalled 1 2 65 [0]; ZHandled 1 65 1 [0] (Some [6]); ZReturned 1 (SOk [6]);
     ZCalled 2 1 65 [1; 7]; ZHandled 2 65 0 [1; 7] (Some [6; 7]); ZReturned 2 (SOk [6; 7]);
     ZCalled 3 2 65 [0]; ZHandled 3 65 1 [0] (Some [6]); ZReturned 3 (SOk [6])].
Proof. exists ex_overlap. split; [apply good_traceb_ok; by vm_compute|]. vm_compute. done. Qed.

(** Entities of different types with the same id share one journal, for the persistence id is
    the actor id unless the actor says otherwise (persistent/actor.rs:19-21): here 65 and 75. *)
Notation shared ops := (wruns (the_redis true "") ex_conf C62_shard C62_all (fun _ => "room"%string) ex_stored ex_answer ex_failure (wsys_init [1; 2; 3] ∅) ops).2.
Definition ex_types : list wop :=
  given 1 ++ call 1 [1; 6] ++ begin_with 1 ++ store 0 2 ++
  on_hosts [OCall 1 75 [0] (Some 7) true true; OHandle 0; OArrive 0 0 true] ++ begin_with 3 ++ [WTake 0].
Theorem C79_types_refuted :
  exists ops, good_trace (journals (shared ops)) /\
    requests (shared ops) =
    [ZCalled 0 1 65 [1; 6]; ZHandled 0 65 0 [1; 6] (Some [6]); ZReturned 0 (SOk [6]);
     ZCalled 1 1 75 [0]; ZHandled 1 75 1 [0] (Some [6]); ZReturned 1 (SOk [6])].
Proof. exists ex_types. split; [apply good_traceb_ok; by vm_compute|]. vm_compute. done. Qed.
Print Assumptions C79_each_refuted.
Print Assumptions C79_order_refuted.
Print Assumptions C79_failed_refuted.
Print Assumptions C79_types_refuted.
Print Assumptions C80_overlap_refuted.
