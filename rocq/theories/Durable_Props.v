(** Property C66: crashes, lost answers and overlapping incarnations of persistent actors. *)
From Verif Require Import ShardWire_Model ShardWire_Proofs Redis_Model Redis_Spec Redis_Proofs Redis_Proofs2 Redis_Props.
From Verif Require Import Journal_Model Journal_Spec Journal_Proofs Journal_Props Durable_Model Durable_Spec.
From Verif Require Import Durable_Proofs Durable_Proofs2 Durable_Proofs3 Durable_Proofs4 Durable_Proofs5.
Local Open Scope string_scope.
Local Open Scope list_scope.
Local Open Scope Z_scope.

(** * What holds in redis *)

(** Nothing is invented: whatever crashes, is lost, answered wrongly or performed late, and
    however many incarnations run at once, a start only finds messages and snapshots that an
    actor with this persistence id tried to store before. *)
Theorem C66_recovered_tried_partial :
  forall hashtags prefix conf, (forall p, unambiguous_types (conf p)) -> (forall p, good_identifiers (conf p)) ->
  forall l s t1 i pid snap ms t2,
  drun (the_redis hashtags prefix) conf (durable_init ∅) l = (s, t1 ++ VRecovered i pid snap ms :: t2) ->
  good_trace (t1 ++ VRecovered i pid snap ms :: t2) ->
  (forall m, m ∈ ms -> m ∈ tried pid t1) /\ (forall m, snap = Some m -> m ∈ snapped pid t1).
Proof.
  intros b prefix conf Hc Hi l s t1 i pid snap ms t2 Hrun Hg. split.
  - exact (recovered_tried _ (redis_key_distinct _ _) conf Hc Hi _ _ _ _ _ _ _ _ Hrun Hg).
  - intros m ->. exact (recovered_snapped _ (redis_key_distinct _ _) conf Hc Hi _ _ _ _ _ _ _ _ Hrun Hg).
Qed.

(** Nothing acknowledged is lost while [pid] only stores messages: every acknowledged message
    is found, with any number of incarnations at once and any crashes, lost answers and late
    writes. (How often and in which order is not kept: see below.) *)
Theorem C66_acknowledged_found_partial :
  forall hashtags prefix conf, (forall p, unambiguous_types (conf p)) -> (forall p, good_identifiers (conf p)) ->
  forall l s t1 i pid snap ms t2,
  drun (the_redis hashtags prefix) conf (durable_init ∅) l = (s, t1 ++ VRecovered i pid snap ms :: t2) ->
  good_trace t1 -> plain pid t1 ->
  snap = None /\ forall m, m ∈ acked pid t1 -> m ∈ ms.
Proof.
  intros b prefix conf Hc Hi l s t1 i pid snap ms t2.
  exact (recovered_all _ (redis_key_distinct _ _) conf Hc Hi pid _ _ _ _ _ _ _).
Qed.

(** One writer that makes an unacknowledged call again before any other: a start finds
    exactly what was acknowledged, in order and each once, and perhaps the call whose answer
    is missing; although retries are performed late, twice or not at all. The start may
    overlap with the writer ([t2]). *)
Theorem C66_retried_exact_partial :
  forall hashtags prefix conf, (forall p, unambiguous_types (conf p)) -> (forall p, good_identifiers (conf p)) ->
  forall l s t1 i pid t2 snap ms t3,
  drun (the_redis hashtags prefix) conf (durable_init ∅) l =
    (s, t1 ++ VStart i pid :: t2 ++ VRecovered i pid snap ms :: t3) ->
  good_trace (t1 ++ t2) -> persevering pid (t1 ++ t2) ->
  exists x, (x = p_expected (progress_of pid t1) \/
             exists m b, p_open (progress_of pid t1) = Some (CSnapshot m b) /\ x = Expected (Some (m, b)) []) /\
    snap = x_snapshot x /\
    (ms = x_after x ++ acked pid t2 \/
     exists c, p_open (progress_of pid (t1 ++ t2)) = Some c /\ ms = x_after x ++ acked pid t2 ++ messages_in c).
Proof.
  intros b prefix conf Hc Hi l s t1 i pid t2 snap ms t3.
  exact (recovered_exact _ (redis_key_distinct _ _) conf Hc Hi pid _ _ _ _ _ _ _ _).
Qed.

(** If [pid] makes no call while it starts: the start finds one of the two possible states. *)
Definition silent_event (pid : string) (e : devent) : Prop :=
  match e with VCall _ p _ | VAnswer _ p _ _ => p <> pid | _ => True end.

Lemma silent_progress pid t q : Forall (silent_event pid) t -> fold_left (progress_step pid) t q = q.
Proof.
  revert q. induction t as [|e t IH]; intros q Hs; [done|]. apply Forall_cons in Hs as [He Hs]. simpl.
  assert (progress_step pid q e = q) as ->; [|by apply IH].
  destruct e as [| |i p c|i p c [] |]; simpl in *; try done; by rewrite decide_False.
Qed.

Lemma silent_acked pid t : Forall (silent_event pid) t -> acked pid t = [].
Proof.
  induction 1 as [|e t He _ IH]; [done|]. unfold acked in *. simpl. rewrite IH, app_nil_r.
  destruct e as [| |i p c|i p c [] |]; simpl in *; try done. by rewrite decide_False.
Qed.

Theorem C66_retried_state_partial :
  forall hashtags prefix conf, (forall p, unambiguous_types (conf p)) -> (forall p, good_identifiers (conf p)) ->
  forall l s t1 i pid t2 snap ms t3,
  drun (the_redis hashtags prefix) conf (durable_init ∅) l =
    (s, t1 ++ VStart i pid :: t2 ++ VRecovered i pid snap ms :: t3) ->
  good_trace (t1 ++ t2) -> persevering pid t1 -> Forall (silent_event pid) t2 ->
  possible pid t1 (Expected snap ms).
Proof.
  intros b prefix conf Hc Hi l s t1 i pid t2 snap ms t3 Hrun Hg Hp Hs.
  assert (Hprog : progress_of pid (t1 ++ t2) = progress_of pid t1).
  { unfold progress_of. rewrite fold_left_app. by apply silent_progress. }
  destruct (C66_retried_exact_partial b prefix conf Hc Hi _ _ _ _ _ _ _ _ _ Hrun Hg) as (x & Hx & -> & Hms).
  { unfold persevering. by rewrite Hprog. }
  rewrite Hprog, (silent_acked _ _ Hs) in Hms. simpl in Hms. rewrite app_nil_r in Hms.
  unfold possible. destruct Hx as [->|(m & pl & Ho & ->)].
  - destruct Hms as [->|(c & Ho & ->)]; [left; by destruct (p_expected _)|].
    destruct c as [m pl|bl|m pl| |]; [right; by eexists|right; by eexists| | |];
      simpl; rewrite app_nil_r; left; by destruct (p_expected _).
  - right. exists (CSnapshot m pl). split; [done|]. simpl in *.
    destruct Hms as [->|(c & Ho' & ->)]; [done|]. rewrite Ho in Ho'. by injection Ho' as <-.
Qed.

(** * What holds in memory *)

(** In memory, while [pid] only stores messages, a start finds exactly what was acknowledged,
    in the order of the answers, with any number of incarnations at once. *)
Theorem C66_memory_exact_partial :
  forall conf, (forall p, unambiguous_types (conf p)) ->
  forall l s t1 i pid snap ms t2,
  prun mem_storage conf (durable_init ∅) l = (s, t1 ++ VRecovered i pid snap ms :: t2) ->
  plain pid t1 -> snap = None /\ ms = acked pid t1.
Proof. intros conf Hc l s t1 i pid snap ms t2. exact (mem_recovered_exact conf Hc pid l s t1 i snap ms t2). Qed.

(** * What does not hold *)

(** A test for [good_trace] and one for [plain]. *)
Definition good_payloadb (b : bytes) : bool := Z.of_nat (length b) <? 2147483648.
Definition good_eventb (e : devent) : bool :=
  match e with
  | VCall _ _ (CPersist _ b) | VCall _ _ (CSnapshot _ b) => good_payloadb b
  | VCall _ _ (CBatch l) => forallb (fun x => good_payloadb x.2) l
  | _ => true
  end.
Definition good_traceb (t : list devent) : bool :=
  forallb good_eventb t && (total_weight t <? 4611686018427387904).
Lemma good_traceb_ok t : good_traceb t = true -> good_trace t.
Proof.
  unfold good_traceb. intros [H1 H2]%andb_prop. split; [|by apply Z.ltb_lt].
  rewrite forallb_forall in H1. apply Forall_forall. intros e He. apply elem_of_list_In, H1 in He.
  destruct e as [| |i p c| |]; try done. destruct c as [m b|l|m b| |]; simpl in *; try done.
  - by apply Z.ltb_lt.
  - intros m b Hin. rewrite forallb_forall in He. apply elem_of_list_In in Hin. specialize (He _ Hin). by apply Z.ltb_lt.
  - by apply Z.ltb_lt.
Qed.

Definition plainb (pid : string) (t : list devent) : bool :=
  forallb (fun e => match e with
                    | VCall _ p (CSnapshot _ _) | VCall _ p CClearOld | VCall _ p CClear => negb (String.eqb p pid)
                    | _ => true
                    end) t.
Lemma plainb_ok pid t : plainb pid t = true -> plain pid t.
Proof.
  unfold plainb. rewrite forallb_forall. intros H. apply Forall_forall. intros e He. apply elem_of_list_In, H in He.
  destruct e as [| |i p c| |]; try done. destruct c; simpl; try done;
    by apply negb_true_iff, String.eqb_neq in He.
Qed.

Notation ex_redis := (the_redis true "").
Notation trace_of l := (drun ex_redis ex_conf (durable_init ∅) l).2.
(** A call that is performed and answered; [k] is the number of the write. *)
Definition done_call (i : N) (c : dcall) (k : N) : list dop := [DCall i c; DApply k; DAnswer i true].

(** Two incarnations that store the same message: both writes are acknowledged, one entry is
    in the storage (same sequence id, same payload: the same member of the sorted set). *)
Definition ex_twice : list dop :=
  [DStart "p"; DStart "p"; DLoad 1; DLoad 2]%N ++
  done_call 1 (CPersist 1 [5]%N) 3 ++ done_call 2 (CPersist 1 [5]%N) 4 ++ [DStart "p"; DLoad 5].
Theorem C66_acknowledged_twice_refuted :
  exists conf l t1 i snap ms, (forall p, unambiguous_types (conf p)) /\ (forall p, good_identifiers (conf p)) /\
    (drun ex_redis conf (durable_init ∅) l).2 = t1 ++ [VRecovered i "p" snap ms] /\
    good_trace t1 /\ plain "p" t1 /\
    acked "p" t1 = [(1, [5]); (1, [5])]%N /\ snap = None /\ ms = [(1, [5])]%N.
Proof.
  exists ex_conf, ex_twice, (removelast (trace_of ex_twice)), 5%N, None, [(1, [5])]%N.
  split; [exact ex_conf_ok|]. split; [exact ex_conf_ids|]. split; [vm_compute; reflexivity|].
  split; [apply good_traceb_ok; by vm_compute|].
  split; [apply plainb_ok; by vm_compute|]. by vm_compute.
Qed.

(** Two incarnations that store different messages: all are found, but not in the order in
    which they were acknowledged (they share sequence ids). *)
Definition ex_order : list dop :=
  [DStart "p"; DStart "p"; DLoad 1; DLoad 2]%N ++
  done_call 1 (CPersist 1 [7]%N) 3 ++ done_call 1 (CPersist 1 [8]%N) 4 ++ done_call 2 (CPersist 1 [6]%N) 5 ++
  [DStart "p"; DLoad 6].
Theorem C66_order_refuted :
  exists conf l t1 i snap ms, (forall p, unambiguous_types (conf p)) /\ (forall p, good_identifiers (conf p)) /\
    (drun ex_redis conf (durable_init ∅) l).2 = t1 ++ [VRecovered i "p" snap ms] /\
    good_trace t1 /\ plain "p" t1 /\
    acked "p" t1 = [(1, [7]); (1, [8]); (1, [6])]%N /\ ms = [(1, [6]); (1, [7]); (1, [8])]%N.
Proof.
  exists ex_conf, ex_order, (removelast (trace_of ex_order)), 6%N, None, [(1, [6]); (1, [7]); (1, [8])]%N.
  split; [exact ex_conf_ok|]. split; [exact ex_conf_ids|]. split; [vm_compute; reflexivity|].
  split; [apply good_traceb_ok; by vm_compute|].
  split; [apply plainb_ok; by vm_compute|]. by vm_compute.
Qed.

(** An actor that gives up after a failure and goes on: the message that was reported as not
    stored is found, and in front of the next one although they share a sequence id. *)
Definition ex_failed : list dop :=
  [DStart "p"; DLoad 1; DCall 1 (CPersist 1 [7]%N); DApply 2; DAnswer 1 false]%N ++
  done_call 1 (CPersist 1 [6]%N) 3 ++ [DStart "p"; DLoad 4]%N.
Theorem C66_failed_found_refuted :
  exists conf l t1 i snap ms, (forall p, unambiguous_types (conf p)) /\ (forall p, good_identifiers (conf p)) /\
    (drun ex_redis conf (durable_init ∅) l).2 = t1 ++ [VRecovered i "p" snap ms] /\
    good_trace t1 /\ plain "p" t1 /\
    (forall j, VAnswer j "p" (CPersist 1 [7]%N) true ∉ t1) /\
    acked "p" t1 = [(1, [6])]%N /\ ms = [(1, [6]); (1, [7])]%N.
Proof.
  exists ex_conf, ex_failed, (removelast (trace_of ex_failed)), 4%N, None, [(1, [6]); (1, [7])]%N.
  split; [exact ex_conf_ok|]. split; [exact ex_conf_ids|]. split; [vm_compute; reflexivity|].
  split; [apply good_traceb_ok; by vm_compute|].
  split; [apply plainb_ok; by vm_compute|]. split; [|by vm_compute].
  intros j Hin. vm_compute in Hin. repeat (apply elem_of_cons in Hin as [Hin|Hin]; [discriminate Hin|]).
  by apply elem_of_nil in Hin.
Qed.

(** A snapshot that a crashed actor had issued reaches redis late: what the next incarnation
    stored in the meantime, with acknowledgements, is not found any more. *)
Definition ex_late : list dop :=
  [DStart "p"; DLoad 1]%N ++ done_call 1 (CPersist 1 [4]%N) 2 ++ done_call 1 (CPersist 1 [5]%N) 3 ++
  [DCall 1 (CSnapshot 9 [0]%N); DCrash 1; DStart "p"; DLoad 5]%N ++
  done_call 5 (CPersist 1 [6]%N) 6 ++ done_call 5 (CPersist 1 [7]%N) 7 ++
  [DApply 4; DStart "p"; DLoad 8]%N.
Theorem C66_late_snapshot_refuted :
  exists conf l t0 c t1 i snap ms, (forall p, unambiguous_types (conf p)) /\ (forall p, good_identifiers (conf p)) /\
    (drun ex_redis conf (durable_init ∅) l).2 = t0 ++ VCall 1 "p" c :: VGone 1 "p" :: t1 ++ [VRecovered i "p" snap ms] /\
    good_trace (t0 ++ VCall 1 "p" c :: VGone 1 "p" :: t1) /\
    acked "p" t1 = [(1, [6]); (1, [7])]%N /\ (forall j, VAnswer j "p" c true ∉ t1) /\
    snap = Some (9, [0])%N /\ ms = [].
Proof.
  exists ex_conf, ex_late, (take 6 (trace_of ex_late)), (CSnapshot 9 [0]%N), (removelast (drop 8 (trace_of ex_late))), 8%N,
    (Some (9, [0])%N), [].
  split; [exact ex_conf_ok|]. split; [exact ex_conf_ids|]. split; [vm_compute; reflexivity|].
  split; [apply good_traceb_ok; by vm_compute|].
  split; [by vm_compute|]. split; [|done].
  intros j Hin. vm_compute in Hin. repeat (apply elem_of_cons in Hin as [Hin|Hin]; [discriminate Hin|]).
  by apply elem_of_nil in Hin.
Qed.

(** A start reads its snapshot and its messages with two calls: if the actor that runs
    elsewhere takes a snapshot and clears old messages in between, the start finds nothing,
    although every call was acknowledged. *)
Definition ex_race : list dop :=
  [DStart "p"; DLoad 1]%N ++ done_call 1 (CPersist 1 [4]%N) 2 ++ done_call 1 (CPersist 1 [5]%N) 3 ++
  [DStart "p"] ++ done_call 1 (CSnapshot 9 [0]%N) 5 ++ done_call 1 CClearOld 6 ++ [DLoad 4]%N.
Theorem C66_start_race_refuted :
  exists conf l t0 t1 i snap ms, (forall p, unambiguous_types (conf p)) /\ (forall p, good_identifiers (conf p)) /\
    (drun ex_redis conf (durable_init ∅) l).2 = t0 ++ VStart i "p" :: t1 ++ [VRecovered i "p" snap ms] /\
    good_trace (t0 ++ t1) /\
    acked "p" t0 = [(1, [4]); (1, [5])]%N /\ VAnswer 1 "p" (CSnapshot 9 [0]%N) true ∈ t1 /\
    snap = None /\ ms = [].
Proof.
  exists ex_conf, ex_race, (take 6 (trace_of ex_race)), (removelast (drop 7 (trace_of ex_race))), 4%N, None, [].
  split; [exact ex_conf_ok|]. split; [exact ex_conf_ids|]. split; [vm_compute; reflexivity|].
  split; [apply good_traceb_ok; by vm_compute|].
  split; [by vm_compute|]. split; [vm_compute; right; left|done].
Qed.

(** In memory: two incarnations count on their own. A message that is acknowledged after the
    other incarnation's snapshot has a lower sequence id and is not found. *)
Definition ex_mem_snapshot : list pop :=
  [PStart "p"; PLoad 1; PStart "p"; PLoad 2; PCall 1 (CPersist 1 [4]%N); PCall 1 (CSnapshot 9 [0]%N);
   PCall 2 (CPersist 1 [5]%N); PStart "p"; PLoad 6]%N.
Theorem C66_memory_snapshot_refuted :
  exists conf l t1 i snap ms, (forall p, unambiguous_types (conf p)) /\
    (prun mem_storage conf (durable_init ∅) l).2 =
      t1 ++ [VCall 2 "p" (CPersist 1 [5]%N); VAnswer 2 "p" (CPersist 1 [5]%N) true; VStart i "p"; VRecovered i "p" snap ms] /\
    snap = Some (9, [0])%N /\ ms = [].
Proof.
  exists ex_conf, ex_mem_snapshot, (take 8 (prun mem_storage ex_conf (durable_init ∅) ex_mem_snapshot).2), 6%N,
    (Some (9, [0])%N), [].
  split; [exact ex_conf_ok|]. split; [vm_compute; reflexivity|done].
Qed.

(** * Concrete cases *)

(** Overlapping incarnations, a lost answer, a crash with a write on its way. *)
Definition ex_crash : list dop :=
  [DStart "p"; DStart "p"; DLoad 2; DLoad 1]%N ++
  done_call 1 (CPersist 1 [4]%N) 3 ++ done_call 2 (CPersist 2 [5]%N) 4 ++
  [DCall 1 (CBatch [(1, [6]); (2, [7])]%N); DCall 2 (CPersist 1 [8]%N); DCrash 1; DApply 6; DAnswer 2 false; DStart "p"; DApply 5; DLoad 7]%N.
Example C66_crash_example :
  trace_of ex_crash = removelast (trace_of ex_crash) ++ [VRecovered 7 "p" None [(1, [4]); (2, [5]); (1, [8]); (1, [6]); (2, [7])]%N] /\
  good_trace (trace_of ex_crash) /\ plain "p" (removelast (trace_of ex_crash)) /\
  acked "p" (removelast (trace_of ex_crash)) = [(1, [4]); (2, [5])]%N /\
  tried "p" (removelast (trace_of ex_crash)) = [(1, [4]); (2, [5]); (1, [6]); (2, [7]); (1, [8])]%N.
Proof.
  split; [vm_compute; reflexivity|]. split; [apply good_traceb_ok; by vm_compute|].
  split; [apply plainb_ok; by vm_compute|]. by vm_compute.
Qed.

(** A writer that retries: a persist is tried three times (performed late, lost, performed),
    then a snapshot twice; it crashes with a message on its way. *)
Definition ex_retry : list dop :=
  [DStart "p"; DLoad 1]%N ++ done_call 1 (CPersist 1 [4]%N) 2 ++
  [DCall 1 (CPersist 2 [5]%N); DAnswer 1 false; DCall 1 (CPersist 2 [5]%N); DAnswer 1 false]%N ++
  done_call 1 (CPersist 2 [5]%N) 5 ++
  [DCall 1 (CSnapshot 9 [0]%N); DApply 6; DAnswer 1 false]%N ++ done_call 1 (CSnapshot 9 [0]%N) 7 ++ [DApply 3]%N ++
  done_call 1 (CPersist 1 [6]%N) 8 ++ [DCall 1 (CPersist 1 [7]%N); DCrash 1; DStart "p"; DApply 9; DLoad 10]%N.
Example C66_retry_example :
  trace_of ex_retry = take 18 (trace_of ex_retry) ++ VStart 10 "p" :: [] ++ [VRecovered 10 "p" (Some (9, [0])) [(1, [6]); (1, [7])]]%N /\
  good_trace (take 18 (trace_of ex_retry) ++ []) /\ persevering "p" (take 19 (trace_of ex_retry) ++ []) /\
  p_open (progress_of "p" (take 18 (trace_of ex_retry))) = Some (CPersist 1 [7]%N) /\
  p_expected (progress_of "p" (take 18 (trace_of ex_retry))) = Expected (Some (9, [0]))%N [(1, [6])]%N.
Proof.
  split; [vm_compute; reflexivity|]. split; [apply good_traceb_ok; by vm_compute|].
  split; [by vm_compute|]. by vm_compute.
Qed.

(** In memory: three incarnations that overlap. *)
Example C66_memory_example :
  let l := [PStart "p"; PLoad 1; PStart "p"; PLoad 2; PCall 1 (CPersist 1 [9]); PCall 2 (CBatch [(2, [5]); (1, [3])]);
            PCall 1 (CPersist 1 [9]); PCrash 1; PStart "p"; PCall 2 (CPersist 2 [1]); PLoad 6]%N in
  let t := (prun mem_storage ex_conf (durable_init ∅) l).2 in
  t = removelast t ++ [VRecovered 6 "p" None [(1, [9]); (2, [5]); (1, [3]); (1, [9]); (2, [1])]]%N /\ plain "p" (removelast t).
Proof. split; [vm_compute; reflexivity|]. apply plainb_ok. by vm_compute. Qed.

Print Assumptions C66_recovered_tried_partial.
Print Assumptions C66_acknowledged_found_partial.
Print Assumptions C66_retried_exact_partial.
Print Assumptions C66_retried_state_partial.
Print Assumptions C66_memory_exact_partial.
Print Assumptions C66_acknowledged_twice_refuted.
Print Assumptions C66_order_refuted.
Print Assumptions C66_failed_found_refuted.
Print Assumptions C66_late_snapshot_refuted.
Print Assumptions C66_start_race_refuted.
Print Assumptions C66_memory_snapshot_refuted.
