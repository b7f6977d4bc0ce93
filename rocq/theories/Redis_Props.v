(** Properties C05 to C08 for the redis journal. *)
From Verif Require Import Journal_Model Journal_Spec Journal_Proofs Journal_Proofs3 Journal_Props.
From Verif Require Import ShardWire_Model ShardWire_Proofs Redis_Model Redis_Spec Redis_Proofs Redis_Proofs2 Redis_Proofs3.
Local Open Scope string_scope.
Local Open Scope list_scope.
Local Open Scope Z_scope.

Notation the_redis hashtags prefix := (redis_storage (redis_key hashtags prefix)).

Lemma ex_conf_ids : forall pid, good_identifiers (ex_conf pid).
Proof.
  intros pid m i H. simpl in H.
  repeat match goal with H : _ \/ _ |- _ => destruct H | H : False |- _ => destruct H
         | H : (_, _) = (_, _) |- _ => injection H as ? ? end; subst; by split.
Qed.

(** * C06 *)

(** False of the code. After a restart the first persist reuses the sequence id of the last
    message: with the same payload it is the same member of the sorted set and is lost. *)
Theorem C06_redis_replay_refuted :
  exists conf h pid, (forall p, unambiguous_types (conf p)) /\ (forall p, good_identifiers (conf p)) /\
    good_calls h /\
    let x := must_recover pid (history (the_redis true "") conf redis_init h) in
    recovered (start_after (the_redis true "") conf redis_init h pid) <> Some (x_snapshot x, x_after x).
Proof.
  exists ex_conf, [("p", JStart); ("p", JPersist 1 [5] false); ("p", JStart); ("p", JPersist 1 [6] false);
                   ("p", JStart); ("p", JPersist 1 [6] false)]%N, "p".
  split; [exact ex_conf_ok|]. split; [exact ex_conf_ids|]. split.
  - split; [|done]. intros x Hx. simpl in Hx. repeat (destruct Hx as [<-|Hx]; [done|]). destruct Hx.
  - vm_compute. discriminate.
Qed.
Print Assumptions C06_redis_replay_refuted.

(** With different payloads nothing is lost, but two messages written in consecutive
    incarnations are replayed in the order of their bytes. *)
Theorem C06_redis_order_refuted :
  exists conf h pid, (forall p, unambiguous_types (conf p)) /\ (forall p, good_identifiers (conf p)) /\
    good_calls h /\
    let x := must_recover pid (history (the_redis true "") conf redis_init h) in
    NoDup (x_after x) /\
    recovered (start_after (the_redis true "") conf redis_init h pid) <> Some (x_snapshot x, x_after x).
Proof.
  exists ex_conf, [("p", JStart); ("p", JPersist 1 [5] false); ("p", JPersist 1 [7] false); ("p", JStart);
                   ("p", JPersist 1 [6] false)]%N, "p".
  split; [exact ex_conf_ok|]. split; [exact ex_conf_ids|]. split; [|split].
  - split; [|done]. intros x Hx. simpl in Hx. repeat (destruct Hx as [<-|Hx]; [done|]). destruct Hx.
  - apply (bool_decide_unpack _). vm_compute. done.
  - vm_compute. discriminate.
Qed.
Print Assumptions C06_redis_order_refuted.

(** What holds for every history of persists, batches, snapshots, failures, clears and
    restarts (and old messages cleared only when none was acknowledged since the
    snapshot): the latest acknowledged snapshot is recovered, and the recovered messages
    are the acknowledged ones since then, as a set. Missing: multiplicity and order. *)
Theorem C06_redis_replay_set_partial :
  forall hashtags prefix conf,
  (forall pid, unambiguous_types (conf pid)) -> (forall pid, good_identifiers (conf pid)) ->
  forall h pid, good_calls h -> tidy_history pid (history (the_redis hashtags prefix) conf redis_init h) ->
  let x := must_recover pid (history (the_redis hashtags prefix) conf redis_init h) in
  exists ms, recovered (start_after (the_redis hashtags prefix) conf redis_init h pid) = Some (x_snapshot x, ms) /\
    (forall m, m ∈ ms <-> m ∈ x_after x).
Proof. intros ??? H1 H2. exact (redis_replay_set _ (redis_key_distinct _ _) _ H1 H2). Qed.
Print Assumptions C06_redis_replay_set_partial.

(** Each once, when the acknowledged messages are pairwise different. Missing: order. *)
Theorem C06_redis_replay_once_partial :
  forall hashtags prefix conf,
  (forall pid, unambiguous_types (conf pid)) -> (forall pid, good_identifiers (conf pid)) ->
  forall h pid, good_calls h -> tidy_history pid (history (the_redis hashtags prefix) conf redis_init h) ->
  let x := must_recover pid (history (the_redis hashtags prefix) conf redis_init h) in
  NoDup (x_after x) ->
  exists ms, recovered (start_after (the_redis hashtags prefix) conf redis_init h pid) = Some (x_snapshot x, ms) /\
    Permutation ms (x_after x).
Proof. intros ??? H1 H2. exact (redis_replay_distinct _ (redis_key_distinct _ _) _ H1 H2). Qed.
Print Assumptions C06_redis_replay_once_partial.

(** The full property, when no single persist directly follows a batch or a restart since
    the latest snapshot (or clear). *)
Theorem C06_redis_replay_exact_partial :
  forall hashtags prefix conf,
  (forall pid, unambiguous_types (conf pid)) -> (forall pid, good_identifiers (conf pid)) ->
  forall h pid, good_calls h -> tidy_history pid (history (the_redis hashtags prefix) conf redis_init h) ->
  orderly pid (history (the_redis hashtags prefix) conf redis_init h) = true ->
  let x := must_recover pid (history (the_redis hashtags prefix) conf redis_init h) in
  recovered (start_after (the_redis hashtags prefix) conf redis_init h pid) = Some (x_snapshot x, x_after x).
Proof. intros ??? H1 H2. exact (redis_replay_exact _ (redis_key_distinct _ _) _ H1 H2). Qed.
Print Assumptions C06_redis_replay_exact_partial.

Definition ex_c06 : list (string * jop) :=
  [("p", JStart); ("p", JPersist 1 [10] false); ("p", JPersist 2 [12] false); ("q", JStart);
   ("q", JPersist 1 [3] false); ("p", JSnapshot 9 [1] false); ("p", JClearOld false);
   ("p", JStart); ("p", JPersist 1 [10] false); ("p", JPersist 2 [11] true); ("p", JPersist 1 [10] false);
   ("p", JBatch [(2, [12]); (1, [9])] false); ("p", JStart); ("p", JBatch [(2, [2]); (1, [1])] false)]%N.

Example C06_example :
  good_calls ex_c06 /\ tidy_history "p" (history (the_redis false "x") ex_conf redis_init ex_c06) /\
  orderly "p" (history (the_redis false "x") ex_conf redis_init ex_c06) = true /\
  recovered (start_after (the_redis false "x") ex_conf redis_init ex_c06 "p") =
    Some (Some (9, [1]), [(1, [10]); (1, [10]); (2, [12]); (1, [9]); (2, [2]); (1, [1])])%N.
Proof.
  split; [|split; [|split]].
  - split; [|done]. intros x Hx. simpl in Hx.
    repeat (destruct Hx as [<-|Hx]; [first [done|intros m b Hb; simpl in Hb;
      repeat (destruct Hb as [[= <- <-]|Hb]; [done|]); destruct Hb]|]). destruct Hx.
  - vm_compute. repeat split.
  - vm_compute. reflexivity.
  - vm_compute. reflexivity.
Qed.

(** * C05 with redis *)

(** The first message persisted after a snapshot carries the sequence id of the snapshot and
    is deleted together with the old messages. *)
Theorem C05_redis_clear_old_refuted :
  exists conf h pid, (forall p, unambiguous_types (conf p)) /\ (forall p, good_identifiers (conf p)) /\
    good_calls h /\
    recovered (start_after (the_redis true "") conf redis_init (h ++ [(pid, JClearOld false)]) pid) <>
    recovered (start_after (the_redis true "") conf redis_init h pid).
Proof.
  exists ex_conf, [("p", JStart); ("p", JSnapshot 9 [1] false); ("p", JPersist 1 [2] false)]%N, "p".
  split; [exact ex_conf_ok|]. split; [exact ex_conf_ids|]. split.
  - split; [|done]. intros x Hx. simpl in Hx. repeat (destruct Hx as [<-|Hx]; [done|]). destruct Hx.
  - vm_compute. discriminate.
Qed.
Print Assumptions C05_redis_clear_old_refuted.

(** * C07 with redis *)

(** Range reads and single reads of the redis journal answer exactly the stored messages of
    the range (the first one, for a single id), in the order of the sequence ids. *)
Theorem C07_redis_range_read :
  forall hashtags prefix conf,
  (forall pid, unambiguous_types (conf pid)) -> (forall pid, good_identifiers (conf pid)) ->
  forall h pid, good_calls h -> tidy_history pid (history (the_redis hashtags prefix) conf redis_init h) ->
  let key := redis_key hashtags prefix in
  let st := js_store (jrun (the_redis hashtags prefix) conf redis_init h).1 in
  exists all, redis_read_latest_messages key pid 0 st = Some all /\
    StronglySorted (fun a b => e_seq a <= e_seq b) all /\
    (forall from to, redis_read_messages key pid from to st = Some (in_range from to all)) /\
    (forall seq, redis_read_message key pid seq st = head (in_range seq seq all)).
Proof. intros ??? H1 H2. exact (redis_range_reads _ (redis_key_distinct _ _) _ H1 H2). Qed.
Print Assumptions C07_redis_range_read.

Example C07_redis_example :
  redis_read_messages (redis_key false "x") "p" 1 4
    (js_store (jrun (the_redis false "x") ex_conf redis_init ex_c06).1) =
  Some [Entry 3 "A" [10]; Entry 4 "A" [10]]%N.
Proof. vm_compute. reflexivity. Qed.

(** * C08 with redis *)

(** Whatever the others do, the calls on one id are answered as if it were alone. *)
Theorem C08_redis_isolated :
  forall hashtags prefix conf pid h,
  answers_of pid (history (the_redis hashtags prefix) conf redis_init h) =
  (jrun (the_redis hashtags prefix) conf redis_init (calls_of pid h)).2.
Proof.
  intros hashtags prefix conf pid h.
  exact (isolated_history _ _ conf (redis_isolated _ (redis_key_distinct hashtags prefix)) pid h redis_init).
Qed.
Print Assumptions C08_redis_isolated.

(** Keys never clash, for arbitrary persistence ids and prefixes. *)
Theorem C08_redis_keys_distinct :
  forall hashtags prefix p p' t t',
  t = "journal" \/ t = "snapshot" -> t' = "journal" \/ t' = "snapshot" ->
  redis_key hashtags prefix p t = redis_key hashtags prefix p' t' -> p = p' /\ t = t'.
Proof. exact redis_key_distinct. Qed.
Print Assumptions C08_redis_keys_distinct.

Example C08_redis_example :
  answers_of "p" (history (the_redis true "x") ex_conf redis_init ex_c06) =
  (jrun (the_redis true "x") ex_conf redis_init (calls_of "p" ex_c06)).2 /\
  length (calls_of "p" ex_c06) <> length ex_c06.
Proof. split; [vm_compute; reflexivity|vm_compute; discriminate]. Qed.
