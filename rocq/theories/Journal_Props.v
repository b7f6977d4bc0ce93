(** Properties C01, C02, C03, C04, C05, C07, C08 and C10 (in-memory journal, policies). *)
From Verif Require Import Journal_Model Journal_Spec Journal_Proofs Journal_Proofs2 Journal_Proofs3.
From Verif Require Import Persist_Model Persist_Spec Persist_Proofs.
Local Open Scope string_scope.
Local Open Scope list_scope.
Local Open Scope Z_scope.

(** A configuration with two message types and one snapshot type, and two ids. *)
Definition ex_conf : string -> jtypes :=
  fun _ => JTypes [(1, "A"); (2, "B")]%N [(9, "S")]%N.
Definition ex_start := start_after mem_storage ex_conf mem_init.

Lemma ex_conf_ok : forall pid, unambiguous_types (ex_conf pid).
Proof.
  intros pid. split; intros m m' i H1 H2; simpl in H1, H2;
    repeat match goal with H : _ \/ _ |- _ => destruct H | H : False |- _ => destruct H
           | H : (_, _) = (_, _) |- _ => injection H as ? ? end; subst; try done; congruence.
Qed.

(** * C01 *)

(** After any history without snapshots of [pid] — persists, batches, failed writes,
    restarts, deletions, clears, and anything other actors do — a start replays
    exactly the messages acknowledged since the last clear, each once, in order. *)
Theorem C01_replay_all_acknowledged :
  forall conf, (forall pid, unambiguous_types (conf pid)) ->
  forall h pid, no_snapshot pid h ->
  recovered (start_after mem_storage conf mem_init h pid) =
    Some (None, x_after (must_recover pid (history mem_storage conf mem_init h))).
Proof. exact replay_without_snapshots. Qed.
Print Assumptions C01_replay_all_acknowledged.

Definition ex_c01 : list (string * jop) :=
  [("p", JStart); ("q", JStart); ("p", JPersist 1 [10] false); ("q", JPersist 1 [77] false);
   ("p", JPersist 2 [11] true); ("p", JBatch [(2, [12]); (1, [10])] false); ("p", JStart);
   ("p", JPersist 1 [10] false); ("q", JClear false)]%N.
Example C01_example :
  no_snapshot "p" ex_c01 /\
  recovered (ex_start ex_c01 "p") = Some (None, [(1, [10]); (2, [12]); (1, [10]); (1, [10])]%N).
Proof.
  split; [|vm_compute; done].
  intros x Hx _ s b f. simpl in Hx.
  repeat (destruct Hx as [<-|Hx]; [done|]). destruct Hx.
Qed.

(** * C02 *)

(** The property as stated fails: the first message persisted after a snapshot is
    acknowledged and never replayed. *)
Theorem C02_replay_after_snapshot_refuted :
  exists conf h pid, (forall p, unambiguous_types (conf p)) /\
    let x := must_recover pid (history mem_storage conf mem_init h) in
    recovered (start_after mem_storage conf mem_init h pid) <> Some (x_snapshot x, x_after x).
Proof.
  exists ex_conf, [("p", JStart); ("p", JSnapshot 9 [1] false); ("p", JPersist 1 [2] false)]%N, "p".
  split; [exact ex_conf_ok|]. vm_compute. discriminate.
Qed.
Print Assumptions C02_replay_after_snapshot_refuted.

(** What does hold, for every history: the snapshot is the latest acknowledged one,
    and the replayed messages are the acknowledged ones after it except for some at
    the beginning, at most one per incarnation since the snapshot. *)
Theorem C02_replay_after_snapshot_partial :
  forall conf, (forall pid, unambiguous_types (conf pid)) ->
  forall h pid, exists lost ms,
    let x := must_recover pid (history mem_storage conf mem_init h) in
    recovered (start_after mem_storage conf mem_init h pid) = Some (x_snapshot x, ms) /\
    x_after x = lost ++ ms /\
    (length lost <= S (starts_since_snapshot pid (history mem_storage conf mem_init h)))%nat.
Proof. exact replay_with_snapshots. Qed.
Print Assumptions C02_replay_after_snapshot_partial.

(** The exact answer for every history: see [actual_step] for which messages are lost. *)
Theorem C02_replay_exact_partial :
  forall conf, (forall pid, unambiguous_types (conf pid)) ->
  forall h pid,
    let a := does_recover pid (history mem_storage conf mem_init h) in
    recovered (start_after mem_storage conf mem_init h pid) = Some (a_snapshot a, a_kept a).
Proof. exact mem_recovers_actual. Qed.
Print Assumptions C02_replay_exact_partial.

Definition ex_c02 : list (string * jop) :=
  [("p", JStart); ("p", JPersist 1 [10] false); ("p", JSnapshot 9 [1] false);
   ("p", JPersist 1 [11] false); ("p", JPersist 1 [12] false); ("p", JStart);
   ("p", JPersist 2 [13] false)]%N.
Example C02_example :
  recovered (ex_start ex_c02 "p") = Some (Some (9, [1]), [(1, [12]); (2, [13])])%N /\
  x_after (must_recover "p" (history mem_storage ex_conf mem_init ex_c02))
    = [(1, [11]); (1, [12]); (2, [13])]%N.
Proof. vm_compute. done. Qed.

(** * C03 *)

(** Sequence ids repeat: after a restart the first message gets the id of the last one. *)
Theorem C03_sequence_ids_refuted :
  exists conf h pid, (forall p, unambiguous_types (conf p)) /\
    ~ NoDup (map e_seq (messages_of pid (js_store (jrun mem_storage conf mem_init h).1))).
Proof.
  exists ex_conf, [("p", JStart); ("p", JPersist 1 [1] false); ("p", JPersist 1 [2] false);
                   ("p", JStart); ("p", JPersist 1 [3] false)]%N, "p".
  split; [exact ex_conf_ok|]. vm_compute. intros H.
  apply NoDup_cons in H as [_ H]. apply NoDup_cons in H as [H _]. apply H. by left.
Qed.
Print Assumptions C03_sequence_ids_refuted.

(** They also repeat without a restart, when a single message follows a batch. *)
Theorem C03_sequence_ids_batch_refuted :
  exists conf h pid ops, (forall p, unambiguous_types (conf p)) /\
    ops_of pid h = JStart :: ops /\ ~ In JStart ops /\
    ~ NoDup (map e_seq (messages_of pid (js_store (jrun mem_storage conf mem_init h).1))).
Proof.
  exists ex_conf, [("p", JStart); ("p", JBatch [(1, [1])] false); ("p", JPersist 1 [2] false)]%N, "p", [JBatch [(1, [1])] false; JPersist 1 [2] false]%N.
  split; [exact ex_conf_ok|]. split; [vm_compute; done|].
  split; [intros [|[|[]]]; discriminate|]. vm_compute. intros H.
  apply NoDup_cons in H as [H _]. apply H. by left.
Qed.
Print Assumptions C03_sequence_ids_batch_refuted.

(** For every history the stored ids never decrease. *)
Theorem C03_sequence_ids_nondecreasing_partial :
  forall conf, (forall pid, unambiguous_types (conf pid)) ->
  forall h pid, StronglySorted (fun a b => e_seq a <= e_seq b)
    (messages_of pid (js_store (jrun mem_storage conf mem_init h).1)).
Proof.
  intros conf Hc h pid. pose proof (seqs_nondecreasing conf Hc h pid) as H.
  unfold messages_of, msgs_of in *. by destruct (_ !! pid).
Qed.
Print Assumptions C03_sequence_ids_nondecreasing_partial.

(** Within one incarnation that writes single messages and snapshots (and clears),
    they strictly increase. Missing: restarts and batches (refuted above). *)
Theorem C03_sequence_ids_increasing_partial :
  forall conf h pid ops,
    ops_of pid h = JStart :: ops -> Forall plain_op ops ->
    StronglySorted (fun a b => e_seq a < e_seq b)
      (messages_of pid (js_store (jrun mem_storage conf mem_init h).1)).
Proof.
  intros conf h pid ops H1 H2. pose proof (seqs_increasing conf h pid ops H1 H2) as H.
  unfold messages_of, msgs_of in *. by destruct (_ !! pid).
Qed.
Print Assumptions C03_sequence_ids_increasing_partial.

Example C03_example :
  let h := [("q", JStart); ("p", JStart); ("p", JPersist 1 [1] false); ("q", JPersist 1 [1] false);
            ("p", JSnapshot 9 [1] false); ("p", JPersist 1 [2] false); ("p", JClearOld true)]%N in
  ops_of "p" h = [JStart; JPersist 1 [1] false; JSnapshot 9 [1] false; JPersist 1 [2] false; JClearOld true]%N /\
  map e_seq (messages_of "p" (js_store (jrun mem_storage ex_conf mem_init h).1)) = [0; 2].
Proof. vm_compute. done. Qed.

(** * C04 *)

(** For every storage, policy and pattern of failures: the result, the number of
    attempts, the stop flag and whether something was written are as specified; the
    state is the old one, or the one a single successful write produces. *)
Theorem C04_persist_policy :
  forall (St : Type) (S : storage St) conf policy pid op outcomes s,
    is_write op -> (jstep S conf s (pid, op false)).2 = JOk ->
    exists r stop n written,
      persist_call S conf policy pid op outcomes s =
        (r, stop, n, if written : bool then (jstep S conf s (pid, op false)).1 else s) /\
      persist_expected policy outcomes r stop n written.
Proof. exact @persist_call_spec. Qed.
Print Assumptions C04_persist_policy.

Definition ex_running := (jrun mem_storage ex_conf mem_init [("p", JStart)]).1.
Example C04_example :
  is_write (JPersist 1 [5]%N) /\ (jstep mem_storage ex_conf ex_running ("p", JPersist 1 [5]%N false)).2 = JOk /\
  (let '(r, stop, n, s) := persist_call mem_storage ex_conf (PRetry (MaxAttempts 3)) "p" (JPersist 1 [5]%N)
                             [true; true; false; false] ex_running in
   (r, stop, n, messages_of "p" (js_store s))) = (PROk, false, 3%nat, [Entry 0 "A" [5]%N]) /\
  (let '(r, stop, n, s) := persist_call mem_storage ex_conf (PRetry (MaxAttempts 3)) "p" (JPersist 1 [5]%N)
                             [true; true; true; false] ex_running in
   (r, stop, n, messages_of "p" (js_store s))) = (PRErr, true, 3%nat, []).
Proof. split; [constructor|]. vm_compute. done. Qed.

(** * C05 *)

(** Deleting old messages changes no later answer of any operation of any actor. *)
Theorem C05_clear_old_unobservable :
  forall conf, (forall pid, unambiguous_types (conf pid)) ->
  forall h1 h2 pid fail,
    (jrun mem_storage conf (jrun mem_storage conf mem_init (h1 ++ [(pid, JClearOld fail)])).1 h2).2 =
    (jrun mem_storage conf (jrun mem_storage conf mem_init h1).1 h2).2.
Proof. exact clear_old_unobservable. Qed.
Print Assumptions C05_clear_old_unobservable.

Example C05_example :
  let h1 := [("p", JStart); ("p", JPersist 1 [10] false); ("p", JPersist 1 [11] false);
             ("p", JSnapshot 9 [1] false); ("p", JPersist 1 [12] false); ("p", JPersist 1 [13] false)]%N in
  let st := (jrun mem_storage ex_conf mem_init (h1 ++ [("p", JClearOld false)])).1 in
  map e_bytes (messages_of "p" (js_store (jrun mem_storage ex_conf mem_init h1).1)) = [[10]; [11]; [12]; [13]]%N /\
  map e_bytes (messages_of "p" (js_store st)) = [[12]; [13]]%N /\
  recovered (jstep mem_storage ex_conf st ("p", JStart)).2 = Some (Some (9, [1]), [(1, [13])])%N.
Proof. vm_compute. done. Qed.

(** * C07 *)

(** Reading [from, to] in the in-memory store panics or returns the wrong messages. *)
Theorem C07_range_read_refuted :
  exists st, (forall pid, StronglySorted (fun a b => e_seq a < e_seq b) (messages_of pid st)) /\
    mem_read_messages "p" 1 2 st = PPanic /\
    mem_read_messages "p" 0 2 st = PVal (Some [Entry 0 "A" []]) /\
    mem_read_messages "p" 1 3 st = PVal (Some [Entry 2 "A" []; Entry 3 "A" []]) /\
    in_range 1 2 (messages_of "p" st) = [Entry 1 "A" []; Entry 2 "A" []] /\
    in_range 0 2 (messages_of "p" st) = [Entry 0 "A" []; Entry 1 "A" []; Entry 2 "A" []] /\
    in_range 1 3 (messages_of "p" st) = [Entry 1 "A" []; Entry 2 "A" []; Entry 3 "A" []].
Proof.
  exists {[ "p" := AJ [] [Entry 0 "A" []; Entry 1 "A" []; Entry 2 "A" []; Entry 3 "A" []] ]}.
  split; [|vm_compute; split_and!; done].
  intros pid. unfold messages_of. destruct (decide (pid = "p")) as [->|Hne].
  - rewrite lookup_singleton. repeat constructor; simpl; lia.
  - rewrite lookup_singleton_ne by done. constructor.
Qed.
Print Assumptions C07_range_read_refuted.

(** The exact answer for every journal with ordered ids (C03: all reachable ones) and
    all bounds. It is the requested range when the range covers the whole journal. *)
Theorem C07_range_read_partial :
  forall pid from to st,
  StronglySorted (fun a b => e_seq a <= e_seq b) (messages_of pid st) ->
  match head (messages_of pid st), last (messages_of pid st) with
  | Some first, Some final =>
      mem_read_messages pid from to st =
        if e_seq final <=? to then
          PVal (Some (in_range (if from <=? e_seq first then from else from + 1) to (messages_of pid st)))
        else if from <=? e_seq first then
          PVal (Some (if from <? e_seq final then in_range from from (messages_of pid st) else []))
        else PPanic
  | _, _ => mem_read_messages pid from to st = PVal None
  end.
Proof. exact mem_read_messages_spec. Qed.
Print Assumptions C07_range_read_partial.

(** Reading one sequence id returns a message stored with it, if there is one. *)
Theorem C07_read_message :
  forall pid seq st,
  match mem_read_message pid seq st with
  | Some e => In e (messages_of pid st) /\ e_seq e = seq
  | None => forall e, In e (messages_of pid st) -> e_seq e <> seq
  end.
Proof. exact mem_read_message_spec. Qed.
Print Assumptions C07_read_message.

Theorem C07_read_message_unique :
  forall pid seq st e, NoDup (map e_seq (messages_of pid st)) ->
    In e (messages_of pid st) -> e_seq e = seq -> mem_read_message pid seq st = Some e.
Proof. exact mem_read_message_unique. Qed.
Print Assumptions C07_read_message_unique.

(** * C08 *)

(** In any interleaving, the answers to the calls on one id are those that the calls
    on this id alone would get. *)
Theorem C08_journals_isolated :
  forall conf h pid,
    answers_of pid (history mem_storage conf mem_init h) =
    (jrun mem_storage conf mem_init (calls_of pid h)).2.
Proof. intros conf h pid. exact (isolated_history mem_storage _ conf mem_isolated pid h mem_init). Qed.
Print Assumptions C08_journals_isolated.

Example C08_example :
  answers_of "p" (history mem_storage ex_conf mem_init ex_c01) = [JRecovered None None; JOk; JErr; JOk;
    JRecovered None (Some [(1, [10]); (2, [12]); (1, [10])])%N; JOk].
Proof. vm_compute. done. Qed.

(** * C10 *)

(** A message is handled only after post-recovery, which comes after the complete
    content of the loaded journal has been replayed in order. *)
Theorem C10_recovery_precedes_handling :
  forall decodes stops policy loads mailbox pre m post,
    startup decodes stops policy loads mailbox = pre ++ EHandle m :: post ->
    exists j pre1 pre2, first_load policy loads j /\
      pre = pre1 ++ EPostRecovery :: pre2 /\ replayed pre1 = contents j /\
      Forall (fun e => is_handle e = false /\ is_post e = false) pre1 /\
      Forall (fun e => is_handle e = true) pre2.
Proof. exact startup_order. Qed.
Print Assumptions C10_recovery_precedes_handling.

(** If no load succeeds within the policy, or the journal that loads holds a payload
    that cannot be decoded, nothing is handled and the post-recovery hook is not run. *)
Theorem C10_failed_recovery_handles_nothing :
  forall decodes stops policy loads mailbox,
    (forall j, first_load policy loads j -> Forall (fun p => decodes p = true) (contents j) -> False) ->
    Forall (fun e => is_handle e = false /\ is_post e = false) (startup decodes stops policy loads mailbox).
Proof. exact startup_gives_up. Qed.
Print Assumptions C10_failed_recovery_handles_nothing.

(** ... and the actor stops once the attempts are used up (or a load came through),
    unless the policy is to panic. *)
Theorem C10_failed_recovery_stops :
  forall decodes stops policy loads mailbox,
    (forall j, first_load policy loads j -> Forall (fun p => decodes p = true) (contents j) -> False) ->
    (exists l, recovery_limit policy = Some l /\ (l <= length loads)%nat) \/ (exists j, In (Some j) loads) ->
    policy <> RPanicPolicy ->
    last (startup decodes stops policy loads mailbox) = Some EStopped.
Proof. exact startup_stops. Qed.
Print Assumptions C10_failed_recovery_stops.

Theorem C10_retries_bounded :
  forall decodes stops policy loads mailbox l,
    recovery_limit policy = Some l -> (load_errors (startup decodes stops policy loads mailbox) <= l)%nat.
Proof. exact startup_attempts. Qed.
Print Assumptions C10_retries_bounded.

Example C10_example :
  let j : loaded := (Some (9, [1]), Some [(1, [2]); (2, [3])])%N in
  startup (fun _ => true) (fun m => N.eqb m 8) (RRetry (MaxAttempts 3)) [None; Some j] [7; 8; 9]%N =
    [EPreRecovery; ELoadError; ERecoverSnapshot (9, [1]); ERecoverMessage (1, [2]); ERecoverMessage (2, [3]);
     EPostRecovery; EHandle 7; EHandle 8; EStopped]%N /\
  startup (fun _ => true) (fun m => N.eqb m 8) (RRetry (MaxAttempts 3)) [None; None; None; Some j] [7]%N =
    [EPreRecovery; ELoadError; ELoadError; ELoadError; ERecoveryFailed; EStopped] /\
  startup (fun p => negb (N.eqb p.1 2)) (fun m => N.eqb m 8) RStopActor [Some j] [7]%N =
    [EPreRecovery; ERecoverSnapshot (9, [1]); ERecoverMessage (1, [2]); EDecodeError (2, [3]); EStopped]%N.
Proof. vm_compute. done. Qed.
