(** Properties C11 to C14: mailbox order, results of sends, lifecycle, watchers. *)
From Verif Require Import Actor_Model Actor_Spec Actor_Proofs Actor_Proofs2 Actor_Proofs3.
Local Open Scope string_scope.
Local Open Scope list_scope.
Local Open Scope nat_scope.

(** An example: a counter that adds what it is sent, stops itself at 100 and panics at 1000. *)
Definition ex_started (u : nat) : nat * effect := (S u, Continue).
Definition ex_handler (u m : nat) : nat * nat * effect :=
  (u + m, u + m, if m =? 100 then StopSelf else if m =? 1000 then Panic else Continue).
Definition ex_ops : list (op nat) :=
  [OSend (RUser 5 true); OTick; OSend (RWatch "w" 7); OSend RStatus; OTick; OSend (RUser 6 false); OTick; OTick;
   OSend (RUser 8 true); OTick; OTick; OSend (RStop true); OSend (RUser 9 true); OTick; OTick; OTick; OTick;
   OSend (RUser 1 true)].

Section props.
  Context {St Msg Res : Type}.
  Context (started : St -> St * effect) (handler : St -> Msg -> St * Res * effect) (tracked : bool).
  Notation arun := (arun started handler tracked).

  (** * C11: messages are handled one at a time, in the order of their acceptance *)

  Theorem C11_mailbox_order u ops :
    NoDup (map fst (accepted (arun u ops).2)) /\
    handled (arun u ops).2 `prefix_of` map fst (accepted (arun u ops).2).
  Proof.
    destruct (binv_run started handler tracked u ops) as (B1 & B2 & B3 & _). split.
    - rewrite B1. apply NoDup_seq.
    - rewrite B1, B2. exists (seq (length (handled (arun u ops).2)) (a_next (arun u ops).1 - length (handled (arun u ops).2))).
      etransitivity; [|exact (seq_app (length (handled (arun u ops).2)) _ 0)]. f_equal. lia.
  Qed.

  (** Every accepted message is handled, given enough steps, unless the actor stops. *)
  Theorem C11_mailbox_complete u ops n : length (accepted (arun u ops).2) < n ->
    a_phase (arun u (ops ++ repeat OTick n)).1 = PRunning ->
    handled (arun u (ops ++ repeat OTick n)).2 = map fst (accepted (arun u ops).2).
  Proof. exact (all_handled started handler tracked u ops n). Qed.

  (** * C12: a send returns the result of its own message *)

  (** The replies are the results of handling the accepted messages, in order, from the
      state that [started] left. *)
  Theorem C12_results u ops :
    replies (arun u ops).2 =
    answers handler (started u).1 (take (length (handled (arun u ops).2)) (accepted (arun u ops).2)).
  Proof. by destruct (binv_run started handler tracked u ops) as (_ & _ & _ & _ & _ & _ & _ & H). Qed.

  Theorem C12_one_outcome u ops i : count (is_outcome i) (arun u ops).2 <= 1.
  Proof. exact (one_outcome started handler tracked u ops i). Qed.

  (** When the actor has stopped nobody waits any more. *)
  Theorem C12_everyone_answered u ops i r : a_phase (arun u ops).1 = PDone ->
    (i, r) ∈ accepted (arun u ops).2 -> awaits r = true -> count (is_outcome i) (arun u ops).2 = 1.
  Proof. exact (done_outcome started handler tracked u ops i r). Qed.

  (** Stopped before handling: an error, never somebody else's result. *)
  Theorem C12_unhandled_gets_error u ops i m : a_phase (arun u ops).1 = PDone ->
    (i, RUser m true) ∈ accepted (arun u ops).2 -> i ∉ handled (arun u ops).2 ->
    EDiscarded i ∈ (arun u ops).2 /\ forall r, EReply i r ∉ (arun u ops).2.
  Proof. exact (unhandled_discarded started handler tracked u ops i m). Qed.

  Theorem C12_stopped_refuses u ops r : a_phase (arun u ops).1 = PDone ->
    arun u (ops ++ [OSend r]) = ((arun u ops).1, (arun u ops).2 ++ [ERefused r]).
  Proof.
    intros H. rewrite run_concat_snoc. destruct (arun u ops) as [a tr]. simpl in *. unfold send. by rewrite H.
  Qed.

  (** * C13: lifecycle *)

  Theorem C13_lifecycle_order u ops tr1 e tr2 : (arun u ops).2 = tr1 ++ e :: tr2 ->
    match e with
    | EStartedHook => EStartedHook ∉ tr1 /\ EStartedHook ∉ tr2 /\ handled tr1 = []
    | EStartReported => EStartedHook ∈ tr1
    | EHandled _ => EStartedHook ∈ tr1 /\ EStartReported ∈ tr1
    | EStoppedHook => EStartedHook ∈ tr1 /\ EStoppedHook ∉ tr1 /\ EStoppedHook ∉ tr2 /\ handled tr2 = []
    | EStopAnswered _ | ETold _ | EDeregistered => EStoppedHook ∈ tr1
    | _ => True
    end.
  Proof. exact (lifecycle_order started handler tracked u ops tr1 e tr2). Qed.

  (** An actor that ended without a panic ran its stopped hook, once, after the last message. *)
  Theorem C13_stopped_once u ops : a_phase (arun u ops).1 = PDone -> ECrashed ∉ (arun u ops).2 ->
    exists tr1 tr2, (arun u ops).2 = tr1 ++ EStoppedHook :: tr2 /\
      EStoppedHook ∉ tr1 /\ EStoppedHook ∉ tr2 /\ handled tr2 = [].
  Proof. exact (stopped_once started handler tracked u ops). Qed.

  Theorem C13_creation_outcome u ops : a_phase (arun u ops).1 = PDone ->
    (EStartReported ∈ (arun u ops).2 /\ EStartFailed ∉ (arun u ops).2) \/
    (EStartReported ∉ (arun u ops).2 /\ EStartFailed ∈ (arun u ops).2).
  Proof. exact (creation_outcome started handler tracked u ops). Qed.

  Theorem C13_stop_during_start u ops : (started u).2 <> Continue ->
    handled (arun u ops).2 = [] /\ EStartReported ∉ (arun u ops).2 /\
    (a_phase (arun u ops).1 = PDone -> EStartFailed ∈ (arun u ops).2).
  Proof. exact (stop_during_start started handler tracked u ops). Qed.

  (** A stop that was accepted takes effect, and the caller hears of it. *)
  Theorem C13_stop_completes u ops n i ans : (i, RStop ans) ∈ accepted (arun u ops).2 ->
    length (accepted (arun u ops).2) + 3 < n -> a_phase (arun u (ops ++ repeat OTick n)).1 = PDone.
  Proof. exact (stop_completes started handler tracked u ops n i ans). Qed.

  Theorem C13_stop_answered u ops i : a_phase (arun u ops).1 = PDone -> (i, RStop true) ∈ accepted (arun u ops).2 ->
    EStopAnswered i ∈ (arun u ops).2 \/ EDiscarded i ∈ (arun u ops).2.
  Proof. exact (stop_answered started handler tracked u ops i). Qed.

  (** * C14: watchers *)

  (** Missing from the property: watchers of an actor that panics, watchers that share an
      actor id, and watch requests still queued when the actor stops. *)
  Theorem C14_watchers_partial u ops w id :
    let l := map snd (take (length (handled (arun u ops).2)) (accepted (arun u ops).2)) in
    owns_id w id l -> a_phase (arun u ops).1 = PDone -> ECrashed ∉ (arun u ops).2 ->
    count (is_told w) (arun u ops).2 = if watching w id l then 1 else 0.
  Proof.
    intros l Ho Hd Hc. pose proof (winv_run started handler tracked u ops) as H. unfold winv in H. rewrite Hd in H.
    destruct H as [[? _]|H]; [done|]. rewrite H. by apply told_spec.
  Qed.

  (** Nobody is told of a stop that has not happened. *)
  Theorem C14_not_told_early u ops w : EStoppedHook ∉ (arun u ops).2 -> ETold w ∉ (arun u ops).2.
  Proof.
    intros Hs Ht. apply elem_of_list_split in Ht as (t1 & t2 & E).
    pose proof (lifecycle_order started handler tracked u ops t1 _ t2 E) as H. simpl in H. apply Hs. rewrite E.
    apply elem_of_app. by left.
  Qed.
End props.
Print Assumptions C11_mailbox_order.
Print Assumptions C11_mailbox_complete.
Print Assumptions C12_results.
Print Assumptions C12_one_outcome.
Print Assumptions C12_everyone_answered.
Print Assumptions C12_unhandled_gets_error.
Print Assumptions C12_stopped_refuses.
Print Assumptions C13_lifecycle_order.
Print Assumptions C13_stopped_once.
Print Assumptions C13_creation_outcome.
Print Assumptions C13_stop_during_start.
Print Assumptions C13_stop_completes.
Print Assumptions C13_stop_answered.
Print Assumptions C14_watchers_partial.
Print Assumptions C14_not_told_early.

(** The example: five requests handled, one discarded, one refused; the watcher is told. *)
Example C11_C14_example :
  (Actor_Model.arun ex_started ex_handler true 0 ex_ops).2 =
  [EAccepted 0 (RUser 5 true); EStartedHook; EStartReported; EAccepted 1 (RWatch "w" 7); EAccepted 2 RStatus;
   EHandled 0; EReply 0 6; EAccepted 3 (RUser 6 false); EHandled 1; EHandled 2; EStatusReply 2 Started;
   EAccepted 4 (RUser 8 true); EHandled 3; EHandled 4; EReply 4 20; EAccepted 5 (RStop true);
   EAccepted 6 (RUser 9 true); EHandled 5; EStoppedHook; EDeregistered; EStopAnswered 5; ETold 7; EDiscarded 6;
   ERefused (RUser 1 true)].
Proof. vm_compute. reflexivity. Qed.

Example C14_example_hypotheses :
  let r := Actor_Model.arun ex_started ex_handler true 0 ex_ops in
  let l := map snd (take (length (handled r.2)) (accepted r.2)) in
  owns_id 7 "w" l /\ a_phase r.1 = PDone /\ watching 7 "w" l = true /\ count (is_told 7) r.2 = 1.
Proof.
  vm_compute. split_and!; try reflexivity. intros id' w' H.
  repeat (destruct H as [H|H]; [try discriminate H; injection H as <- <-; done|]). destruct H.
Qed.

Example C11_example_complete :
  let ops := [OSend (RUser 5 true); OSend (RUser 6 false); OSend RStatus] in
  a_phase (Actor_Model.arun ex_started ex_handler true 0 (ops ++ repeat OTick 4)).1 = PRunning.
Proof. vm_compute. reflexivity. Qed.

Example C13_example_start_failed :
  (Actor_Model.arun (fun u => (u, StopSelf)) ex_handler false 0
     [OSend (RUser 5 true); OTick; OTick; OTick; OTick]).2 =
  [EAccepted 0 (RUser 5 true); EStartedHook; EStoppedHook; EDiscarded 0; EStartFailed].
Proof. vm_compute. reflexivity. Qed.

(** C14 is false of the code: a watcher hears nothing of an actor that panics, *)
Theorem C14_panic_refuted :
  exists (ops : list (op nat)) w id,
    let r := Actor_Model.arun ex_started ex_handler true 0 ops in
    let l := map snd (take (length (handled r.2)) (accepted r.2)) in
    owns_id w id l /\ a_phase r.1 = PDone /\ watching w id l = true /\ ETold w ∉ r.2.
Proof.
  exists [OTick; OSend (RWatch "w" 7); OTick; OSend (RUser 1000 false); OTick], 7, "w".
  vm_compute. split_and!; try reflexivity.
  - intros id' w' H. repeat (destruct H as [H|H]; [try discriminate H; injection H as <- <-; done|]). destruct H.
  - intros H. repeat (apply elem_of_cons in H as [H|H]; [discriminate H|]). by apply elem_of_nil in H.
Qed.
Print Assumptions C14_panic_refuted.

(** nor of two watchers with the same actor id (ids need not be unique) the first one, *)
Theorem C14_shared_id_refuted :
  exists (ops : list (op nat)),
    let r := Actor_Model.arun ex_started ex_handler true 0 ops in
    let l := map snd (take (length (handled r.2)) (accepted r.2)) in
    l = [RWatch "w" 7; RWatch "w" 8; RStop false] /\ a_phase r.1 = PDone /\ ETold 7 ∉ r.2 /\ ETold 8 ∈ r.2.
Proof.
  exists [OTick; OSend (RWatch "w" 7); OSend (RWatch "w" 8); OSend (RStop false); OTick; OTick; OTick; OTick; OTick; OTick].
  vm_compute. split_and!; try reflexivity.
  - intros H. repeat (apply elem_of_cons in H as [H|H]; [discriminate H|]). by apply elem_of_nil in H.
  - apply elem_of_list_In. simpl. tauto.
Qed.
Print Assumptions C14_shared_id_refuted.

(** nor a watcher whose (accepted) request is in the mailbox when the actor stops. *)
Theorem C14_queued_watch_refuted :
  exists (ops : list (op nat)),
    let r := Actor_Model.arun ex_started ex_handler true 0 ops in
    accepted r.2 = [(0, RStop false); (1, RWatch "w" 7)] /\ a_phase r.1 = PDone /\ ECrashed ∉ r.2 /\ ETold 7 ∉ r.2.
Proof.
  exists [OTick; OSend (RStop false); OSend (RWatch "w" 7); OTick; OTick; OTick; OTick].
  vm_compute. split_and!; try reflexivity;
    intros H; repeat (apply elem_of_cons in H as [H|H]; [discriminate H|]); by apply elem_of_nil in H.
Qed.
Print Assumptions C14_queued_watch_refuted.
