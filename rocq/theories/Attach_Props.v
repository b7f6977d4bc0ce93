(** Property C102: streams attached to an actor. *)
From Verif Require Import Actor_Model Actor_Spec Actor_Proofs Attach_Model Attach_Spec Attach_Proofs Attach_Proofs2 Attach_Proofs3.
Local Open Scope nat_scope.
Local Open Scope list_scope.

(** An example: an actor that adds up what it is sent, and streams of numbers of which only the
    even ones can be converted. *)
Definition at_started (u : nat) : nat * effect := (u, Continue).
Definition at_handler (u m : nat) : nat * nat * effect := (u + m, u + m, Continue).
Definition at_conv (k x : nat) : option nat := if Nat.even x then Some (10 * x) else None.
Definition at_run := wrun at_started at_handler true at_conv default_options 0.
(** Stream 0 gives 2, 3, 4 and ends; stream 1 gives 6 and stays open; somebody else sends 1. *)
Definition at_ops : list (wop nat nat) :=
  [WArrive 0 (SOk 2); WPull 0; WTick; WArrive 1 (SOk 6); WArrive 0 (SOk 3); WPull 0; WSend (RUser 1 true); WPull 1;
   WArrive 0 (SOk 4); WEnd 0; WTick; WTick].

Section props.
  Context {St Msg Res R : Type}.
  Context (started : St -> St * effect) (handler : St -> Msg -> St * Res * effect) (tracked : bool).
  Context (conv : nat -> R -> option Msg).
  Notation wrun := (wrun started handler tracked conv default_options).

  (** Whatever the streams, the other callers and the actor do: what the actor handles of a stream
      is a prefix of its elements, converted, in order, none twice, and a stop comes last. *)
  Theorem C102_order_partial k u ops :
    stream_handled k (wrun u ops).2 `prefix_of` expected (conv k) (given k ops).1 (given k ops).2.
  Proof. exact (handled_prefix started handler tracked conv k u ops). Qed.

  (** Nothing is left out: the task passes on every element that became available. *)
  Theorem C102_passed_on k u ops n : length (given k ops).1 < n ->
    calls k (wrun u (ops ++ repeat (WPull k) n)).2 = expected (conv k) (given k ops).1 (given k ops).2.
  Proof. intros H. apply calls_all. lia. Qed.

  (** All elements of a stream that ends are handled, and then the actor stops, if nothing else
      stops it. *)
  Theorem C102_complete_partial u k ops n t :
    (started u).2 = Continue -> (forall s m, (handler s m).2 = Continue) ->
    no_stop ops -> (forall j, j <> k -> finished (given j ops) = false) ->
    finished (given k ops) = true -> length (given k ops).1 < n ->
    length (accepted (map snd (wrun u (ops ++ repeat (WPull k) n)).2)) + 3 < t ->
    let x := wrun u (ops ++ repeat (WPull k) n ++ repeat WTick t) in
    a_phase (w_actor x.1) = PDone /\ stream_handled k x.2 = expected (conv k) (given k ops).1 (given k ops).2.
  Proof. intros H1 H2 H3 H4 H5 H6 H7. apply handled_all; try done. Qed.

  (** A stream that neither ends nor fails does not stop the actor. *)
  Theorem C102_open k u ops : finished (given k ops) = false ->
    Forall (fun r => is_stop r = false) (calls k (wrun u ops).2).
  Proof.
    intros H. apply Forall_forall. intros r Hr.
    assert (He : r ∈ expected (conv k) (given k ops).1 (given k ops).2).
    { destruct (calls_prefix started handler tracked conv k u ops) as [l ->]. apply elem_of_app. by left. }
    destruct (expected_kinds _ _ _ _ He) as [->|[m ->]]; [|done].
    apply expected_stop in He. rewrite <- surjective_pairing in He. congruence.
  Qed.

  (** An actor cannot tell that its stream failed: nothing that can be observed changes if all
      errors are taken for the end of their streams. *)
  Theorem C102_failure_refuted u ops :
    (wrun u ops).2 = (wrun u (map (fun o => match o with WArrive k SErr => WEnd k | _ => o end) ops)).2.
  Proof. exact (errors_silent started handler tracked conv u ops). Qed.

  (** A stream whose actor has ended is not let go: however much it gives, it is all read, and
      the task does not end. *)
  Theorem C102_release_refuted k u ops l : a_phase (w_actor (wrun u ops).1) = PDone ->
    let s := stream_at k (wrun u ops).1 in st_items s = [] -> st_closed s = false -> st_over s = false ->
    let x := wrun u (ops ++ flat_map (fun y => [WArrive k (SOk y); WPull k]) l) in
    x.2 = (wrun u ops).2 ++ omap (fun y => (fun m => (Some k, ERefused (RUser m false))) <$> conv k y) l /\
    st_over (stream_at k x.1) = false.
  Proof. exact (read_on started handler tracked conv k u ops l). Qed.
End props.
Print Assumptions C102_order_partial.
Print Assumptions C102_passed_on.
Print Assumptions C102_complete_partial.
Print Assumptions C102_open.
Print Assumptions C102_failure_refuted.
Print Assumptions C102_release_refuted.

(** The end of one stream loses the elements of another one, which is still open: the option that
    would keep the actor can not be set. *)
Theorem C102_others_refuted : exists ops : list (wop nat nat),
  let x := at_run ops in
  no_stop ops /\ finished (given 1 ops) = false /\
  expected (at_conv 1) (given 1 ops).1 (given 1 ops).2 = [RUser 60 false; RUser 80 false] /\
  a_phase (w_actor x.1) = PDone /\ stream_handled 1 x.2 = [RUser 60 false] /\
  calls 1 x.2 = [RUser 60 false; RUser 80 false].
Proof.
  exists (at_ops ++ repeat (WPull 0) 4 ++ [WArrive 1 (SOk 8); WPull 1] ++ repeat WTick 9). split.
  { intros a Ha. rewrite elem_of_list_In in Ha. simpl in Ha. repeat destruct Ha as [Ha|Ha]; try done. }
  vm_compute. done.
Qed.
Print Assumptions C102_others_refuted.

(** The hypotheses of [C102_complete_partial] are met, and this is what it says of the example. *)
Example C102_example :
  no_stop at_ops /\ (forall j, j <> 0 -> finished (given j at_ops) = false) /\ finished (given 0 at_ops) = true /\
  given 0 at_ops = ([SOk 2; SOk 3; SOk 4], true) /\
  (let x := at_run (at_ops ++ repeat (WPull 0) 4 ++ repeat WTick 9) in
   a_phase (w_actor x.1) = PDone /\ stream_handled 0 x.2 = [RUser 20 false; RUser 40 false; RStop false] /\
   stream_handled 1 x.2 = [RUser 60 false]).
Proof.
  split_and!; [| |done|done|vm_compute; done].
  - intros a Ha. rewrite elem_of_list_In in Ha. simpl in Ha. repeat destruct Ha as [Ha|Ha]; try done.
  - intros j Hj. unfold finished. simpl. destruct (decide (0 = j)) as [<-|]; [done|]. by destruct (decide (1 = j)).
Qed.

(** A failure after the first element: the second is lost and the actor stops. *)
Example C102_error_example :
  (at_run [WTick; WArrive 0 (SOk 2); WArrive 0 SErr; WArrive 0 (SOk 4); WPull 0; WPull 0; WPull 0; WTick; WTick; WTick; WTick; WTick]).2 =
  [(None, EStartedHook); (None, EStartReported); (Some 0, EAccepted 0 (RUser 20 false)); (Some 0, EAccepted 1 (RStop false));
   (None, EHandled 0); (None, EHandled 1); (None, EStoppedHook); (None, EDeregistered)].
Proof. vm_compute. done. Qed.

(** A stream that outlives its actor. *)
Example C102_release_example :
  let ops := [WTick; WArrive 0 (SOk 2); WPull 0; WSend (RStop false); WTick; WTick; WTick; WTick; WTick] : list (wop nat nat) in
  let s := stream_at 0 (at_run ops).1 in
  a_phase (w_actor (at_run ops).1) = PDone /\ st_items s = [] /\ st_closed s = false /\ st_over s = false.
Proof. vm_compute. done. Qed.
