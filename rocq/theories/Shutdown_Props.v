(** Property C61: shutting down an actor system. *)
From Verif Require Import Shutdown_Model Shutdown_Spec Shutdown_Proofs Shutdown_Progress.
Local Open Scope string_scope.
Local Open Scope list_scope.

(** Once [shutdown] has returned, every tracked actor whose creation returned and that did not
    share its id has stopped, in every interleaving. *)
Theorem C61_all_stopped_partial ops r id :
  YReturned ∈ (yrun ops).2 -> YRegistered r id ∈ (yrun ops).2 -> only_one r id (yrun ops).2 -> stopped r (yrun ops).2.
Proof.
  intros Hr Hreg Ho. pose proof (I_run ops) as HI.
  apply (i_done _ _ HI r id); [|done|done]. by apply (i_ret _ _ HI).
Qed.
Print Assumptions C61_all_stopped_partial.

(** An actor that ends answers those who asked it to stop only after its hook has run. *)
Theorem C61_hook_first ops r a : y_actors (yrun ops).1 !! r = Some a -> a_phase a = AEnded -> stopped r (yrun ops).2.
Proof. intros Ha Hp. apply (i_late _ _ (I_run ops) r a Ha). by rewrite Hp. Qed.
Print Assumptions C61_hook_first.

(** If nobody asks the scheduler anything while stopping and nobody is about to deregister when
    [shutdown] begins, [shutdown] returns: the steps that are left are bounded, and when none is
    possible any more it has returned. *)
Theorem C61_returns_partial ops : calm ops -> shutdown_asked (yrun ops).1 ->
  exists n, forall ops', effective_run (yrun ops).1 ops' ->
    length ops' <= n /\
    ((forall o, ~ effective (yrun_from (yrun ops).1 ops').1 o) -> YReturned ∈ (yrun (ops ++ ops')).2).
Proof.
  intros Hc Hs. pose proof (P_run ops Hc) as HP. exists (bound (yrun ops).1). intros ops' He. split.
  - by apply effective_bound.
  - intros Hstuck. apply done_returned. pose proof (returns _ _ HP Hs He Hstuck) as H.
    rewrite yrun_app. destruct (yrun_from _ ops') as [y' tr]. exact H.
Qed.
Print Assumptions C61_returns_partial.

(** Two registered actors, one with a message left, and one anonymous actor that stops. *)
Definition C61_ops : list yop :=
  [OCreate "a" true false; ORegister 0; OSched; OCreate "b" true false; ORegister 1; OSched; OCreate "c" false false;
   OSend 0 RDone; OStop 2; OFlag; OShutdown].
Definition C61_rest : list yop :=
  [OActor 2; OSched; OActor 0; OActor 0; OActor 1; OActor 1; OActor 1; OActor 1; OActor 0; OActor 0; OActor 0;
   OActor 2; OActor 2; OActor 2; OSched].
Example C61_calm_example : calm C61_ops.
Proof.
  split.
  - intros o Ho. unfold C61_ops in Ho. repeat (apply elem_of_cons in Ho as [->|Ho]; [done|]). by apply elem_of_nil in Ho.
  - intros pre post E r a Ha.
    assert (pre = take 9 C61_ops) as ->.
    { assert (length pre = 9) as Hl.
      { destruct (decide (length pre = 9)) as [|Hne]; [done|]. exfalso.
        assert (C61_ops !! length pre = Some OFlag) as Hl by (rewrite E; by apply list_lookup_middle).
        destruct (length pre) as [|[|[|[|[|[|[|[|[|[|[|n]]]]]]]]]]]; done. }
      rewrite E, <-Hl. by rewrite take_app. }
    assert (forall x, x ∈ (map_to_list (y_actors (yrun (take 9 C61_ops)).1)) -> a_phase x.2 = ALoop) as Hall.
    { apply Forall_forall. vm_compute. by repeat constructor. }
    apply elem_of_map_to_list in Ha. apply Hall in Ha. simpl in Ha. congruence.
Qed.
Example C61_returns_example :
  shutdown_asked (yrun C61_ops).1 /\
  (yrun (C61_ops ++ C61_rest)).2 =
    [YCreated 0 "a" true; YRegistered 0 "a"; YCreated 1 "b" true; YRegistered 1 "b"; YCreated 2 "c" false;
     YHook 1; YEnded 1; YHook 0; YEnded 0; YHook 2; YEnded 2; YReturned].
Proof. split; [left; vm_compute; by left|]. vm_compute. reflexivity. Qed.

(** Everything after this [shutdown] is in vain. *)
Definition never_returns (ops : list yop) : Prop :=
  OShutdown ∈ ops /\ forall ops', YReturned ∉ (yrun (ops ++ ops')).2.

(** In every run: a registered actor that waits for the scheduler when the scheduler stops makes
    [shutdown] wait for ever. *)
Theorem C61_deadlock_refuted ops l r a :
  YReturned ∉ (yrun ops).2 ->
  y_sched (yrun ops).1 = GStopping l -> r ∈ l -> y_actors (yrun ops).1 !! r = Some a ->
  a_phase a = AAsks \/ a_phase a = AHookAsks \/ a_phase a = AWaits ->
  forall ops', YReturned ∉ (yrun (ops ++ ops')).2.
Proof.
  intros Hn Hs Hl Ha Hp ops'. apply deadlock_forever; [|done].
  exists l, r, a. split_and!; try done. by apply (i_next _ _ (I_run ops) r a).
Qed.
Print Assumptions C61_deadlock_refuted.

Ltac deadlock r :=
  split; [apply elem_of_list_In; simpl; tauto|]; intros ops';
  eapply (C61_deadlock_refuted _ _ r);
  [ vm_compute; intros Hx; repeat (apply elem_of_cons in Hx as [Hx|Hx]; [discriminate Hx|]); by apply elem_of_nil in Hx
  | vm_compute; reflexivity | by left | vm_compute; reflexivity | auto ].

(** A queued message whose handler looks up an actor is enough. *)
Theorem C61_lookup_refuted : never_returns
  [OCreate "a" true false; ORegister 0; OSched; OSend 0 RAsk; OFlag; OShutdown; OSched; OActor 0].
Proof. deadlock 0. Qed.
Print Assumptions C61_lookup_refuted.
(** So is a [stopped] hook that does. *)
Theorem C61_hook_lookup_refuted : never_returns
  [OCreate "a" true true; ORegister 0; OSched; OFlag; OShutdown; OSched; OActor 0; OActor 0].
Proof. deadlock 0. Qed.
Print Assumptions C61_hook_lookup_refuted.
(** And an actor that stops by itself at that moment. *)
Theorem C61_race_refuted : never_returns
  [OCreate "a" true false; ORegister 0; OSched; OSend 0 RStop; OActor 0; OActor 0; OActor 0; OFlag; OShutdown; OActor 0; OSched].
Proof. deadlock 0. Qed.
Print Assumptions C61_race_refuted.

#[local] Instance yevent_eq_dec : EqDecision yevent.
Proof. solve_decision. Defined.

(** Who is still running when [shutdown] has returned. *)
Definition survives (ops : list yop) (r : nat) : bool :=
  match y_actors (yrun ops).1 !! r with Some a => bool_decide (a_phase a = ALoop) | None => false end &&
  bool_decide (last (yrun ops).2 = Some YReturned).

(** An actor whose id was used again; an anonymous one; one created while the system shuts down. *)
Theorem C61_survivors_refuted :
  survives [OCreate "a" true false; ORegister 0; OSched; OCreate "a" true false; ORegister 1; OSched; OFlag; OShutdown; OSched;
            OActor 1; OActor 1; OActor 1; OActor 1; OSched] 0 = true /\
  survives [OCreate "a" false false; OFlag; OShutdown; OSched; OSched] 0 = true /\
  survives [OFlag; OShutdown; OCreate "a" true false; ORegister 0; OSched; OSched] 0 = true.
Proof. by vm_compute. Qed.
Print Assumptions C61_survivors_refuted.
