(** Property C103: the blocking api. *)
From Verif Require Import Actor_Model Actor_Spec ActorSys_Model Blocking_Model Blocking_Spec Blocking_Proofs Blocking_Proofs2.
Local Open Scope nat_scope.
Local Open Scope list_scope.

(** An example: an actor that counts; three threads, one of them runs async code. *)
Definition bk_started (u : nat) : nat * effect := (u, Continue).
Definition bk_handler (u m : nat) : nat * nat * effect := (u + m, u + m, Continue).
Definition bk_progs : gmap nat (place * list (style * ask nat)) :=
  {[ 0 := (Outside, [(Block, AMsg 1); (Block, AStatus); (Block, AStop); (Block, AMsg 9)]);
     1 := (WithRuntime, [(Block, AMsg 2)]);
     2 := (InTask, [(Block, AMsg 4); (Block, AMsg 4)]) ]}.
Definition bk_run := brun bk_started bk_handler true 0.
Definition bk_ops : list bop :=
  [BThread 1; BThread 0; BTick; BThread 0; BTick; BThread 2; BThread 1; BTick; BThread 0; BTick; BThread 0; BTick; BThread 0; BThread 0;
   BTick; BTick; BTick; BTick; BThread 0; BThread 0; BThread 2; BTick].

Section props.
  Context {St Msg Res : Type}.
  Context (started : St -> St * effect) (handler : St -> Msg -> St * Res * effect) (tracked : bool).
  Notation brun := (brun started handler tracked).

  (** What the calls of a thread return, in the order of its program, is what was answered to
      requests of their own, or the error of a refused one. *)
  Theorem C103_own_answers u (progs : gmap nat (place * list (style * ask Msg))) ops t th p res :
    b_threads (brun u progs ops) !! t = Some th -> th_results th !! p = Some res ->
    exists pl prog st a, progs !! t = Some (pl, prog) /\ prog !! p = Some (st, a) /\ returned a res (b_trace (brun u progs ops)).
  Proof. exact (own_answer started handler tracked u progs ops t th p res). Qed.

  (** A value is the result of the handler on this message, after all messages accepted before it. *)
  Theorem C103_values u (progs : gmap nat (place * list (style * ask Msg))) ops t th p r :
    b_threads (brun u progs ops) !! t = Some th -> th_results th !! p = Some (Value r) ->
    let tr := b_trace (brun u progs ops) in
    exists pl prog st m i, progs !! t = Some (pl, prog) /\ prog !! p = Some (st, AMsg m) /\
      (i, RUser m true) ∈ accepted tr /\ (i, r) ∈ answers handler (started u).1 (take (length (handled tr)) (accepted tr)).
  Proof. exact (own_value started handler tracked u progs ops t th p r). Qed.

  (** The calls of a thread are accepted, and so handled, in the order in which it makes them. *)
  Theorem C103_order u (progs : gmap nat (place * list (style * ask Msg))) ops t th :
    b_threads (brun u progs ops) !! t = Some th -> StronglySorted lt (numbers th).
  Proof. exact (in_order started handler tracked u progs ops t th). Qed.

  (** Every call returns, if it did not panic, once the actor has had time for what it accepted. *)
  Theorem C103_returns_partial u (progs : gmap nat (place * list (style * ask Msg))) ops n t th :
    length (accepted (b_trace (brun u progs ops))) + 3 < n ->
    b_threads (brun u progs ops) !! t = Some th -> th_panicked th = false -> length (th_results th) <> length (th_made th) ->
    exists th', b_threads (brun u progs (ops ++ repeat BTick n ++ [BThread t])) !! t = Some th' /\
      length (th_results th') = length (th_made th') /\ th_made th' = th_made th.
  Proof. exact (all_return started handler tracked u progs ops n t th). Qed.

  (** Outside of async code it makes no difference which calls of which threads block. *)
  Theorem C103_same_partial u f (progs : gmap nat (place * list (style * ask Msg))) ops :
    (forall t x, progs !! t = Some x -> x.1 <> InTask) ->
    let s1 := brun u progs ops in let s2 := brun u (restyle f <$> progs) ops in
    b_actor s1 = b_actor s2 /\ b_trace s1 = b_trace s2 /\
    forall t, th_results <$> b_threads s1 !! t = th_results <$> b_threads s2 !! t.
  Proof.
    intros H. destruct (same_style started handler tracked u f progs ops H) as (H1 & H2 & H3). split; [done|]. split; [done|].
    intros t. destruct (H3 t) as [x y (_ & _ & E & _)|]; [|done]. simpl. by rewrite E.
  Qed.

  (** In async code a blocking call panics, always and for good, but only after the message has
      been accepted: the actor handles it all the same. *)
  Theorem C103_async_refuted u (progs : gmap nat (place * list (style * ask Msg))) ops t th a todo :
    b_threads (brun u progs ops) !! t = Some th -> th_place th = InTask -> th_panicked th = false ->
    length (th_results th) = length (th_made th) ->
    th_todo th = (Block, a) :: todo -> a_phase (b_actor (brun u progs ops)) <> PDone ->
    let s := brun u progs (ops ++ [BThread t]) in let i := a_next (b_actor (brun u progs ops)) in
    b_trace s = b_trace (brun u progs ops) ++ [EAccepted i (to_request a)] /\
    forall ops', exists th', b_threads (brun u progs (ops ++ [BThread t] ++ ops')) !! t = Some th' /\
      th_panicked th' = true /\ th_made th' = th_made th ++ [(a, Some i)] /\ th_results th' = th_results th.
  Proof. exact (panics_after started handler tracked u progs ops t th a todo). Qed.
End props.
Print Assumptions C103_own_answers.
Print Assumptions C103_values.
Print Assumptions C103_order.
Print Assumptions C103_returns_partial.
Print Assumptions C103_same_partial.
Print Assumptions C103_async_refuted.

(** A tracked actor created on a thread that has a runtime is found under its id when the scheduler
    has handled its messages; in async code too, where the call panics and nobody gets the actor. *)
Theorem C103_created ops id p : p <> Outside ->
  let '(s, c) := create_blocking p true id (grun ops).1 in
  let n := length (g_mail s) in
  let s' := fold_left (fun s o => (gstep s o).1) (repeat GOProcess n) s in
  c = (match p with InTask => PanicStarted | _ => WaitStart end) (g_next (grun ops).1) /\
  g_map s' !! id = Some (g_next (grun ops).1) /\
  g_actors s' !! g_next (grun ops).1 = Some (TActor id true true).
Proof.
  intros Hp. assert (Hc : cannot_spawn p = false) by (by destruct p). pose proof (create_registered p id (grun ops).1 Hc) as H.
  destruct (create_blocking p true id (grun ops).1) as [s c] eqn:E. cbn [fst] in H. split; [|exact H].
  unfold create_blocking in E. rewrite Hc in E. simplify_eq. by destruct p.
Qed.
Print Assumptions C103_created.

(** So the failure of a creation does not mean that there is no such actor. *)
Theorem C103_orphan_refuted : exists ops id p s r,
  create_blocking p true id (grun ops).1 = (s, PanicStarted r) /\
  g_map (fold_left (fun s o => (gstep s o).1) [GOProcess] s) !! id = Some r.
Proof. exists [], "a"%string, InTask. eexists _, _. split; [reflexivity|]. vm_compute. done. Qed.
Print Assumptions C103_orphan_refuted.

(** Without a runtime no actor can be created. *)
Example C103_outside_case tracked id s : create_blocking Outside tracked id s = (s, PanicNothing).
Proof. done. Qed.

(** The example: the first thread's calls give 3, the status, a stop and an error; the second's 2;
    the third panics in its first call, whose message is handled (the sum is 7). *)
Example C103_example :
  let s := bk_run bk_progs bk_ops in
  th_results <$> b_threads s !! 0 = Some [Value 3; StatusIs Started; IsStopped; InvalidRef] /\
  th_results <$> b_threads s !! 1 = Some [Value 2] /\
  th_results <$> b_threads s !! 2 = Some [] /\ th_panicked <$> b_threads s !! 2 = Some true /\
  a_user (b_actor s) = 7.
Proof. vm_compute. done. Qed.

(** The hypotheses of [C103_async_refuted] and of [C103_returns_partial] are met. *)
Example C103_async_case :
  let s := bk_run bk_progs (take 5 bk_ops) in
  a_phase (b_actor s) <> PDone /\
  (exists th, b_threads s !! 2 = Some th /\ th_place th = InTask /\ th_panicked th = false /\ length (th_results th) = length (th_made th) /\
     th_todo th = [(Block, AMsg 4); (Block, AMsg 4)]) /\
  (exists th, b_threads s !! 0 = Some th /\ th_panicked th = false /\ length (th_results th) <> length (th_made th)).
Proof. vm_compute. split; [done|]. split; eexists; (split; [reflexivity|]); split_and!; done. Qed.
