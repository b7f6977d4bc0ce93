(** Properties C46, C49 and the last step of C48: the shards of a cluster. *)
From Verif Require Import ShardSys_Model ShardSys_Spec Host_Spec ShardSys_Proofs ShardSys_Stop.
Local Open Scope string_scope.
Local Open Scope list_scope.
Local Open Scope N_scope.

(** Tests of [orderly] for the examples. *)
Section test.
Context {R : Type}.
Implicit Types (y : sys R).
Definition settledb y (n s : N) : bool :=
  forallb (fun p => match ctl_packet p with Some s' => negb (s' =? s) | None => true end) (y_net y) &&
  match y_hosts y !! n with
  | Some h => match sh_hosted h !! s with Some (HReady _) => true | _ => false end
  | None => true
  end.
Definition namesb (n : N) (p : packet R) : bool :=
  match p with PSend _ (MAllocated _ o) | PMail _ (MAllocated _ o) => o =? n | _ => false end.
Definition orderlyb y (o : yop R) : bool :=
  match o with
  | YCoord (CONodeUnavailable n _ _) =>
      match y_hosts y !! n with None => true | Some _ => false end && forallb (fun p => negb (namesb n p)) (y_net y)
  | YCoord o =>
      match cstep (y_coord y) o with
      | Some (_, eff) => forallb (fun e => match e with CStop s n => settledb y n s | _ => true end) eff
      | None => true
      end
  | YPick i _ _ =>
      match y_net y !! i with Some (PAsk _ s) => forallb (fun p => negb (moving_packet s p)) (y_net y) | _ => true end
  | _ => true
  end.
Fixpoint orderly_runb y (l : list (yop R)) : bool :=
  match l with [] => true | o :: l' => orderlyb y o && orderly_runb (ystep y o) l' end.

Lemma settledb_ok y n s : settledb y n s = true -> settled y n s.
Proof using.
  intros [H1 H2]%andb_true_iff. rewrite forallb_forall in H1. split.
  - intros p Hp%elem_of_list_In E. specialize (H1 p Hp). rewrite E, N.eqb_refl in H1. done.
  - intros h Hh. rewrite Hh in H2. destruct (sh_hosted h !! s) as [[]|]; try done. eauto.
Qed.
Lemma orderlyb_ok y o : orderlyb y o = true -> orderly y o.
Proof using.
  assert (Hc : forall o, match cstep (y_coord y) o with
      | Some (_, eff) => forallb (fun e => match e with CStop s n => settledb y n s | _ => true end) eff
      | None => true
      end = true -> forall c eff s n, cstep (y_coord y) o = Some (c, eff) -> CStop s n ∈ eff -> settled y n s).
  { intros o' H c eff s n E Hin%elem_of_list_In. rewrite E, forallb_forall in H. by apply settledb_ok, (H (CStop s n)). }
  destruct o as [o|i ps ord|n|n s0 a|n s0 r|n]; simpl; try done.
  - destruct o; try (intros H; by apply Hc). intros [H1 H2]%andb_true_iff. split; [by destruct (y_hosts y !! n)|].
    rewrite forallb_forall in H2. intros s [t [Hp|Hp]]; apply elem_of_list_In, H2 in Hp; simpl in Hp; by rewrite N.eqb_refl in Hp.
  - intros H n s E. rewrite E, forallb_forall in H. intros (p & Hp%elem_of_list_In & Hm). specialize (H p Hp). by rewrite Hm in H.
Qed.
Lemma orderly_runb_ok l : forall y, orderly_runb y l = true -> orderly_run y l.
Proof using.
  induction l as [|o l IH]; intros y; simpl; [done|]. intros [H1 H2]%andb_true_iff. split; [by apply orderlyb_ok|by apply IH].
Qed.
End test.

(** * C46 *)

(** In orderly runs there is never more than one actor of a shard in the whole cluster.
    Orderly: the coordinator moves a shard only when nothing about it is under way; nobody
    asks for the allocation of a shard that is being moved; only dead nodes are declared
    unavailable, after the news that they own shards has arrived or was lost. *)
Theorem C46_one_node_partial {R} self nodes (l : list (yop R)) n1 n2 s a1 a2 f1 f2 :
  orderly_run (sys_init self nodes) l ->
  (n1, s, a1, f1) ∈ y_live (yrun (sys_init self nodes) l) ->
  (n2, s, a2, f2) ∈ y_live (yrun (sys_init self nodes) l) -> n1 = n2 /\ a1 = a2.
Proof. intros Hl. apply one_actor. by apply yrun_inv; [apply sys_init_inv|]. Qed.
Print Assumptions C46_one_node_partial.

(** In orderly runs a shard that is moved is not running anywhere when its new node is chosen. *)
Theorem C46_moved_stopped_partial {R} self nodes (l : list (yop R)) n s :
  orderly_run (sys_init self nodes) l ->
  stop_answered (yrun (sys_init self nodes) l) s -> ~ runs (yrun (sys_init self nodes) l) n s.
Proof. intros Hl. apply answered_stopped. by apply yrun_inv; [apply sys_init_inv|]. Qed.
Print Assumptions C46_moved_stopped_partial.

(** An orderly run: the shard starts on node 2, is moved to node 1, node 2 dies. *)
Definition ex_start : list (yop N) :=
  [YRequest 1 7 100; YHandle 1; YPick 0 true [2; 1]; YPick 0 true []; YHandle 2; YUp 2 7 0; YHandle 2].
Definition ex_moving : list (yop N) :=
  ex_start ++ [YPick 0 true []; YHandle 1; YPick 0 true []; YHandle 1; YCoord (CORebalanceShards [7] [1; 2])].
Definition ex_moved : list (yop N) :=
  ex_moving ++ [YPick 2 true []; YHandle 2; YPick 2 true []; YPick 3 true [1; 2]; YHandle 2; YPick 2 true []; YHandle 1;
                YUp 1 7 0; YHandle 1; YRequest 1 7 101; YHandle 1; YPick 3 true []; YCrash 2; YCoord (CONodeUnavailable 2 [1] [])].
Example C46_case :
  orderly_run (sys_init 1 [2]) ex_moved /\
  y_live (yrun (sys_init 1 [2]) ex_start) = [(2, 7, 0, true)] /\
  y_live (yrun (sys_init 1 [2]) ex_moved) = [(1, 7, 0, true)] /\
  y_got (yrun (sys_init 1 [2]) ex_moved) = [(1, 7, 0, 101)].
Proof. split; [apply orderly_runb_ok; vm_compute; done|]. vm_compute. done. Qed.

(** Otherwise two nodes run the same shard. First: a host that learned that the shard moves
    asks for its allocation before the old node has stopped it. *)
Theorem C46_ask_during_move_refuted :
  let l := ex_moving ++ [YPick 0 true []; YHandle 1; YRequest 1 7 101; YHandle 1; YPick 2 true [1; 2]; YPick 2 true []; YHandle 1] in
  y_live (yrun (sys_init 1 [2]) l) = [(2, 7, 0, true); (1, 7, 0, false)].
Proof. vm_compute. done. Qed.
Print Assumptions C46_ask_during_move_refuted.

(** Second: a live node that is declared unavailable keeps its shards. *)
Theorem C46_unavailable_refuted :
  let l := ex_start ++ [YCoord (CONodeUnavailable 2 [1] [7]); YPick 2 true []; YHandle 1] in
  y_live (yrun (sys_init 1 [2]) l) = [(2, 7, 0, true); (1, 7, 0, false)].
Proof. vm_compute. done. Qed.
Print Assumptions C46_unavailable_refuted.

(** Third: late news of the previous allocation starts the shard again on its old node. *)
Theorem C46_late_news_refuted :
  let l := [YRequest 2 7 100; YHandle 2; YPick 0 true [2; 1]; YPick 0 true []; YHandle 2; YPick 0 true []; YHandle 1;
            YUp 2 7 0; YHandle 2; YCoord (CORebalanceShards [7] [1; 2]); YPick 4 true []; YHandle 2; YPick 4 true []; YHandle 2;
            YPick 4 true [1; 2]; YPick 4 true []; YHandle 1; YPick 0 true []; YHandle 2] in
  y_live (yrun (sys_init 1 [2]) l) = [(1, 7, 0, false); (2, 7, 1, false)].
Proof. vm_compute. done. Qed.
Print Assumptions C46_late_news_refuted.

(** * C49 *)

(** In orderly runs a stop request is answered only when nobody runs the shard. *)
Theorem C49_answer_means_stopped_partial {R} self nodes (l : list (yop R)) n s :
  orderly_run (sys_init self nodes) l ->
  stop_answered (yrun (sys_init self nodes) l) s -> ~ runs (yrun (sys_init self nodes) l) n s.
Proof. exact (C46_moved_stopped_partial self nodes l n s). Qed.
Print Assumptions C49_answer_means_stopped_partial.

(** In orderly runs a stop request to a node that stays alive is never lost: after any step it
    is still under way or answered. *)
Theorem C49_not_lost_partial {R} self nodes (l : list (yop R)) o n s :
  orderly_run (sys_init self nodes) l ->
  let y := yrun (sys_init self nodes) l in
  is_Some (y_hosts y !! n) -> o <> YCrash n -> stop_outstanding y n s ->
  stop_outstanding (ystep y o) n s \/ stop_answered (ystep y o) s.
Proof. intros Hl y. apply stop_kept. by apply yrun_inv; [apply sys_init_inv|]. Qed.
Print Assumptions C49_not_lost_partial.

(** And the messages under way suffice to have it answered. *)
Theorem C49_answerable_partial {R} self nodes (l : list (yop R)) n s :
  orderly_run (sys_init self nodes) l ->
  let y := yrun (sys_init self nodes) l in
  is_Some (y_hosts y !! n) -> stop_outstanding y n s ->
  exists l', orderly_run y l' /\ stop_answered (yrun y l') s.
Proof. intros Hl y. apply stop_can_finish. by apply yrun_inv; [apply sys_init_inv|]. Qed.
Print Assumptions C49_answerable_partial.

Example C49_case :
  orderly_run (sys_init 1 [2]) ex_moving /\ stop_outstanding (yrun (sys_init 1 [2]) ex_moving) 2 7 /\
  y_net (yrun (sys_init 1 [2]) (ex_moving ++ [YPick 2 true []; YHandle 2; YPick 2 true []])) =
    [PSend 1 (MReallocating 7); PSend 2 (MReallocating 7); PMail 2 (MStopped 7); PMoved 7].
Proof.
  split; [apply orderly_runb_ok; vm_compute; done|]. split; [|vm_compute; done].
  left. exists (3, 1). vm_compute. right. right. left.
Qed.

(** A shard that is moved while it starts: the answer never comes ([PMoved] does not appear),
    the shard has no owner any more, but it runs. *)
Theorem C49_unanswered_refuted :
  let l := [YRequest 1 7 100; YHandle 1; YPick 0 true [2; 1]; YPick 0 true []; YHandle 2;
            YCoord (CORebalanceShards [7] [1; 2]); YPick 4 true []; YHandle 2; YUp 2 7 0; YHandle 2] in
  let y := yrun (sys_init 1 [2]) l in
  y_live y = [(2, 7, 0, true)] /\ map_to_list (c_shards (y_coord y)) = [] /\
  (sh_hosted <$> y_hosts y !! 2) ≫= (.!! 7) = Some (HReady 0) /\
  y_net y = [PSend 1 (MAllocated 7 2); PSend 1 (MAllocated 7 2); PSend 1 (MReallocating 7); PSend 2 (MReallocating 7)].
Proof. vm_compute. done. Qed.
Print Assumptions C49_unanswered_refuted.

(** * C48 *)

(** A host hands requests to the shard actor by separate tasks, which may run in any order. *)
Theorem C48_delivery_order_refuted :
  let l := ex_moved ++ [YRequest 1 7 102; YHandle 1; YRequest 1 7 103; YHandle 1; YPick 4 true []; YPick 3 true []] in
  y_got (yrun (sys_init 1 [2]) l) = [(1, 7, 0, 101); (1, 7, 0, 103); (1, 7, 0, 102)].
Proof. vm_compute. done. Qed.
Print Assumptions C48_delivery_order_refuted.
