(** What is expected of singleton managers and proxies. *)
From Verif Require Import Singleton_Model.
Local Open Scope N_scope.

(** ** One manager: what it handled and what it did *)
Notation strace := (list (sinput * list seffect)).

(** The other nodes it was told about and that were not removed since. *)
Definition learn (self : N) (includes : N -> bool) (k : gset N) (i : sinput) : gset N :=
  match i with
  | IMemberUp _ nodes => k ∪ list_to_set (List.filter (fun n => negb (n =? self) && includes n) nodes)
  | IAdded n => if negb (n =? self) && includes n then {[n]} ∪ k else k
  | IRemoved n => k ∖ {[n]}
  | _ => k
  end.
Definition known (self : N) (includes : N -> bool) (l : list sinput) : gset N :=
  fold_left (learn self includes) l ∅.

(** The manager takes up leadership: on a leadership event it asks for leases, or starts at
    once. *)
Definition begins (e : sinput * list seffect) : bool :=
  match e.1 with
  | IMemberUp _ _ | ILeader _ =>
      existsb (fun f => match f with FSend _ (QRequest _) | FCreate => true | _ => false end) e.2
  | _ => false
  end.
(** What happened since it last took up leadership. *)
Definition since (tr : strace) : strace :=
  fold_left (fun acc e => if begins e then [e] else acc ++ [e]) tr [].
(** What happened since the last start result: the singleton is up. *)
Definition since_up (tr : strace) : strace :=
  fold_left (fun acc e => match e.1 with IResult (Some _) => [e] | _ => acc ++ [e] end) tr [].
Definition sent (n : N) (m : smsg) (tr : strace) : Prop := exists e, e ∈ tr /\ FSend n m ∈ e.2.
(** The nodes (not removed since) that acknowledged a lease request after that. *)
Definition ack_in (s : gset N) (e : sinput * list seffect) : gset N :=
  match e.1 with
  | IMsg (QAck n) => {[n]} ∪ s
  | IRemoved n => s ∖ {[n]}
  | _ => s
  end.
Definition acked_since (tr : strace) : gset N := fold_left ack_in (since tr) ∅.
(** How often it started the singleton since then. *)
Definition starts_since (tr : strace) : nat := sum_list (creates <$> (since tr).*2).
Definition starts (eff : list seffect) : Prop := FCreate ∈ eff.

(** Every acknowledgement comes from a manager that is known when it arrives. *)
Definition acks_known (self : N) (includes : N -> bool) (l : list sinput) : Prop :=
  forall l1 n l2, l = l1 ++ IMsg (QAck n) :: l2 -> n ∈ known self includes l1.
(** Since it last took up leadership, no manager came, went, or acknowledged twice. *)
Definition acks_of (tr : strace) : list N :=
  omap (fun e => match e.1 with IMsg (QAck n) => Some n | _ => None end) tr.
Definition quiet_since (tr : strace) : Prop :=
  NoDup (acks_of (since tr)) /\
  forall e n, e ∈ since tr -> e.1 <> IAdded n /\ e.1 <> IRemoved n.

(** ** The cluster *)

(** Node [n] runs the singleton. *)
Definition runs_singleton (y : ssys) (n : N) : Prop :=
  exists x, y_nodes y !! n = Some x /\ n_live x <> [].
Definition state_of (y : ssys) (n : N) : option sstate := (fun x => g_state (n_mgr x)) <$> y_nodes y !! n.

(** Fixed membership: [MemberUp] reaches a node once and lists all nodes, nobody leaves. *)
Definition steady (ns : list N) (y : ssys) (o : sop) : Prop :=
  match o with
  | YEvent n (IMemberUp _ nodes) =>
      (exists p, state_of y n = Some (SJoining p)) /\ forall m, m ∈ nodes <-> m ∈ ns
  | YEvent _ (IAdded m) => m ∈ ns
  | YEvent _ (IRemoved _) => False
  | _ => True
  end.
(** No node is asked for the lease while it is stopping and its actor is still alive. *)
Definition patient (y : ssys) (o : sop) : Prop :=
  match o with
  | YDeliver k =>
      forall n m x a w, y_net y !! k = Some (n, QRequest m) -> y_nodes y !! n = Some x ->
        g_state (n_mgr x) = SStopping a w -> n_live x = []
  | _ => True
  end.

Fixpoint always (includes : N -> bool) (P : ssys -> sop -> Prop) (y : ssys) (l : list sop) : Prop :=
  match l with
  | [] => True
  | o :: l' => P y o /\ match sstep includes y o with Some y' => always includes P y' l' | None => True end
  end.

(** A step of the nodes and the network, not a cluster event. *)
Definition internal (o : sop) : bool := match o with YEvent _ _ => false | _ => true end.
(** Nothing is under way. *)
Definition at_rest (y : ssys) : Prop :=
  y_net y = [] /\ forall n x, y_nodes y !! n = Some x -> n_tasks x = 0%nat /\ n_results x = [].
(** Every node is told of the same leader, no message is lost and no creation fails. *)
Definition one_leader (leader : N) (o : sop) : Prop :=
  match o with
  | YEvent _ (IMemberUp n _) | YEvent _ (ILeader n) => n = leader
  | YLose _ => False
  | YCreate _ ok => ok = true
  | _ => True
  end.

(** ** The proxy *)
Section proxy.
Context {R A : Type}.
(** The requests made to the proxy, in order, and whether they want a reply. *)
Definition asked (l : list (pxop (R := R) A)) : list (R * bool) :=
  omap (fun o => match o with VInput (XDeliver x b) => Some (x, b) | _ => None end) l.
(** The requests kept by the proxy. *)
Definition kept (v : pxsys (R := R) A) : list R :=
  match v_state v with Some (XBuffered q) => q.*1 | _ => [] end.
(** Nothing but requests that want a reply. *)
Definition no_notifications (l : list (pxop (R := R) A)) : Prop := forall x, (x, false) ∉ asked l.
(** The delivery tasks run in the order in which they were created. *)
Definition in_turn (l : list (pxop (R := R) A)) : Prop :=
  Forall (fun o => match o with VRun k _ => k = 0%nat | _ => True end) l.
End proxy.

(** The singleton a proxy was told of last. *)
Definition last_told {R A} (l : list (pxop (R := R) A)) : option sref :=
  fold_left (fun acc o => match o with VInput (XStarted r) => Some r | _ => acc end) l None.
