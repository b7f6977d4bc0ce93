(** The managers and proxies of a cluster singleton (coerce/src/singleton). *)
From Verif Require Export Base.

Local Open Scope N_scope.

(** ** One manager *)

(** manager/mod.rs:74-89. Singleton actors are numbered. *)
Inductive sstate :=
| SJoining (pending : option N)
| SIdle
| SStarting (acked : gset N)
| SRunning (a : N)
| SStopping (a : N) (requested_by : N).

(** manager/mod.rs:25-38. [g_managers] keeps the keys of [managers]: the reference stored
    for a node is always the one to the manager of that node. The other fields never change
    or are never read ([current_leader_node], [cluster_up]). *)
Record manager := Mgr { g_node : N; g_managers : gset N; g_state : sstate }.

(** manager/mod.rs:40-72 *)
Definition new_manager (n : N) : manager := Mgr n ∅ (SJoining None).

(** The messages between managers, with their [source_node_id]
    (lease.rs:12-20, mod.rs:391-399). *)
Inductive smsg := QRequest (src : N) | QAck (src : N) | QStarted (src : N) | QStopped (src : N).

(** What a proxy is told: the singleton runs on this node, or on another one. *)
Inductive sref := RLocal (a : N) | RRemote (n : N).
Inductive seffect :=
| FSend (to : N) (m : smsg)      (* notify the manager of that node *)
| FCreate                        (* task: create the singleton actor, report the result *)
| FStop (a : N)                  (* ask the actor to stop, without waiting *)
| FProxyStarted (r : sref)
| FProxyStopping.

(** What a manager handles: the cluster events of its own node, the messages of other
    managers, the result of creating the actor, and the end of a child. *)
Inductive sinput :=
| IMemberUp (leader : N) (nodes : list N)
| ILeader (leader : N)
| IAdded (n : N)
| IRemoved (n : N)
| IMsg (m : smsg)
| IResult (r : option N)
| IChildStopped.

Section manager.
(** NodeSelector::includes (remote/cluster/node.rs:72-77) for the nodes of the cluster. *)
Variable includes : N -> bool.
Implicit Types (g : manager).

(** manager/mod.rs:120-136 *)
Definition is_running (s : sstate) : bool :=
  match s with SRunning _ | SStarting _ => true | _ => false end.
Definition is_joining (s : sstate) : bool := match s with SJoining _ => true | _ => false end.
Definition get_actor (s : sstate) : option N :=
  match s with SRunning a | SStopping a _ => Some a | _ => None end.

Definition set_state g (s : sstate) : manager := Mgr (g_node g) (g_managers g) s.
Definition set_managers g (ms : gset N) : manager := Mgr (g_node g) ms (g_state g).

(** manager/mod.rs:139-166. [ActorRef::notify] of a remote reference hands the message to
    the client of that node; when that fails the same message is tried again two seconds
    later (168-192), which here is a packet that takes longer (or is lost). The order in
    which the managers are notified is that of a HashMap; they are different nodes. *)
Definition notify_manager g (n : N) (m : smsg) : list seffect :=
  if decide (n ∈ g_managers g) then [FSend n m] else [].
Definition notify_managers g (m : smsg) : list seffect :=
  (fun n => FSend n m) <$> elements (g_managers g).

(** lease.rs:182-185, start.rs:18-31: the actor is created by [into_actor], as a top-level
    actor and not as a child of the manager *)
Definition on_all_managers_acknowledged : list seffect := [FCreate].

(** lease.rs:108-125 *)
Definition request_lease g : list seffect :=
  if decide (size (g_managers g) = 0%nat) then on_all_managers_acknowledged
  else notify_managers g (QRequest (g_node g)).

(** manager/mod.rs:194-200 *)
Definition begin_starting g : manager * list seffect :=
  (set_state g (SStarting ∅), request_lease g).

(** manager/mod.rs:202-222 *)
Definition begin_stopping g (n : N) : manager * list seffect :=
  match get_actor (g_state g) with
  | None => (g, [])
  | Some a => (set_state g (SStopping a n), FStop a :: notify_managers g (QStopped (g_node g)))
  end.

(** lease.rs:127-152 *)
Definition grant_lease g (n : N) : manager * list seffect :=
  match g_state g with
  | SJoining _ => (set_state g (SJoining (Some n)), [])
  | _ => (g, notify_manager g n (QAck (g_node g)))
  end.

(** lease.rs:154-180 *)
Definition on_lease_ack g (n : N) : manager * list seffect :=
  match g_state g with
  | SStarting acked =>
      let acked' := {[n]} ∪ acked in
      (set_state g (SStarting acked'),
       if decide (size acked' = size (g_managers g)) then on_all_managers_acknowledged else [])
  | _ => (g, [])
  end.

(** lease.rs:78-98 *)
Definition on_request_lease g (n : N) : manager * list seffect :=
  if is_running (g_state g) then begin_stopping g n else grant_lease g n.

(** manager/mod.rs:224-228 *)
Definition on_leader_changed g (n : N) : manager * list seffect :=
  if (n =? g_node g) && negb (is_running (g_state g)) then begin_starting g else (g, []).

(** manager/mod.rs:289-304: the nodes of the event other than this one *)
Definition add_managers g (nodes : list N) : manager :=
  set_managers g (g_managers g ∪ list_to_set (List.filter (fun n => negb (n =? g_node g) && includes n) nodes)).

(** manager/mod.rs:279-325 *)
Definition on_member_up g (leader : N) (nodes : list N) : manager * list seffect :=
  let g1 := add_managers g nodes in
  let eff := match g_state g with
             | SJoining (Some n) => notify_manager g1 n (QAck (g_node g))
             | _ => []
             end in
  let g2 := set_state g1 SIdle in
  if leader =? g_node g then let '(g3, eff') := begin_starting g2 in (g3, eff ++ eff')
  else (g2, eff).

(** manager/mod.rs:333-366 *)
Definition on_node_added g (n : N) : manager * list seffect :=
  if negb (n =? g_node g) && includes n then
    if decide (n ∈ g_managers g) then (g, [])
    else (set_managers g ({[n]} ∪ g_managers g),
          match g_state g with
          | SStarting _ => [FSend n (QRequest (g_node g))]
          | SRunning _ => [FSend n (QStarted (g_node g))]
          | _ => []
          end)
  else (g, []).

(** manager/mod.rs:368-381 *)
Definition on_node_removed g (n : N) : manager * list seffect :=
  let g1 := set_managers g (g_managers g ∖ {[n]}) in
  match g_state g with
  | SStarting acked =>
      let acked' := acked ∖ {[n]} in
      (set_state g1 (SStarting acked'),
       if decide (size acked' = size (g_managers g1)) then on_all_managers_acknowledged else [])
  | _ => (g1, [])
  end.

(** start.rs:35-68 *)
Definition on_start_result g (r : option N) : manager * list seffect :=
  match r with
  | Some a => (set_state g (SRunning a), FProxyStarted (RLocal a) :: notify_managers g (QStarted (g_node g)))
  | None => (g, [])
  end.

(** manager/mod.rs:250-271, for the singleton's own id *)
Definition on_child_stopped g : manager * list seffect :=
  match g_state g with
  | SStopping _ n => let '(g1, eff) := grant_lease g n in (set_state g1 SIdle, eff)
  | _ => (g, [])
  end.

(** manager/mod.rs:274-430, lease.rs:78-105 *)
Definition mstep g (i : sinput) : manager * list seffect :=
  match i with
  | IMemberUp leader nodes => on_member_up g leader nodes
  | ILeader leader => if is_joining (g_state g) then (g, []) else on_leader_changed g leader
  | IAdded n => on_node_added g n
  | IRemoved n => on_node_removed g n
  | IMsg (QRequest n) => on_request_lease g n
  | IMsg (QAck n) => on_lease_ack g n
  | IMsg (QStarted n) => (g, [FProxyStarted (RRemote n)])
  | IMsg (QStopped _) => (g, [FProxyStopping])
  | IResult r => on_start_result g r
  | IChildStopped => on_child_stopped g
  end.

(** A run of one manager: what it handled and what it did, oldest first. *)
Definition mrun (n : N) (l : list sinput) : manager * list (list seffect) :=
  run mstep (new_manager n) l.

(** ** A cluster of managers *)

(** A node: its manager, the creations under way, the creation results not yet handled (the
    task of start.rs:24-30 sends them to the manager, [pipe_to], actor/refs/mod.rs:625-649),
    the singleton actors alive on this node, and what its proxy was told (newest last). *)
Record snode := SNode {
  n_mgr : manager;
  n_tasks : nat;
  n_results : list (option N);
  n_live : list N;
  n_proxy : list (option sref)
}.
(** Packets are delivered in any order or lost, but not duplicated: node-to-node messages
    are written to a TCP connection by [Client::write] and handled by spawned tasks. *)
Record ssys := SSys { y_nodes : gmap N snode; y_net : list (N * smsg); y_next : N }.

Definition new_node (n : N) : snode := SNode (new_manager n) 0 [] [] [].
Definition new_sys (ns : list N) : ssys :=
  SSys (list_to_map ((fun n => (n, new_node n)) <$> ns)) [] 0.

Inductive sop :=
| YEvent (n : N) (i : sinput)         (* a cluster event at a node *)
| YDeliver (k : nat)                  (* the k-th packet arrives *)
| YLose (k : nat)                     (* the k-th packet is lost *)
| YCreate (n : N) (ok : bool)         (* a creation task of the node runs *)
| YResult (n : N) (k : nat)           (* the manager handles a creation result *)
| YStopped (n a : N).                 (* an actor stops, asked or by itself *)

Definition packets (eff : list seffect) : list (N * smsg) :=
  omap (fun e => match e with FSend n m => Some (n, m) | _ => None end) eff.
Definition creates (eff : list seffect) : nat :=
  length (List.filter (fun e => match e with FCreate => true | _ => false end) eff).
Definition proxied (eff : list seffect) : list (option sref) :=
  omap (fun e => match e with
                 | FProxyStarted r => Some (Some r)
                 | FProxyStopping => Some None
                 | _ => None
                 end) eff.

(** The node's manager handles an input. *)
Definition handle (x : snode) (i : sinput) : snode * list (N * smsg) :=
  let '(g, eff) := mstep (n_mgr x) i in
  (SNode g (n_tasks x + creates eff) (n_results x) (n_live x) (n_proxy x ++ proxied eff), packets eff).

Definition is_event (i : sinput) : bool :=
  match i with IMemberUp _ _ | ILeader _ | IAdded _ | IRemoved _ => true | _ => false end.

(** [None]: the step is not possible. The end of the singleton actor is not reported to the
    manager: the actor is not its child (start.rs:25, actor/mod.rs:427-438). A packet to a
    node that does not exist disappears. *)
Definition sstep (y : ssys) (o : sop) : option ssys :=
  match o with
  | YEvent n i =>
      x ← y_nodes y !! n;
      if is_event i then
        let '(x', out) := handle x i in
        Some (SSys (<[n := x']> (y_nodes y)) (y_net y ++ out) (y_next y))
      else None
  | YDeliver k =>
      p ← y_net y !! k;
      match y_nodes y !! p.1 with
      | Some x =>
          let '(x', out) := handle x (IMsg p.2) in
          Some (SSys (<[p.1 := x']> (y_nodes y)) (delete k (y_net y) ++ out) (y_next y))
      | None => Some (SSys (y_nodes y) (delete k (y_net y)) (y_next y))
      end
  | YLose k =>
      _ ← y_net y !! k;
      Some (SSys (y_nodes y) (delete k (y_net y)) (y_next y))
  | YCreate n ok =>
      x ← y_nodes y !! n;
      match n_tasks x with
      | O => None
      | S t =>
          Some (if ok then
                  SSys (<[n := SNode (n_mgr x) t (n_results x ++ [Some (y_next y)])
                                     (n_live x ++ [y_next y]) (n_proxy x)]> (y_nodes y))
                       (y_net y) (y_next y + 1)
                else
                  SSys (<[n := SNode (n_mgr x) t (n_results x ++ [None]) (n_live x) (n_proxy x)]>
                          (y_nodes y)) (y_net y) (y_next y))
      end
  | YResult n k =>
      x ← y_nodes y !! n;
      r ← n_results x !! k;
      let '(x', out) := handle (SNode (n_mgr x) (n_tasks x) (delete k (n_results x)) (n_live x) (n_proxy x))
                               (IResult r) in
      Some (SSys (<[n := x']> (y_nodes y)) (y_net y ++ out) (y_next y))
  | YStopped n a =>
      x ← y_nodes y !! n;
      if decide (a ∈ n_live x) then
        Some (SSys (<[n := SNode (n_mgr x) (n_tasks x) (n_results x)
                                 (List.filter (fun b => negb (b =? a)) (n_live x)) (n_proxy x)]>
                      (y_nodes y)) (y_net y) (y_next y))
      else None
  end.

Fixpoint srun (y : ssys) (l : list sop) : option ssys :=
  match l with [] => Some y | o :: l' => y' ← sstep y o; srun y' l' end.
End manager.

(** ** The proxy *)

(** proxy/mod.rs:9-20. A request is a message ([R]) with or without a result channel
    (proxy/send.rs:8-20). *)
Inductive pxstate (R : Type) := XBuffered (queue : list (R * bool)) | XActive (r : sref).
Arguments XBuffered {R}. Arguments XActive {R}.

Inductive pxinput (R : Type) :=
| XDeliver (q : R) (reply : bool)   (* Singleton::send / Singleton::notify (mod.rs:88-105) *)
| XStarted (r : sref)
| XStopping.
Arguments XDeliver {R}. Arguments XStarted {R}. Arguments XStopping {R}.

Section proxy.
Context {R : Type}.

(** proxy/mod.rs:73-77, proxy/send.rs:23-35: each request is taken from the queue and handed
    to a task of its own; one without a result channel panics ([unwrap] of [None]). The
    result tells what was handed over and whether the loop came to its end. *)
Fixpoint drain (q : list (R * bool)) : list R * bool :=
  match q with
  | [] => ([], true)
  | (x, true) :: q' => let '(l, ok) := drain q' in (x :: l, ok)
  | (x, false) :: q' => ([], false)
  end.

(** proxy/mod.rs:62-103, proxy/send.rs:55-77. [None] for the state: the handler panicked and
    the proxy is gone (the panic ends the actor's task, see [Actor_Model]). *)
Definition pxstep (s : pxstate R) (i : pxinput R) : option (pxstate R) * list (R * sref) :=
  match i, s with
  | XDeliver x b, XBuffered q => (Some (XBuffered (q ++ [(x, b)])), [])
  | XDeliver x true, XActive r => (Some (XActive r), [(x, r)])
  | XDeliver x false, XActive r => (None, [])
  | XStarted r, XBuffered q =>
      let '(l, ok) := drain q in
      (if ok then Some (XActive r) else None, (fun x => (x, r)) <$> l)
  | XStarted r, XActive _ => (Some (XActive r), [])
  | XStopping, XActive _ => (Some (XBuffered []), [])
  | XStopping, XBuffered q => (Some (XBuffered q), [])
  end.

(** The proxy with its callers. [v_tasks]: the delivery tasks that have not run yet;
    [v_done]: the results handed to the callers, oldest first; [v_got]: the messages in the
    order in which the singleton received them; [v_lost]: requests whose caller sees its
    result channel closed ([rx.await.unwrap()], mod.rs:97, panics) or, without a channel,
    that silently disappear; [v_refused]: requests refused because the proxy is gone. *)
Record pxsys (A : Type) := PXSys {
  v_state : option (pxstate R);
  v_tasks : list (R * sref);
  v_done : list (R * A);
  v_got : list (R * sref);
  v_lost : list R;
  v_refused : list R
}.
Arguments PXSys {A}. Arguments v_state {A}. Arguments v_tasks {A}. Arguments v_done {A}.
Arguments v_got {A}. Arguments v_lost {A}. Arguments v_refused {A}.

Inductive pxop (A : Type) :=
| VInput (i : pxinput R)       (* the proxy handles a message *)
| VRun (k : nat) (a : A).      (* a delivery task runs; [actor.send] gives this result *)
Arguments VInput {A}. Arguments VRun {A}.

Definition queue_of (s : pxstate R) : list (R * bool) :=
  match s with XBuffered q => q | XActive _ => [] end.

(** The requests that a panic in this step takes with it. *)
Definition panicked (s : pxstate R) (i : pxinput R) (out : list (R * sref)) : list R :=
  match i with
  | XDeliver x _ => [x]
  | _ => drop (length out) (queue_of s).*1
  end.

Definition pxsys_step {A} (v : pxsys A) (o : pxop A) : pxsys A :=
  match o with
  | VInput i =>
      match v_state v with
      | Some s =>
          let '(s', out) := pxstep s i in
          PXSys s' (v_tasks v ++ out) (v_done v) (v_got v)
                (v_lost v ++ match s' with Some _ => [] | None => panicked s i out end) (v_refused v)
      | None =>
          PXSys None (v_tasks v) (v_done v) (v_got v) (v_lost v)
                (v_refused v ++ match i with XDeliver x _ => [x] | _ => [] end)
      end
  | VRun k a =>
      match v_tasks v !! k with
      | Some (x, r) => PXSys (v_state v) (delete k (v_tasks v)) (v_done v ++ [(x, a)])
                             (v_got v ++ [(x, r)]) (v_lost v) (v_refused v)
      | None => v
      end
  end.

(** proxy/mod.rs:22-31 *)
Definition new_proxy {A} : pxsys A := PXSys (Some (XBuffered [])) [] [] [] [] [].
Definition pxrun {A} (l : list (pxop A)) : pxsys A := fold_left pxsys_step l new_proxy.
End proxy.
Arguments PXSys {R A}. Arguments v_state {R A}. Arguments v_tasks {R A}. Arguments v_done {R A}.
Arguments v_got {R A}. Arguments v_lost {R A}. Arguments v_refused {R A}.
Arguments VInput {R A}. Arguments VRun {R A}.
