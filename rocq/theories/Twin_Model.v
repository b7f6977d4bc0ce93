(** Several singletons of one actor type in a cluster, such as the coordinators of several
    sharded entity types (sharding/mod.rs, singleton/mod.rs). *)
From Verif Require Export Singleton_Model.

Local Open Scope N_scope.

(** [SingletonBuilder] takes the ids of the manager, the proxy and the singleton from the
    name of the actor type (singleton/mod.rs:34-46) and has no way to change them (48-85).
    The coordinator of every sharded entity type is a [ShardCoordinator] and is started by
    such a builder (sharding/mod.rs:91-94). So the managers of all entity types on one node
    have one id, "singleton-manager<ShardCoordinator>-<node>" (singleton/mod.rs:59), and all
    coordinators have one id, "ShardCoordinator". Entity types are numbered; below they are
    called kinds.

    One kind on one node: its manager ([Singleton_Model]), the creations under way, their
    results, its singleton actors alive on this node, its proxy ([None]: gone after a panic),
    the messages the proxy has not handled yet, and the delivery tasks of the proxy that have
    not run yet. *)
Record tslot := TSlot {
  t_mgr : manager;
  t_tasks : nat;
  t_results : list (option N);
  t_live : list N;
  t_px : option (pxstate N);
  t_box : list (pxinput N);
  t_todo : list (N * sref)
}.

(** A node: its kinds, the kind whose manager is registered under the manager id, and the
    kind and actor registered under the singleton's id
    (the [actors] map of actor/scheduler/mod.rs:24). *)
Record tnode := TNode {
  t_slots : gmap N tslot;
  t_mreg : option N;
  t_areg : option (N * N)
}.

(** A request handled by an actor: where it was sent from and for which kind, the request,
    and the kind, the node and the number of the actor that handled it. *)
Record thit := THit {
  h_from : N; h_kind : N; h_req : N;
  h_by : N; h_at : N; h_actor : N
}.

(** [t_net]: the messages between managers, by node. [t_calls]: the requests on their way to
    the singleton of another node: the destination, the sender, the kind, the request. Both
    carry the actor id, which is the same for all kinds and is left out. *)
Record tsys := TSys {
  t_nodes : gmap N tnode;
  t_net : list (N * smsg);
  t_calls : list (N * (N * N * N));
  t_next : N;
  t_log : list thit
}.

Definition tnew (ns : list N) : tsys :=
  TSys (list_to_map ((fun n => (n, TNode ∅ None None)) <$> ns)) [] [] 0 [].

Inductive top :=
| TStart (n k : N)                     (* Sharding::start for a further entity type *)
| TEvent (n k : N) (i : sinput)        (* the manager of a kind handles a cluster event *)
| TDeliver (j : nat)                   (* the j-th message between managers arrives *)
| TLose (j : nat)                      (* … is lost *)
| TCreate (n k : N) (ok : bool)        (* a creation task runs *)
| TResult (n k : N) (j : nat)          (* the manager handles a creation result *)
| TStopped (n k a : N)                 (* a singleton actor stops *)
| TSend (n k q : N) (reply : bool)     (* Singleton::send / Singleton::notify *)
| TProxy (n k : N)                     (* the proxy handles its next message *)
| TRun (n k : N) (j : nat)             (* a delivery task of the proxy runs *)
| TArrive (j : nat)                    (* the j-th request arrives *)
| TDrop (j : nat).                     (* … is lost *)

Section twin.
Variable includes : N -> bool.

Definition new_slot (n : N) : tslot := TSlot (new_manager n) 0 [] [] (Some (XBuffered [])) [] [].

(** What the effects of a manager put into its proxy's mailbox ([self.proxy] is a reference
    to the proxy of the same builder, singleton/mod.rs:66-82, not its id). *)
Definition tells (eff : list seffect) : list (pxinput N) :=
  omap (fun e => match e with
                 | FProxyStarted r => Some (XStarted r)
                 | FProxyStopping => Some XStopping
                 | _ => None
                 end) eff.

(** The manager of a kind handles an input. *)
Definition thandle (x : tslot) (i : sinput) : tslot * list (N * smsg) :=
  let '(g, eff) := mstep includes (t_mgr x) i in
  (TSlot g (t_tasks x + creates eff) (t_results x) (t_live x) (t_px x) (t_box x ++ tells eff) (t_todo x),
   packets eff).

Definition slot_of (y : tsys) (n k : N) : option tslot :=
  nd ← t_nodes y !! n; t_slots nd !! k.

Definition put_slot (nd : tnode) (k : N) (x : tslot) : tnode :=
  TNode (<[k := x]> (t_slots nd)) (t_mreg nd) (t_areg nd).
Definition set_areg (nd : tnode) (r : option (N * N)) : tnode := TNode (t_slots nd) (t_mreg nd) r.

Definition put_node (y : tsys) (n : N) (nd : tnode) : tsys :=
  TSys (<[n := nd]> (t_nodes y)) (t_net y) (t_calls y) (t_next y) (t_log y).
Definition add_net (y : tsys) (out : list (N * smsg)) : tsys :=
  TSys (t_nodes y) (t_net y ++ out) (t_calls y) (t_next y) (t_log y).
Definition del_net (y : tsys) (j : nat) : tsys :=
  TSys (t_nodes y) (delete j (t_net y)) (t_calls y) (t_next y) (t_log y).
Definition add_call (y : tsys) (c : N * (N * N * N)) : tsys :=
  TSys (t_nodes y) (t_net y) (t_calls y ++ [c]) (t_next y) (t_log y).
Definition del_call (y : tsys) (j : nat) : tsys :=
  TSys (t_nodes y) (t_net y) (delete j (t_calls y)) (t_next y) (t_log y).
Definition add_hit (y : tsys) (h : thit) : tsys :=
  TSys (t_nodes y) (t_net y) (t_calls y) (t_next y) (t_log y ++ [h]).
Definition next_actor (y : tsys) : tsys :=
  TSys (t_nodes y) (t_net y) (t_calls y) (t_next y + 1) (t_log y).

(** [None]: the step is not possible. *)
Definition tstep (y : tsys) (o : top) : option tsys :=
  match o with
  | TStart n k =>
      (* singleton/mod.rs:54-85. The scheduler puts the new manager in the place of one that
         is registered under the same id and says so in a warning
         (actor/scheduler/mod.rs:192-204); nobody is told. *)
      nd ← t_nodes y !! n;
      match t_slots nd !! k with
      | Some _ => None
      | None => Some (put_node y n (TNode (<[k := new_slot n]> (t_slots nd)) (Some k) (t_areg nd)))
      end
  | TEvent n k i =>
      (* every manager subscribes by itself (manager/mod.rs:233-238) *)
      nd ← t_nodes y !! n;
      x ← t_slots nd !! k;
      if is_event i then
        let '(x', out) := thandle x i in
        Some (add_net (put_node y n (put_slot nd k x')) out)
      else None
  | TDeliver j =>
      (* the manager is looked up by its id (remote/system/actor.rs, actor/scheduler/mod.rs:241-244) *)
      p ← t_net y !! j;
      match (nd ← t_nodes y !! p.1; k ← t_mreg nd; x ← t_slots nd !! k; Some (nd, k, x)) with
      | Some (nd, k, x) =>
          let '(x', out) := thandle x (IMsg p.2) in
          Some (add_net (put_node (del_net y j) p.1 (put_slot nd k x')) out)
      | None => Some (del_net y j)
      end
  | TLose j => _ ← t_net y !! j; Some (del_net y j)
  | TCreate n k ok =>
      (* manager/start.rs:18-31: [into_actor] with the singleton's id *)
      nd ← t_nodes y !! n;
      x ← t_slots nd !! k;
      match t_tasks x with
      | O => None
      | S t =>
          Some (if ok then
                  let a := t_next y in
                  let x' := TSlot (t_mgr x) t (t_results x ++ [Some a]) (t_live x ++ [a])
                                  (t_px x) (t_box x) (t_todo x) in
                  next_actor (put_node y n (set_areg (put_slot nd k x') (Some (k, a))))
                else
                  let x' := TSlot (t_mgr x) t (t_results x ++ [None]) (t_live x)
                                  (t_px x) (t_box x) (t_todo x) in
                  put_node y n (put_slot nd k x'))
      end
  | TResult n k j =>
      nd ← t_nodes y !! n;
      x ← t_slots nd !! k;
      r ← t_results x !! j;
      let '(x', out) := thandle (TSlot (t_mgr x) (t_tasks x) (delete j (t_results x)) (t_live x)
                                       (t_px x) (t_box x) (t_todo x)) (IResult r) in
      Some (add_net (put_node y n (put_slot nd k x')) out)
  | TStopped n k a =>
      (* lifecycle.rs:150-160: the entry of the id is removed, whoever it belongs to
         (actor/scheduler/mod.rs:222-230) *)
      nd ← t_nodes y !! n;
      x ← t_slots nd !! k;
      if decide (a ∈ t_live x) then
        let x' := TSlot (t_mgr x) (t_tasks x) (t_results x)
                        (List.filter (fun b => negb (b =? a)) (t_live x)) (t_px x) (t_box x) (t_todo x) in
        Some (put_node y n (set_areg (put_slot nd k x') None))
      else None
  | TSend n k q b =>
      (* singleton/mod.rs:88-105: to the proxy, by reference; refused when it is gone *)
      nd ← t_nodes y !! n;
      x ← t_slots nd !! k;
      Some (match t_px x with
            | Some _ =>
                put_node y n (put_slot nd k
                  (TSlot (t_mgr x) (t_tasks x) (t_results x) (t_live x) (t_px x)
                         (t_box x ++ [XDeliver q b]) (t_todo x)))
            | None => y
            end)
  | TProxy n k =>
      nd ← t_nodes y !! n;
      x ← t_slots nd !! k;
      s ← t_px x;
      match t_box x with
      | [] => None
      | i :: box =>
          let '(s', out) := pxstep s i in
          Some (put_node y n (put_slot nd k
                  (TSlot (t_mgr x) (t_tasks x) (t_results x) (t_live x) s' box (t_todo x ++ out))))
      end
  | TRun n k j =>
      (* proxy/send.rs:23-35: [actor.send] on the reference that the proxy had. A reference
         to an actor of this node holds its mailbox; one to another node holds its id. *)
      nd ← t_nodes y !! n;
      x ← t_slots nd !! k;
      qr ← t_todo x !! j;
      let y1 := put_node y n (put_slot nd k
                  (TSlot (t_mgr x) (t_tasks x) (t_results x) (t_live x) (t_px x) (t_box x)
                         (delete j (t_todo x)))) in
      Some (match qr.2 with
            | RLocal a => if decide (a ∈ t_live x) then add_hit y1 (THit n k qr.1 k n a) else y1
            | RRemote m => add_call y1 (m, (n, k, qr.1))
            end)
  | TArrive j =>
      c ← t_calls y !! j;
      let '(m, (n, k, q)) := c in
      Some (match (nd ← t_nodes y !! m; t_areg nd) with
            | Some (k', a) => add_hit (del_call y j) (THit n k q k' m a)
            | None => del_call y j
            end)
  | TDrop j => _ ← t_calls y !! j; Some (del_call y j)
  end.

Fixpoint trun (y : tsys) (l : list top) : option tsys :=
  match l with [] => Some y | o :: l' => y' ← tstep y o; trun y' l' end.
End twin.
