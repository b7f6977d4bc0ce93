(** What users of several singletons of one actor type rely on. *)
From Verif Require Export Twin_Model.

Local Open Scope N_scope.

(** The cluster events that the manager of kind [k] on node [n] handled. *)
Definition heard (n k : N) (l : list top) : list sinput :=
  omap (fun o => match o with
                 | TEvent n' k' i => if (n' =? n) && (k' =? k) then Some i else None
                 | _ => None
                 end) l.

(** The node sees another node when it comes up, and loses none later. *)
Definition fellow (includes : N -> bool) (n : N) (i : sinput) : Prop :=
  match i with
  | IMemberUp _ nodes => exists m, m ∈ nodes /\ m <> n /\ includes m = true
  | IRemoved _ => False
  | _ => True
  end.

Definition no_delivery (o : top) : Prop := match o with TDeliver _ => False | _ => True end.

(** On node [n], kind [k] is started and then another kind, before any message between
    managers arrives; the node has company. *)
Definition followed (includes : N -> bool) (n k : N) (l : list top) : Prop :=
  exists l0 l1 k' l2, l = l0 ++ TStart n k :: l1 ++ TStart n k' :: l2 /\ k' <> k /\
    Forall no_delivery l1 /\ Forall (fellow includes n) (heard n k (l1 ++ l2)).

(** The requests sent for a kind from a node, and those that an actor handled. *)
Definition sends (n k q : N) (l : list top) : nat :=
  length (List.filter (fun o => match o with
                                | TSend n' k' q' _ => (n' =? n) && (k' =? k) && (q' =? q)
                                | _ => false
                                end) l).
Definition hits (n k q : N) (log : list thit) : nat :=
  length (List.filter (fun h => (h_from h =? n) && (h_kind h =? k) && (h_req h =? q)) log).

Definition one_kind (k : N) (o : top) : Prop := match o with TStart _ k' => k' = k | _ => True end.

(** The cluster of kind [k] alone looks like this cluster of managers. *)
Definition same_singleton (ns : list N) (k : N) (t : tsys) (y : ssys) : Prop :=
  y_net y = t_net t /\ y_next y = t_next t /\
  forall n, n ∈ ns -> exists x, y_nodes y !! n = Some x /\
    match slot_of t n k with
    | Some s => n_mgr x = t_mgr s /\ n_tasks x = t_tasks s /\ n_results x = t_results s /\ n_live x = t_live s
    | None => x = new_node n
    end.
