(** Joining a cluster: what [ClusterWorkerBuilder::start] waits for
    (coerce/src/remote/cluster/builder/worker.rs, remote/cluster/discovery/mod.rs,
    remote/net/client/{mod,connect}.rs, remote/net/server/session/mod.rs). Who learns of whom by
    a handshake: Mesh_Model.v. *)
From Verif Require Export Mesh_Model.

(** Why a handshake is sent: node [x] has found nodes through its seed (discovery/mod.rs:94-99),
    or handshake number [i] has been received (session/mod.rs:499-504). *)
Inductive cause := CStart (x : N) | CShake (i : nat).

(** What has become of the handshake itself: on its way, handled by the discovery actor of the
    receiver, or lost with its connection. *)
Inductive arrival := AWay | AHandled | ALost.

(** A handshake. [t_end]: nothing as long as its sender waits for it, [Some true] once it has been
    acknowledged (connect.rs:244-270), [Some false] if the sender has given it up: five attempts of
    three seconds each have timed out, or its callback was dropped (client/mod.rs:136-185). An
    attempt that follows on a time-out does not send the handshake again while it is pending
    (connect.rs:189-199), so that it is one handshake. *)
Record ticket := Ticket { t_shake : shake; t_cause : cause; t_arr : arrival; t_end : option bool }.

(** How a call of [start] came back. *)
Inductive outcome :=
| OAlone        (* no seed was given *)
| OUnresolved   (* the address of the seed was not resolved *)
| OUnknown      (* the seed did not tell who it is *)
| ODone.        (* the discovery is complete *)

(** Where a call of [start] is: looking up the seed for the [a]-th time, asking it, waiting for
    the handshakes, or back. *)
Inductive phase := PLook (s a : N) | PAsk (s : N) | PWait | PBack (r : outcome).

Record jstate := JState { j_nodes : gmap N mnode; j_tickets : list ticket; j_phase : gmap N phase }.

(** builder/worker.rs:108 *)
Definition seed_attempts : N := 12.

(** builder/worker.rs:50-100: the node registers itself and starts its server. The check that the
    seed is another node compares with a field that has just been emptied (l. 90-95): it never
    holds back, a node may be its own seed. *)
Definition begin_phase (seed : option N) : phase :=
  match seed with None => PBack OAlone | Some s => PLook s 1 end.

(** One turn of the loop in builder/worker.rs:114-136; [ok]: the look-up succeeds. *)
Definition lookup_phase (s a : N) (ok : bool) : phase :=
  if (seed_attempts <=? a)%N then PBack OUnresolved
  else if ok then PAsk s else PLook s (a + 1).

(** [Discover] with [Seed::Nodes] at node [x] (discovery/mod.rs:112-166), with the handshakes that
    it waits for. *)
Definition spread (j : jstate) (x : N) (c : cause) (down l : list N) : option jstate :=
  m ← j_nodes j !! x;
  let '(m', ks) := meet_nodes x down (m_known m) m l in
  Some (JState (<[x := m']> (j_nodes j))
             (j_tickets j ++ map (fun k => Ticket k c AWay None) ks) (j_phase j)).

(** [join_all] over the handshakes of a discovery is through (discovery/mod.rs:154-166): all have
    come to an end, successful or not. *)
Definition caused_by (c : cause) (t : ticket) : bool :=
  match c, t_cause t with
  | CStart x, CStart y => (x =? y)%N
  | CShake i, CShake k => (i =? k)%nat
  | _, _ => false
  end.
Definition ended (t : ticket) : bool := match t_end t with None => false | Some _ => true end.
Definition through (j : jstate) (c : cause) : bool :=
  forallb (fun t => negb (caused_by c t) || ended t) (j_tickets j).

Definition set_ticket (j : jstate) (i : nat) (t : ticket) : jstate :=
  JState (j_nodes j) (<[i := t]> (j_tickets j)) (j_phase j).
Definition set_phase (j : jstate) (x : N) (p : phase) : jstate :=
  JState (j_nodes j) (j_tickets j) (<[x := p]> (j_phase j)).

(** - [JStart x seed]: [start] is called on a new node.
    - [JLookup x ok]: a turn of the loop that looks up the seed.
    - [JAsk x None]: the seed cannot be asked (discovery/mod.rs:100-109);
      [JAsk x (Some l)]: it and the nodes it knows of have been asked, [l] are those found
      (discovery/mod.rs:72-99), the seed among them.
    - [JHandle i l down]: the receiver of handshake [i] has discovered the nodes that came with it,
      in the order [l]; for those of [down] no client can be had (session/mod.rs:424-504).
    - [JAck i]: the discovery of the receiver is complete, it acknowledges, and the sender learns
      of it (session/mod.rs:506-520, connect.rs:244-270).
    - [JDone i]: the discovery actor of the sender has been told (discovery/mod.rs:211-223).
    - [JGiveUp i]: the sender no longer waits for handshake [i].
    - [JLose i]: handshake [i] is lost before it is handled.
    - [JReturn x]: [start] returns since its discovery is complete (worker.rs:148-152).
    - [JGone x y]: [x] marks [y] as terminated. *)
Inductive jop :=
| JStart (x : N) (seed : option N)
| JLookup (x : N) (ok : bool)
| JAsk (x : N) (found : option (list N))
| JHandle (i : nat) (l down : list N)
| JAck (i : nat)
| JDone (i : nat)
| JGiveUp (i : nat)
| JLose (i : nat)
| JReturn (x : N)
| JGone (x y : N).

Definition jstep (j : jstate) (o : jop) : option jstate :=
  match o with
  | JStart x seed =>
      match j_nodes j !! x with
      | Some _ => None
      | None => Some (JState (<[x := MNode {[ x ]} ∅]> (j_nodes j)) (j_tickets j)
                           (<[x := begin_phase seed]> (j_phase j)))
      end
  | JLookup x ok =>
      match j_phase j !! x with
      | Some (PLook s a) => Some (set_phase j x (lookup_phase s a ok))
      | _ => None
      end
  | JAsk x found =>
      match j_phase j !! x with
      | Some (PAsk s) =>
          match found with
          | None => Some (set_phase j x (PBack OUnknown))
          | Some l =>
              if bool_decide (s ∈ l) && forallb (fun n => bool_decide (is_Some (j_nodes j !! n))) l
              then spread (set_phase j x PWait) x (CStart x) [] l else None
          end
      | _ => None
      end
  | JHandle i l down =>
      t ← j_tickets j !! i;
      match t_arr t with
      | AWay =>
          if bool_decide (list_to_set l = k_nodes (t_shake t) ∖ {[ k_to (t_shake t) ]})
          then spread (set_ticket j i (Ticket (t_shake t) (t_cause t) AHandled (t_end t)))
                      (k_to (t_shake t)) (CShake i) down l
          else None
      | _ => None
      end
  | JAck i =>
      t ← j_tickets j !! i;
      match t_arr t, t_end t with
      | AHandled, None =>
          if through j (CShake i)
          then Some (set_ticket j i (Ticket (t_shake t) (t_cause t) AHandled (Some true))) else None
      | _, _ => None
      end
  | JDone i =>
      t ← j_tickets j !! i;
      match t_end t with
      | Some true =>
          m ← j_nodes j !! k_from (t_shake t);
          Some (JState (<[k_from (t_shake t) := MNode (m_known m) (m_ing m ∖ {[ k_to (t_shake t) ]})]> (j_nodes j))
                     (j_tickets j) (j_phase j))
      | _ => None
      end
  | JGiveUp i =>
      t ← j_tickets j !! i;
      match t_end t with
      | None => Some (set_ticket j i (Ticket (t_shake t) (t_cause t) (t_arr t) (Some false)))
      | Some _ => None
      end
  | JLose i =>
      t ← j_tickets j !! i;
      match t_arr t with
      | AWay => Some (set_ticket j i (Ticket (t_shake t) (t_cause t) ALost (t_end t)))
      | _ => None
      end
  | JReturn x =>
      match j_phase j !! x with
      | Some PWait => if through j (CStart x) then Some (set_phase j x (PBack ODone)) else None
      | _ => None
      end
  | JGone x y =>
      m ← j_nodes j !! x;
      Some (JState (<[x := MNode (m_known m ∖ {[ y ]}) (m_ing m)]> (j_nodes j)) (j_tickets j) (j_phase j))
  end.

Fixpoint jruns (j : jstate) (l : list jop) : option jstate :=
  match l with
  | [] => Some j
  | o :: l' => j' ← jstep j o; jruns j' l'
  end.

Definition join_init : jstate := JState ∅ [] ∅.
