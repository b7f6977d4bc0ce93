(** How a cluster comes together: the discovery actors of all its nodes and the handshakes
    between them (coerce/src/remote/cluster/discovery/mod.rs, remote/net/server/session/mod.rs,
    remote/cluster/builder/worker.rs). The discovery actor of one node in detail: Discovery_Model.v. *)
From Verif Require Export Base.

(** A handshake on its way (net/client/connect.rs:200-224): sent when a node is registered, with
    the nodes that the sender knows (discovery/mod.rs:133-148). One that has been written, is in
    the session of the receiver or waits in the mailbox of its discovery actor is on its way
    until it is handled. *)
Record shake := Shake { k_from : N; k_to : N; k_nodes : gset N }.

(** A node: [m_known], the nodes of its registry that are not terminated (discovery/mod.rs:113-121;
    a node is identified by its number, which stands for its address as well); [m_ing], the nodes
    whose handshakes have not been reported as successful ([discovering_nodes], mod.rs:20). *)
Record mnode := MNode { m_known : gset N; m_ing : gset N }.

Record mesh := Mesh { h_nodes : gmap N mnode; h_flight : list shake }.

(** discovery/mod.rs:126-150 at node [x]: [cur] is the registry as it was read at the start,
    [down] the nodes for which no client can be had. *)
Fixpoint meet_nodes (x : N) (down : list N) (cur : gset N) (m : mnode) (l : list N) : mnode * list shake :=
  match l with
  | [] => (m, [])
  | n :: rest =>
      if bool_decide (n ∈ cur) || bool_decide (n ∈ m_ing m) || bool_decide (n ∈ down) then meet_nodes x down cur m rest
      else
        let known := {[ n ]} ∪ m_known m in
        let '(m', ks) := meet_nodes x down cur (MNode known ({[ n ]} ∪ m_ing m)) rest in
        (m', Shake x n known :: ks)
  end.

(** discovery/mod.rs:112-166: [Discover] with [Seed::Nodes] at node [x]. *)
Definition discover (h : mesh) (x : N) (down l : list N) : option mesh :=
  m ← h_nodes h !! x;
  let '(m', ks) := meet_nodes x down (m_known m) m l in
  Some (Mesh (<[x := m']> (h_nodes h)) (h_flight h ++ ks)).

(** - [MStart x]: a node starts and registers itself (builder/worker.rs:50-63).
    - [MSeed x s l]: node [x] has asked the node [s] who it is and which nodes it knows, and
      these in turn (discovery/mod.rs:60-110); [l] are the nodes found, the seed among them, each
      of which has answered.
    - [MHandle i l down]: the receiver of handshake [i] handles it (session/mod.rs:424-520): the
      nodes that came with it, without the receiver, in some order [l].
    - [MFail i]: handshake [i] fails: the connection breaks, or the client is not connected
      (connect.rs:178-186, discovery/mod.rs:225-232).
    - [MDone x y]: [x] is told that its handshake with [y] was successful (mod.rs:211-223).
    - [MGone x y]: [x] marks [y] as terminated (actor/registry.rs:94-101, node.rs). *)
Inductive mop :=
| MStart (x : N)
| MSeed (x s : N) (l : list N)
| MHandle (i : nat) (l down : list N)
| MFail (i : nat)
| MDone (x y : N)
| MGone (x y : N).

Definition mstep (h : mesh) (o : mop) : option mesh :=
  match o with
  | MStart x =>
      match h_nodes h !! x with
      | Some _ => None
      | None => Some (Mesh (<[x := MNode {[ x ]} ∅]> (h_nodes h)) (h_flight h))
      end
  | MSeed x s l =>
      if bool_decide (s ∈ l) && forallb (fun n => bool_decide (is_Some (h_nodes h !! n))) l
      then discover h x [] l else None
  | MHandle i l down =>
      k ← h_flight h !! i;
      if bool_decide (list_to_set l = k_nodes k ∖ {[ k_to k ]})
      then discover (Mesh (h_nodes h) (delete i (h_flight h))) (k_to k) down l else None
  | MFail i =>
      k ← h_flight h !! i;
      Some (Mesh (h_nodes h) (delete i (h_flight h)))
  | MDone x y =>
      m ← h_nodes h !! x;
      Some (Mesh (<[x := MNode (m_known m) (m_ing m ∖ {[ y ]})]> (h_nodes h)) (h_flight h))
  | MGone x y =>
      m ← h_nodes h !! x;
      Some (Mesh (<[x := MNode (m_known m ∖ {[ y ]}) (m_ing m)]> (h_nodes h)) (h_flight h))
  end.

Fixpoint mruns (h : mesh) (l : list mop) : option mesh :=
  match l with
  | [] => Some h
  | o :: l' => h' ← mstep h o; mruns h' l'
  end.

Definition mesh_init : mesh := Mesh ∅ [].
