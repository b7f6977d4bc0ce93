(** Discovery of the nodes of a cluster (coerce/src/remote/cluster/discovery/mod.rs). *)
From Verif Require Export Nodes_Model.

(** net/message.rs [NodeIdentity], the fields that are used: the node itself and the nodes it
    knows. *)
Record ident := Ident { i_node : rnode; i_peers : list rnode }.

(** Messages of the discovery actor (mod.rs:20-43, 202-209). A completion callback is a one-shot
    channel; it is identified by a number. *)
Inductive dmsg :=
| MAddr (addr : string) (cb : option nat)
| MNodes (nodes : list rnode) (cb : option nat)
| MForget (addr : string)
| MDone (node : rnode) (successful : bool).

(** What happens, oldest first: a node is contacted to learn its identity (and what it answers),
    an address is forgotten, a handshake with a node begins, a handshake is reported as failed,
    a node is announced as added to or removed from the cluster, a callback is answered. *)
Inductive devent :=
| VContact (addr : string) (r : option ident)
| VForgot (addr : string)
| VShake (node : rnode)
| VFailed (node : rnode)
| VAdded (node : rnode)
| VRemoved (node : rnode)
| VAnswer (cb : nat) (r : bool).

(** mod.rs:13-18, with: [g_reg], the status of the nodes in the registry (actor/registry.rs);
    [g_mail], the mailbox; [g_groups], the spawned tasks of mod.rs:152-163, each with the
    handshakes it still waits for; [g_time], the number of uses of the network so far; [g_next],
    the next callback. *)
Record disc := Disc {
  g_ing : gset N; g_addr : gmap string ident; g_id : gmap N ident;
  g_reg : gmap N nstatus; g_mail : list dmsg; g_groups : list (list rnode * option nat);
  g_time : nat; g_next : nat; g_log : list devent
}.

Definition with_mail (d : disc) (m : list dmsg) : disc :=
  Disc (g_ing d) (g_addr d) (g_id d) (g_reg d) m (g_groups d) (g_time d) (g_next d) (g_log d).
Definition with_groups (d : disc) (g : list (list rnode * option nat)) : disc :=
  Disc (g_ing d) (g_addr d) (g_id d) (g_reg d) (g_mail d) g (g_time d) (g_next d) (g_log d).
Definition with_reg (d : disc) (r : gmap N nstatus) : disc :=
  Disc (g_ing d) (g_addr d) (g_id d) r (g_mail d) (g_groups d) (g_time d) (g_next d) (g_log d).
Definition with_next (d : disc) (n : nat) : disc :=
  Disc (g_ing d) (g_addr d) (g_id d) (g_reg d) (g_mail d) (g_groups d) (g_time d) n (g_log d).
Definition tell (d : disc) (e : list devent) : disc :=
  Disc (g_ing d) (g_addr d) (g_id d) (g_reg d) (g_mail d) (g_groups d) (g_time d) (g_next d) (g_log d ++ e).

Section discovery.
(** The number of this node. *)
Variable self : N.
(** What the node at an address answers, if it does, at the [k]-th use of the network
    ([get_remote_client] followed by [identify], mod.rs:299-302). *)
Variable net : nat -> string -> option ident.
(** Whether a client for an address can be had ([get_remote_client], mod.rs:131). *)
Variable conn : nat -> string -> bool.

(** mod.rs:290-335 *)
Definition get_node_identity (d : disc) (addr : string) : disc * option ident :=
  match g_addr d !! addr with
  | Some i => (d, Some i)
  | None =>
      match net (g_time d) addr with
      | Some i =>
          (Disc (g_ing d) (<[r_addr (i_node i) := i]> (<[addr := i]> (g_addr d)))
             (<[r_id (i_node i) := i]> (g_id d)) (g_reg d) (g_mail d) (g_groups d)
             (S (g_time d)) (g_next d) (g_log d ++ [VContact addr (Some i)]), Some i)
      | None =>
          (Disc (g_ing d) (g_addr d) (g_id d) (g_reg d) (g_mail d) (g_groups d)
             (S (g_time d)) (g_next d) (g_log d ++ [VContact addr None]), None)
      end
  end.

(** mod.rs:265-288, for the nodes [peers] of one node; [found]: [discovered_nodes]. *)
Fixpoint discover_nodes (d : disc) (peers : list rnode) (found : gmap N ident) : disc * gmap N ident :=
  match peers with
  | [] => (d, found)
  | n :: rest =>
      if (r_id n =? self)%N then discover_nodes d rest found
      else match found !! r_id n with
           | Some _ => discover_nodes d rest found
           | None =>
               let '(d1, r) := get_node_identity d (r_addr n) in
               discover_nodes d1 rest (match r with Some i => <[r_id n := i]> found | None => found end)
           end
  end.

(** mod.rs:76-81 *)
Fixpoint discover_all (d : disc) (l : list ident) (found : gmap N ident) : disc * gmap N ident :=
  match l with
  | [] => (d, found)
  | i :: rest => let '(d1, found1) := discover_nodes d (i_peers i) found in discover_all d1 rest found1
  end.

Definition answer (d : disc) (cb : option nat) (r : bool) : disc :=
  match cb with Some c => tell d [VAnswer c r] | None => d end.

(** mod.rs:60-110. [ord1], [ord2]: the orders in which the table of found nodes is read. The
    case of no found node (mod.rs:83-88) cannot occur: the seed is one. *)
Definition handle_addr (d : disc) (ord1 ord2 : list N) (addr : string) (cb : option nat) : disc :=
  match g_addr d !! addr with
  | Some _ => answer d cb true
  | None =>
      match get_node_identity d addr with
      | (d1, None) => answer d1 cb false
      | (d1, Some seed) =>
          let '(d2, found) := discover_nodes d1 (i_peers seed) {[ r_id (i_node seed) := seed ]} in
          let '(d3, found') :=
            if (1 <? size found)%nat then discover_all d2 (arrange ord1 found).*2 found else (d2, found) in
          with_mail d3 (g_mail d3 ++ [MNodes (i_node <$> (arrange ord2 found').*2) cb])
      end
  end.

(** mod.rs:113-121: the nodes of the registry that are not terminated *)
Definition is_current (r : gmap N nstatus) (n : N) : bool :=
  match r !! n with Some Terminated | None => false | Some _ => true end.

(** mod.rs:126-150; [cur]: the registry as it was read at the start. The nodes whose
    handshakes begin. The seed nodes sent with the handshake are not modelled. *)
Fixpoint handle_list (d : disc) (cur : gmap N nstatus) (nodes : list rnode) : disc * list rnode :=
  match nodes with
  | [] => (d, [])
  | n :: rest =>
      if is_current cur (r_id n) || bool_decide (r_id n ∈ g_ing d) then handle_list d cur rest
      else
        let d0 := Disc (g_ing d) (g_addr d) (g_id d) (g_reg d) (g_mail d) (g_groups d) (S (g_time d)) (g_next d) (g_log d) in
        if conn (g_time d) (r_addr n) then
          let d1 := Disc ({[ r_id n ]} ∪ g_ing d0) (g_addr d0) (g_id d0) (<[r_id n := Joining]> (g_reg d0))
                      (g_mail d0) (g_groups d0) (g_time d0) (g_next d0) (g_log d0 ++ [VShake n]) in
          let '(d2, l) := handle_list d1 cur rest in (d2, n :: l)
        else handle_list d0 cur rest
  end.

(** mod.rs:112-166 *)
Definition handle_nodes (d : disc) (nodes : list rnode) (cb : option nat) : disc :=
  let '(d1, l) := handle_list d (g_reg d) nodes in
  with_groups d1 (g_groups d1 ++ [(l, cb)]).

(** mod.rs:171-200 *)
Definition handle_forget (d : disc) (addr : string) : disc :=
  let d := tell d [VForgot addr] in
  match g_addr d !! addr with
  | None => d
  | Some i =>
      let d1 := Disc (g_ing d) (delete addr (g_addr d)) (delete (r_id (i_node i)) (g_id d)) (g_reg d)
                  (g_mail d) (g_groups d) (g_time d) (g_next d) (g_log d) in
      match g_id d !! r_id (i_node i) with
      | Some j => tell d1 [VRemoved (i_node j)]
      | None => d1
      end
  end.

(** mod.rs:211-234 *)
Definition handle_done (d : disc) (n : rnode) (successful : bool) : disc :=
  if successful then
    if decide (r_id n ∈ g_ing d) then
      tell (Disc (g_ing d ∖ {[ r_id n ]}) (g_addr d) (g_id d) (g_reg d) (g_mail d) (g_groups d)
              (g_time d) (g_next d) (g_log d)) [VAdded n]
    else d
  else tell d [VFailed n].

Definition handle_msg (d : disc) (ord1 ord2 : list N) (m : dmsg) : disc :=
  match m with
  | MAddr a cb => handle_addr d ord1 ord2 a cb
  | MNodes l cb => handle_nodes d l cb
  | MForget a => handle_forget d a
  | MDone n ok => handle_done d n ok
  end.

(** What other parts of the node ask for. *)
Inductive ask := AAddr (addr : string) | ANodes (nodes : list rnode) | AForget (addr : string).

(** A request arrives, with a callback or not; the actor handles its next message; handshake [i]
    of task [j] ends (mod.rs:236-262: within a bounded time, net/client/mod.rs:136-158); task [j]
    ends (mod.rs:152-163); the registry changes the status of a node. *)
Inductive qop :=
| QAsk (r : ask) (cb : bool)
| QHandle (ord1 ord2 : list N)
| QShake (j i : nat) (ok : bool)
| QJoin (j : nat)
| QReg (n : N) (s : nstatus).

Definition qstep (d : disc) (o : qop) : option disc :=
  match o with
  | QAsk r cb =>
      let c := if cb then Some (g_next d) else None in
      let d1 := with_next d (if cb then S (g_next d) else g_next d) in
      match r with
      | AAddr a => Some (with_mail d1 (g_mail d ++ [MAddr a c]))
      | ANodes l => Some (with_mail d1 (g_mail d ++ [MNodes l c]))
      | AForget a => Some (with_mail d (g_mail d ++ [MForget a]))
      end
  | QHandle ord1 ord2 =>
      match g_mail d with
      | [] => None
      | m :: rest => Some (handle_msg (with_mail d rest) ord1 ord2 m)
      end
  | QShake j i ok =>
      '(l, cb) ← g_groups d !! j;
      n ← l !! i;
      Some (with_mail (with_groups d (<[j := (delete i l, cb)]> (g_groups d))) (g_mail d ++ [MDone n ok]))
  | QJoin j =>
      '(l, cb) ← g_groups d !! j;
      match l with
      | [] => Some (answer (with_groups d (delete j (g_groups d))) cb true)
      | _ :: _ => None
      end
  | QReg n s => Some (with_reg d (<[n := s]> (g_reg d)))
  end.

Fixpoint qruns (d : disc) (l : list qop) : option disc :=
  match l with
  | [] => Some d
  | o :: l' => d' ← qstep d o; qruns d' l'
  end.

(** mod.rs:13-18: a new actor; the registry has whatever it has. *)
Definition new_disc (reg : gmap N nstatus) : disc := Disc ∅ ∅ ∅ reg [] [] 0 0 [].
End discovery.
