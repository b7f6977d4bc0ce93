(** Requests between nodes: the table of outstanding requests of a node (coerce/src/remote/actor/
    mod.rs, system/rpc.rs), the events that answer them, and a cluster of nodes that send
    requests to one another. *)
From Verif Require Export Wire_Model.

(** ** The table of one node *)
Section table.
(** [Uuid::from_str] (uuid crate): several texts denote the same id, most none. *)
Variable parse : bytes -> option N.

(** remote/actor/mod.rs:39-43 *)
Inductive response := ROk (b : bytes) | RErr (e : actor_ref_err).
(** What a requester sees on its channel: a response, or that the sender was dropped. *)
Inductive rend := Answered (r : response) | ChannelClosed.

(** remote/actor/mod.rs:16-18. Requesters (the receiving ends of the channels) are numbered in the
    order of [push_request]; [t_ended]: those whose channel got a value or was closed. *)
Record rtable := RTable {
  t_requests : gmap N nat;
  t_next : nat;
  t_ended : list (nat * rend)
}.
Definition new_table : rtable := RTable ∅ 0 [].

(** actor/mod.rs:21-23, rpc.rs:193-196; the sender that was stored under the same id is dropped *)
Definition push_request (t : rtable) (id : N) : rtable :=
  RTable (<[id := t_next t]> (t_requests t)) (S (t_next t))
         (t_ended t ++ match t_requests t !! id with Some k => [(k, ChannelClosed)] | None => [] end).
(** actor/mod.rs:25-27, rpc.rs:198-201, and the send (or the drop) of what was popped *)
Definition complete (t : rtable) (id : N) (r : rend) : rtable :=
  match t_requests t !! id with
  | Some k => RTable (delete id (t_requests t)) (t_next t) (t_ended t ++ [(k, r)])
  | None => t
  end.

(** client/receive.rs:60-156. [false]: the receive loop panics. The error of [Err] is unwrapped
    after the request was popped; [into] panics on an unknown kind of error. *)
Definition on_client_event (t : rtable) (e : client_event) : rtable * bool :=
  match e with
  | CResult r =>
      match parse (cr_message_id r) with
      | Some id => (complete t id (Answered (ROk (cr_result r))), true)
      | None => (t, false)
      end
  | CErr e =>
      match parse (ce_message_id e) with
      | Some id =>
          match t_requests t !! id with
          | Some _ =>
              match obind (unwrap (ce_error e)) err_of_proto with
              | Done err => (complete t id (Answered (RErr err)), true)
              | _ => (complete t id ChannelClosed, false)
              end
          | None => (t, true)
          end
      | None => (t, false)
      end
  | CPong p =>
      match parse (po_message_id p) with
      | Some id => (complete t id (Answered (ROk (write_msg pong_codec (PongEvent (po_message_id p) [])))), true)
      | None => (t, false)
      end
  | _ => (t, true)
  end.
(** server/session/mod.rs:357-396; here the error is unwrapped first. The other events do not
    touch the table. *)
Definition on_session_event (t : rtable) (e : session_event) : rtable * bool :=
  match e with
  | SResult r =>
      match parse (cr_message_id r) with
      | Some id => (complete t id (Answered (ROk (cr_result r))), true)
      | None => (t, false)
      end
  | SErr e =>
      match obind (unwrap (ce_error e)) err_of_proto with
      | Done err =>
          match parse (ce_message_id e) with
          | Some id => (complete t id (Answered (RErr err)), true)
          | None => (t, false)
          end
      | _ => (t, false)
      end
  | _ => (t, true)
  end.

(** The frames that arrive, each on a connection, whose receive loop may have panicked
    ([n_dead]); requests begun; answers of the node to itself (rpc.rs:118-122, 145-149). *)
Inductive side := ClientSide | SessionSide.
Inductive top :=
| TPush (id : N)
| TFrame (conn : N) (s : side) (frame : bytes)
| TLocal (id : N) (r : response).
Record rnode := RNode { n_table : rtable; n_dead : gset N }.
Definition new_rnode : rnode := RNode new_table ∅.
(** net/mod.rs:82-112 *)
Definition on_frame (t : rtable) (s : side) (frame : bytes) : rtable * bool :=
  match s with
  | ClientSide =>
      match read_client_event frame with Done e => on_client_event t e | Rejected => (t, true) | Panicked => (t, false) end
  | SessionSide =>
      match read_session_event frame with Done e => on_session_event t e | Rejected => (t, true) | Panicked => (t, false) end
  end.
Definition tstep (n : rnode) (o : top) : rnode :=
  match o with
  | TPush id => RNode (push_request (n_table n) id) (n_dead n)
  | TLocal id r => RNode (complete (n_table n) id (Answered r)) (n_dead n)
  | TFrame conn s frame =>
      if decide (conn ∈ n_dead n) then n
      else let '(t, ok) := on_frame (n_table n) s frame in
           RNode t (if ok then n_dead n else n_dead n ∪ {[conn]})
  end.
Definition trun (n : rnode) (l : list top) : rnode := fold_left tstep l n.
End table.

(** ** Nodes that send requests to one another *)
(** Ids are fresh ([Uuid::new_v4]): the node that made it and a number. *)
Notation rid := (N * N)%type.
(** What travels: a message for an actor, or another request that is answered with a result
    ([PRequest]; [resp]: whether a response is required); a ping; a result, error or pong. *)
Inductive packet :=
| PRequest (src dst : N) (id : rid) (resp : bool)
| PPing (src dst : N) (id : rid)
| PAnswer (dst : N) (id : rid).
(** A call that waits for its answer ([ping]: with a timeout), or has ended. *)
Inductive call := Waiting (ping : bool) | Ended.
(** [s_reqs]: the entries of the tables, of all nodes. *)
Record rsys := RSys {
  s_reqs : gset (N * rid);
  s_packets : list packet;
  s_next : N;
  s_calls : gmap rid call
}.
Definition new_rsys : rsys := RSys ∅ [] 0 ∅.

Inductive sop :=
| QSend (n m : N) (encodes : bool)    (* RemoteActorRef::send, actor_ref.rs:70-99; node_rpc_raw, rpc.rs:85-115 *)
| QNotify (n m : N)                   (* RemoteActorRef::notify, actor_ref.rs:52-68 *)
| QPing (n m : N)                     (* ping.rs:28-110 *)
| QTimeout (id : rid)                 (* ping.rs:83 *)
| QOk (i : nat)                       (* session/mod.rs:549-553, 566-588, 590-612, 318-350 *)
| QErr (i : nat)                      (* session/mod.rs:554-562 *)
| QNoReply (i : nat)                  (* session/mod.rs:613-617 *)
| QAnswer (i : nat)                   (* client/receive.rs:103-150, session/mod.rs:357-396 *)
| QLose (i : nat).                    (* lost with its connection *)

(** An answer at node [n] for [id]: pop and send. *)
Definition answer (s : rsys) (n : N) (id : rid) : rsys :=
  if decide ((n, id) ∈ s_reqs s) then
    RSys (s_reqs s ∖ {[(n, id)]}) (s_packets s) (s_next s)
         (match s_calls s !! id with Some (Waiting _) => if (fst id =? n)%N then <[id := Ended]> (s_calls s) else s_calls s | _ => s_calls s end)
  else s.
Definition drop_packet (s : rsys) (i : nat) : rsys := RSys (s_reqs s) (delete i (s_packets s)) (s_next s) (s_calls s).
Definition put_packet (s : rsys) (p : packet) : rsys := RSys (s_reqs s) (s_packets s ++ [p]) (s_next s) (s_calls s).

Definition sstep (s : rsys) (o : sop) : option rsys :=
  match o with
  | QSend n m encodes =>
      let id := (n, s_next s) in
      (* actor_ref.rs:78-80: the request is stored first; if the message cannot be encoded the
         call returns with the error *)
      Some (RSys (s_reqs s ∪ {[(n, id)]}) (s_packets s ++ (if encodes then [PRequest n m id true] else [])) (s_next s + 1)
                 (<[id := if encodes then Waiting false else Ended]> (s_calls s)))
  | QNotify n m => Some (RSys (s_reqs s) (s_packets s ++ [PRequest n m (n, s_next s) false]) (s_next s + 1) (s_calls s))
  | QPing n m =>
      let id := (n, s_next s) in
      Some (RSys (s_reqs s ∪ {[(n, id)]}) (s_packets s ++ [PPing n m id]) (s_next s + 1) (<[id := Waiting true]> (s_calls s)))
  | QTimeout id =>
      match s_calls s !! id with
      | Some (Waiting true) => Some (RSys (s_reqs s) (s_packets s) (s_next s) (<[id := Ended]> (s_calls s)))
      | _ => None
      end
  | QOk i =>
      match s_packets s !! i with
      | Some (PRequest src _ id resp) => Some (let s := drop_packet s i in if resp then put_packet s (PAnswer src id) else s)
      | Some (PPing src _ id) => Some (put_packet (drop_packet s i) (PAnswer src id))
      | _ => None
      end
  | QErr i =>
      match s_packets s !! i with
      | Some (PRequest src dst id _) =>
          Some (let s := drop_packet s i in
                (* rpc.rs:140-166: to another node the error goes as a request of its own, under
                   the same id, whose answer the task waits for *)
                if (src =? dst)%N then answer s dst id
                else put_packet (RSys (s_reqs s ∪ {[(dst, id)]}) (s_packets s) (s_next s) (s_calls s)) (PAnswer src id))
      | _ => None
      end
  | QNoReply i => match s_packets s !! i with Some (PRequest _ _ _ _) => Some (drop_packet s i) | _ => None end
  | QAnswer i => match s_packets s !! i with Some (PAnswer dst id) => Some (answer (drop_packet s i) dst id) | _ => None end
  | QLose i => match s_packets s !! i with Some _ => Some (drop_packet s i) | None => None end
  end.
Fixpoint srun (s : rsys) (l : list sop) : option rsys :=
  match l with [] => Some s | o :: l' => s' ← sstep s o; srun s' l' end.
