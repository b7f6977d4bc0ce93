(** Requests to sharded entities, from the call to the answer (coerce/src/sharding): the callers,
    the shard hosts and shards of all nodes and the requests between them. *)
From Verif Require Export Host_Model.
From Verif Require Import Entity_Model.

Local Open Scope N_scope.

(** A request: which call it stems from, the entity, the message. [t_origin]: the node that waits
    for the answer, if the request was sent to another node (RemoteEntityRequest). *)
Record ticket := Ticket { t_call : N; t_ent : N; t_msg : bytes; t_origin : option N }.
(** host/request.rs:18-24. The result channel belongs to the ticket. *)
Record sreq := SReq { r_ticket : ticket; r_recipe : option N }.

Inductive serr := SSerialisation | SDeserialisation | SNotSupported | SClosed | SUnavailable | SNotFound | SInvalidRef.
Inductive sresult := SOk (v : bytes) | SErr (e : serr).

Local Notation ents := (gmap N (N * estate ticket)).

(** What is under way; the first number is the node on which the task runs. *)
Inductive task :=
| TShard (n s a : N) (r : sreq)              (* request.rs:45-62: to a shard actor of this node *)
| TRemote (n m s : N) (r : sreq)             (* request.rs:123-171: to the shard on node [m] *)
| TEntity (n s a id e : N) (t : ticket)      (* shard/mod.rs:368-373: to the entity actor [e] *)
| TAnswer (n : N) (k origin : N) (x : sresult)   (* shard/mod.rs:484-501: the result for another node *)
| TCreate (n s a id rc : N).                 (* shard/mod.rs:303-318: an entity is being created *)

(** [z_mail]: the requests in the mailboxes of the hosts; [z_shards]: the shard actors that run,
    by node, shard and number; [z_waiting]: the table of outstanding requests of all nodes
    (remote/system/rpc.rs:186-189), by call; [z_next] numbers the calls. *)
Record sys := Sys {
  z_hosts : gmap N (host sreq);
  z_mail : list (N * sreq);
  z_tasks : list task;
  z_shards : gmap (N * N * N) ents;
  z_waiting : gmap N N;
  z_next : N;
  z_nexte : N }.
Definition sys_init (nodes : list N) : sys :=
  Sys (list_to_map (map (fun n => (n, host_init n)) nodes)) [] [] ∅ ∅ 0 0.

(** What can be observed: a call, the handler of an entity actor runs, a call returns; [ZGone] is
    not visible to anybody: the request or its answer has disappeared. *)
Inductive zevent :=
| ZCalled (k n id : N) (m : bytes)
| ZHandled (k id e : N) (m : bytes) (v : option bytes)     (* [None]: the handler panicked *)
| ZReturned (k : N) (x : sresult)
| ZGone (k : N).

(** What becomes of a request that reaches its entity actor (remote/handler.rs:308-371): it is
    handled and the result is encoded or not; the handler panics; the actor is not there any more;
    the message cannot be decoded; the actor has another type. *)
Inductive outcome := DDone (v : bytes) | DUnencoded (v : bytes) | DPanicked | DRefused | DUndecoded | DOtherType.

Inductive zop :=
| OCall (n id : N) (m : bytes) (recipe : option N) (encodes typed : bool)   (* [Sharded::send] *)
| OHandle (i : nat)                            (* the host handles the [i]th request *)
| OControl (n : N) (c : hmsg sreq)             (* the host handles any other message *)
| OArrive (i : nat) (a : N) (known : bool)     (* a request reaches a shard; [a]: the actor that is found on
                                                  the other node; [known]: whether it knows the message type *)
| OLose (i : nat)                              (* what goes to another node is lost *)
| OEntity (i : nat) (d : outcome)              (* a request reaches its entity actor *)
| OAnswer (i : nat)                            (* an answer arrives *)
| OCreated (i : nat) (ok : bool)               (* the creation of an entity ends *)
| OStartEntity (n s a id rc : N)               (* StartEntity, or recovery of the shard *)
| OStopShard (n s a : N)                       (* a shard actor stops *)
| OCrash (n : N).

Section sharded.
(** The shard of an entity ([ShardAllocator::allocate], host/mod.rs:62-84); whether a result can
    be decoded ([M::read_remote_result]). *)
Variable shard_of : N -> N.
Variable readable : bytes -> bool.

(** sharding/mod.rs:196-205: what the caller gets. *)
Definition returned (x : sresult) : sresult :=
  match x with SOk v => if readable v then SOk v else SErr SDeserialisation | SErr e => SErr e end.

(** The result channel of a request is used, or dropped ([SErr SClosed]): the caller itself waits
    for it (sharding/mod.rs:196), or a task that answers the other node (shard/mod.rs:484-501). *)
Definition resolve (n : N) (t : ticket) (x : sresult) : list task * list zevent :=
  match t_origin t with
  | None => ([], [ZReturned (t_call t) (returned x)])
  | Some o => ([TAnswer n (t_call t) o x], [])
  end.
Definition resolve_all (n : N) (l : list (ticket * sresult)) : list task * list zevent :=
  (flat_map (fun p => (resolve n p.1 p.2).1) l, flat_map (fun p => (resolve n p.1 p.2).2) l).

(** The effects of the host of [n] (host/request.rs): a dropped request closes its channel. A
    request to another node is entered into the table and gets a ticket for the way. *)
Definition host_tasks (n : N) (eff : list (heffect sreq)) : list task :=
  omap (fun e => match e with
                 | HForward s a r => Some (TShard n s a r)
                 | HRemote s m r => Some (TRemote n m s r)
                 | _ => None end) eff.
Definition host_dropped (eff : list (heffect sreq)) : list (ticket * sresult) :=
  omap (fun e => match e with HLost _ r => Some (r_ticket r, SErr SClosed) | _ => None end) eff.
Definition host_waiting (eff : list (heffect sreq)) : list N :=
  omap (fun e => match e with HRemote _ _ r => Some (t_call (r_ticket r)) | _ => None end) eff.
(** host/mod.rs:202-218: shard actors that are created, without entities *)
Definition host_started (n : N) (eff : list (heffect sreq)) : list (N * N * N) :=
  omap (fun e => match e with HStart s a => Some (n, s, a) | _ => None end) eff.

Definition do_host (z : sys) (n : N) (mail : list (N * sreq)) (h : host sreq) (eff : list (heffect sreq)) : sys * list zevent :=
  let '(ts, evs) := resolve_all n (host_dropped eff) in
  (Sys (<[n := h]> (z_hosts z)) mail (z_tasks z ++ host_tasks n eff ++ ts)
       (fold_right (fun x (m : gmap (N * N * N) ents) => match m !! x with Some _ => m | None => <[x := ∅]> m end)
                   (z_shards z) (host_started n eff))
       (fold_right (fun x w => <[x := n]> w) (z_waiting z) (host_waiting eff)) (z_next z) (z_nexte z), evs).

(** The effects of a shard (shard/mod.rs). *)
Definition err_of (e : eerr) : serr :=
  match e with NotSupported => SNotSupported | NotFound => SNotFound | ActorUnavailable => SUnavailable end.
Definition shard_tasks (n s a : N) (eff : list (eeffect ticket)) : list task :=
  omap (fun e => match e with
                 | EForward id x t => Some (TEntity n s a id x t)
                 | ECreate id rc => Some (TCreate n s a id rc)
                 | _ => None end) eff.
Definition shard_replies (eff : list (eeffect ticket)) : list (ticket * sresult) :=
  omap (fun e => match e with
                 | EReply _ t e => Some (t, SErr (err_of e))
                 | EDrop _ t => Some (t, SErr SClosed)
                 | _ => None end) eff.
Definition do_shard (z : sys) (n s a : N) (tasks : list task) (m : ents) (eff : list (eeffect ticket)) : sys * list zevent :=
  let '(ts, evs) := resolve_all n (shard_replies eff) in
  (Sys (z_hosts z) (z_mail z) (tasks ++ shard_tasks n s a eff ++ ts) (<[(n, s, a) := m]> (z_shards z))
       (z_waiting z) (z_next z) (z_nexte z), evs).

Definition set_tasks (z : sys) (l : list task) : sys :=
  Sys (z_hosts z) (z_mail z) l (z_shards z) (z_waiting z) (z_next z) (z_nexte z).
Definition do_resolve (z : sys) (tasks : list task) (n : N) (t : ticket) (x : sresult) : sys * list zevent :=
  let '(ts, evs) := resolve n t x in (set_tasks z (tasks ++ ts), evs).

(** The requests a shard keeps. *)
Definition kept_tickets (m : ents) : list (ticket * sresult) :=
  flat_map (fun x => match x.2.2 with EStarting buf => map (fun t => (t, SErr SClosed)) buf | _ => [] end) (map_to_list m).

(** remote/handler.rs:317-370 *)
Definition entity_result (d : outcome) : sresult :=
  match d with
  | DDone v => SOk v
  | DUnencoded _ => SErr SSerialisation
  | DPanicked | DRefused => SErr SClosed
  | DUndecoded => SErr SDeserialisation
  | DOtherType => SErr SInvalidRef
  end.
Definition entity_handled (d : outcome) : option (option bytes) :=
  match d with DDone v | DUnencoded v => Some (Some v) | DPanicked => Some None | _ => None end.

Definition task_node (t : task) : N :=
  match t with TShard n _ _ _ | TRemote n _ _ _ | TEntity n _ _ _ _ _ | TAnswer n _ _ _ | TCreate n _ _ _ _ => n end.
(** The call a task belongs to. *)
Definition task_call (t : task) : option N :=
  match t with
  | TShard _ _ _ r | TRemote _ _ _ r => Some (t_call (r_ticket r))
  | TEntity _ _ _ _ _ t => Some (t_call t)
  | TAnswer _ k _ _ => Some k
  | TCreate _ _ _ _ _ => None
  end.
Definition gone (l : list N) : list zevent := map ZGone l.

(** A request with its ticket arrives at the shard. *)
Definition shard_request (z : sys) (n s a : N) (tasks : list task) (m : ents) (r : sreq) (t : ticket) (known : bool) : sys * list zevent :=
  let '(m', eff) := on_entity_request m (EReq (t_ent t) (r_recipe r) known t) in do_shard z n s a tasks m' eff.

(** A node that dies takes everything on it with it, and what other nodes sent to it is not
    answered. *)
Definition keep_node (n : N) (x : N) : bool := negb (x =? n).
Definition hosted_tickets (h : host sreq) : list N :=
  flat_map (fun x => match x.2 with HStarting _ buf _ => map (fun r => t_call (r_ticket r)) buf | _ => [] end) (map_to_list (sh_hosted h)) ++
  flat_map (fun x => map (fun r => t_call (r_ticket r)) x.2) (map_to_list (sh_pending h)).
Definition crashed_calls (z : sys) (n : N) : list N :=
  omap (fun p : N * sreq => if p.1 =? n then Some (t_call (r_ticket p.2)) else None) (z_mail z) ++
  match z_hosts z !! n with Some h => hosted_tickets h | None => [] end ++
  omap (fun t => if task_node t =? n then task_call t else None) (z_tasks z) ++
  flat_map (fun x => if x.1.1.1 =? n then map (fun p => t_call p.1) (kept_tickets x.2) else []) (map_to_list (z_shards z)).

Definition zstep (z : sys) (o : zop) : sys * list zevent :=
  match o with
  | OCall n id m recipe encodes typed =>
      (* sharding/mod.rs:170-206; a host that is not there drops the request *)
      let k := z_next z in
      let z' mail := Sys (z_hosts z) mail (z_tasks z) (z_shards z) (z_waiting z) (k + 1) (z_nexte z) in
      let ev := ZCalled k n id m in
      if (encodes : bool) then
        if (typed : bool) then
          match z_hosts z !! n with
          | Some _ => (z' (z_mail z ++ [(n, SReq (Ticket k id m None) recipe)]), [ev])
          | None => (z' (z_mail z), [ev; ZReturned k (SErr SClosed)])
          end
        else (z' (z_mail z), [ev; ZReturned k (SErr SNotSupported)])
      else (z' (z_mail z), [ev; ZReturned k (SErr SSerialisation)])
  | OHandle i =>
      match z_mail z !! i with
      | Some (n, r) =>
          match z_hosts z !! n with
          | Some h =>
              let '(h', eff) := hstep h (MRequest (shard_of (t_ent (r_ticket r))) r) in
              do_host z n (remove_nth i (z_mail z)) h' eff
          | None => (z, [])
          end
      | None => (z, [])
      end
  | OControl n (MRequest _ _) => (z, [])
  | OControl n c =>
      match z_hosts z !! n with
      | Some h => let '(h', eff) := hstep h c in do_host z n (z_mail z) h' eff
      | None => (z, [])
      end
  | OArrive i a known =>
      let tasks := remove_nth i (z_tasks z) in
      match z_tasks z !! i with
      | Some (TShard n s a' r) =>
          match z_shards z !! (n, s, a') with
          | Some m => shard_request z n s a' tasks m r (r_ticket r) known
          | None => do_resolve z tasks n (r_ticket r) (SErr SClosed)
          end
      | Some (TRemote n m s r) =>
          (* session/mod.rs:527-564, rpc.rs:168-190; if the shard is not found the error is sent with
             the id of the message, not that of the request *)
          let t := r_ticket r in
          match z_shards z !! (m, s, a) with
          | Some e => shard_request z m s a tasks e r (Ticket (t_call t) (t_ent t) (t_msg t) (Some n)) known
          | None => (set_tasks z tasks, [ZGone (t_call t)])
          end
      | _ => (z, [])
      end
  | OLose i =>
      match z_tasks z !! i with
      | Some (TRemote _ _ _ r) => (set_tasks z (remove_nth i (z_tasks z)), [ZGone (t_call (r_ticket r))])
      | Some (TAnswer _ k _ _) => (set_tasks z (remove_nth i (z_tasks z)), [ZGone k])
      | _ => (z, [])
      end
  | OEntity i d =>
      match z_tasks z !! i with
      | Some (TEntity n s a id e t) =>
          let '(z', evs) := do_resolve z (remove_nth i (z_tasks z)) n t (entity_result d) in
          (z', match entity_handled d with Some v => ZHandled (t_call t) id e (t_msg t) v :: evs | None => evs end)
      | _ => (z, [])
      end
  | OAnswer i =>
      match z_tasks z !! i with
      | Some (TAnswer _ k origin x) =>
          (* net/client/receive.rs:107-131, session/mod.rs:376-406; request.rs:151-163 *)
          let tasks := remove_nth i (z_tasks z) in
          match z_waiting z !! k with
          | Some _ => (Sys (z_hosts z) (z_mail z) tasks (z_shards z) (delete k (z_waiting z)) (z_next z) (z_nexte z), [ZReturned k (returned x)])
          | None => (set_tasks z tasks, [ZGone k])
          end
      | _ => (z, [])
      end
  | OCreated i ok =>
      match z_tasks z !! i with
      | Some (TCreate n s a id rc) =>
          let z' := Sys (z_hosts z) (z_mail z) (z_tasks z) (z_shards z) (z_waiting z) (z_next z) (z_nexte z + 1) in
          let tasks := remove_nth i (z_tasks z) in
          match z_shards z !! (n, s, a) with
          | Some m => let '(m', eff) := on_start_result m id (if (ok : bool) then Some (z_nexte z) else None) in do_shard z' n s a tasks m' eff
          | None => (set_tasks z' tasks, [])
          end
      | _ => (z, [])
      end
  | OStartEntity n s a id rc =>
      match z_shards z !! (n, s, a) with
      | Some m => let '(m', eff) := on_start_entity m id rc in do_shard z n s a (z_tasks z) m' eff
      | None => (z, [])
      end
  | OStopShard n s a =>
      match z_shards z !! (n, s, a) with
      | Some m =>
          let '(ts, evs) := resolve_all n (kept_tickets m) in
          (Sys (z_hosts z) (z_mail z) (z_tasks z ++ ts) (delete (n, s, a) (z_shards z)) (z_waiting z) (z_next z) (z_nexte z), evs)
      | None => (z, [])
      end
  | OCrash n =>
      (Sys (delete n (z_hosts z)) (List.filter (fun p => keep_node n p.1) (z_mail z))
           (List.filter (fun t => keep_node n (task_node t)) (z_tasks z))
           (filter (fun x => x.1.1.1 <> n) (z_shards z)) (filter (fun x => x.2 <> n) (z_waiting z)) (z_next z) (z_nexte z),
       gone (crashed_calls z n))
  end.

Definition zrun (nodes : list N) (ops : list zop) : sys * list zevent :=
  let '(z, evs) := run zstep (sys_init nodes) ops in (z, concat evs).

End sharded.
