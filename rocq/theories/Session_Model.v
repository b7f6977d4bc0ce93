(** Incoming connections: authentication (coerce/src/remote/net/security/auth), sessions
    (remote/net/server/session), the store of sessions and the accept loop (remote/net/server). *)
From Verif Require Export Wire_Model.

(** ** Tokens *)
Section tokens.
(** [VerifyWithKey::verify_with_key] (jwt crate) with the key of the node: the timestamp in the
    payload of a token that was signed with it. *)
Variable verify : bytes -> option Z.
(** What a [chrono::Duration] and a [DateTime] can hold. *)
Variables max_ttl max_date : Z.

(** auth/mod.rs:4-9, jwt.rs:10-13. Times in any unit. *)
Inductive auth := NoAuth | JwtAuth (ttl : option Z).
(** jwt.rs:56-65. [from_std(..).unwrap()] and the sum panic beyond the ranges. *)
Definition is_token_still_valid (now ts ttl : Z) : outcome bool :=
  if (max_ttl <? ttl)%Z then Panicked
  else if (max_date <? ts + ttl)%Z then Panicked
  else Done (now <=? ts + ttl)%Z.
(** jwt.rs:40-53, auth/mod.rs:28-35 *)
Definition validate_token (a : auth) (now : Z) (token : bytes) : outcome bool :=
  match a with
  | NoAuth => Done true
  | JwtAuth ttl =>
      match verify token with
      | Some ts => match ttl with Some ttl => is_token_still_valid now ts ttl | None => Done true end
      | None => Done false
      end
  end.
(** session/mod.rs:147-196. [None]: the stream ended or failed. *)
Definition validate_session_token (a : auth) (now : Z) (frame : option bytes) : outcome bool :=
  match frame with
  | None => Done false
  | Some f =>
      match read_session_event f with
      | Done (SIdentify e) => validate_token a now (ie_token e)
      | Panicked => Panicked
      | _ => Done false
      end
  end.

(** ** The server *)
(** Whether the handling of an event panics the receive loop (ids that are no uuids,
    session/mod.rs:259-400). *)
Variable crashes : session_event -> bool.
Variable a : auth.

Inductive conn :=
| Backlog        (* connected, not accepted yet *)
| Accepted       (* its [NewSession] is on its way *)
| Starting       (* the session waits for its first frame *)
| Open
| Deaf           (* the receive loop panicked: the session stays, nothing more is read *)
| Stopping       (* the session waits for the answer to [SessionClosed] *)
| Gone.
(** The store of sessions: it handles one message at a time. *)
Inductive store := SIdle | SBusy (c : N) | SDead.
Inductive smsg := MNew (c : N) | MClosed (c : N).
(** The accept loop, server/mod.rs:111-149. *)
Inductive aloop := LAccept | LWait (c : N).
(** What becomes visible: the identity of the node is sent (session/mod.rs:92-118), an event is
    handled. *)
Inductive seffect := EIdentity (c : N) | EEvent (c : N) (e : session_event).
Record server := Server {
  v_conns : gmap N conn;
  v_backlog : list N;
  v_loop : aloop;
  v_store : store;
  v_queue : list smsg;
  v_effects : list seffect
}.
Definition new_server : server := Server ∅ [] LAccept SIdle [] [].
Definition set_conn (s : server) (c : N) (x : conn) : gmap N conn := <[c := x]> (v_conns s).

Inductive vop :=
| VConnect (c : N)
| VAccept
| VStore
| VFirst (c : N) (now : Z) (frame : option bytes)
| VFrame (c : N) (frame : bytes)
| VClose (c : N).

Definition is_stopping (x : conn) : bool := match x with Stopping => true | _ => false end.
(** session/mod.rs:133-144: [send(SessionClosed)]; to a store that is gone it fails at once. *)
Definition close_session (s : server) (c : N) : server :=
  match v_store s with
  | SDead => Server (set_conn s c Gone) (v_backlog s) (v_loop s) SDead (v_queue s) (v_effects s)
  | st => Server (set_conn s c Stopping) (v_backlog s) (v_loop s) st (v_queue s ++ [MClosed c]) (v_effects s)
  end.
Definition vstep (s : server) (o : vop) : option server :=
  match o with
  | VConnect c =>
      match v_conns s !! c with
      | Some _ => None
      | None => Some (Server (set_conn s c Backlog) (v_backlog s ++ [c]) (v_loop s) (v_store s) (v_queue s) (v_effects s))
      end
  | VAccept =>
      (* server/mod.rs:119-144; an error of [send] is logged, and the stream is dropped *)
      match v_loop s, v_backlog s with
      | LAccept, c :: b =>
          Some (match v_store s with
                | SDead => Server (set_conn s c Gone) b LAccept SDead (v_queue s) (v_effects s)
                | st => Server (set_conn s c Accepted) b (LWait c) st (v_queue s ++ [MNew c]) (v_effects s)
                end)
      | _, _ => None
      end
  | VStore =>
      match v_store s, v_queue s with
      | SIdle, MNew c :: q =>
          (* store.rs:50-57: the handler waits until the session has started *)
          Some (Server (set_conn s c Starting) (v_backlog s) (v_loop s) (SBusy c) q (v_effects s))
      | SIdle, MClosed c :: q =>
          (* store.rs:66-72 *)
          Some (Server (set_conn s c Gone) (v_backlog s) (v_loop s) SIdle q (v_effects s))
      | _, _ => None
      end
  | VFirst c now frame =>
      match v_conns s !! c with
      | Some Starting =>
          match validate_session_token a now frame with
          | Done true =>
              (* session/mod.rs:92-130; lifecycle.rs:77-79: started; store.rs:58-62: the answer *)
              Some (Server (set_conn s c Open) (v_backlog s) LAccept SIdle (v_queue s) (v_effects s ++ [EIdentity c]))
          | Panicked =>
              (* the task of the session ends, [ctx.spawn] fails, [expect] panics in the store,
                 the messages for it and their senders are dropped *)
              Some (Server ((fun x => if is_stopping x then Gone else x) <$> set_conn s c Gone) (v_backlog s) LAccept SDead [] (v_effects s))
          | _ =>
              (* session/mod.rs:84-87, lifecycle.rs:69-71: [stopped] is called before the sender of
                 [on_start] is dropped *)
              Some (close_session s c)
          end
      | _ => None
      end
  | VFrame c frame =>
      match v_conns s !! c with
      | Some Open =>
          match read_session_event frame with
          | Done e => Some (Server (if crashes e then set_conn s c Deaf else v_conns s) (v_backlog s) (v_loop s) (v_store s) (v_queue s) (v_effects s ++ [EEvent c e]))
          | Rejected => Some s
          | Panicked => Some (Server (set_conn s c Deaf) (v_backlog s) (v_loop s) (v_store s) (v_queue s) (v_effects s))
          end
      | _ => None
      end
  | VClose c =>
      (* session/mod.rs:402-404: the receive loop ended, the session is stopped *)
      match v_conns s !! c with Some Open => Some (close_session s c) | _ => None end
  end.
Fixpoint vrun (s : server) (l : list vop) : option server :=
  match l with [] => Some s | o :: l' => s' ← vstep s o; vrun s' l' end.
End tokens.
