(** Messages sent through references, to actors of the own node and of other nodes, from the call
    to the answer (coerce/src/actor/refs/mod.rs, remote/actor_ref.rs, remote/system, the sessions). *)
From Verif Require Export Config_Model.

(** The errors a call may end with (actor/refs/mod.rs:263-284), without their texts. *)
Inductive rerr := EInvalidRef | EClosed | ESerialisation | EDeserialisation | ENotFound | ENotSupported.
Global Instance rerr_eq_dec : EqDecision rerr.
Proof. solve_decision. Defined.
(** What a call returns: [notify] was accepted, [send] got a result, an error. *)
Inductive outcome := RAccepted | RResult (r : N) | RFailed (e : rerr).

(** actor/refs/mod.rs:30-42, remote/actor_ref.rs:14-22: a local reference has the mailbox of an actor, a
    remote one the node and the id. *)
Inductive aref := Local (a : nat) | Remote (n id : N).
(** An actor that was started: its node, id and type. *)
Record inst := Inst { i_node : N; i_id : N; i_type : N }.

(** What a node answers (remote/actor/mod.rs:39-43). *)
Inductive answer := AOk (b : bytes) | AErr (e : rerr).
(** Where a call is: on its way under this name; its session task looks the actor up, having chosen the
    handler for a type of actor and of message; it has found an actor; the message is in a
    mailbox; the answer is on its way; something was lost; it is over. *)
Inductive phase :=
| QNet (name body : bytes)
| QTry (t : N * N) (body : bytes) (attempt : nat)
| QFound (t : N * N) (body : bytes) (a : nat)
| QMail (t : N * N) (v : N) (a : nat)
| QBack (x : answer)
| QLost
| QOver.
(** [c_type]: the types of the actor and of the message in the program of the caller; [c_val]: the
    message; [c_reply]: [send], not [notify]. *)
Record call := Call {
  c_from : N; c_ref : aref; c_type : N * N; c_val : N; c_reply : bool; c_phase : phase
}.

(** A call; the handler of actor [a] for a type of message ran ([None]: it panicked); a call
    returned. *)
Inductive event :=
| ECalled (k : nat) (from : N) (r : aref) (t : N * N) (v : N) (reply : bool)
| EHandled (k : nat) (a : nat) (t : N * N) (v : N) (r : option N)
| EReturned (k : nat) (x : outcome).

(** [y_open]: actors whose mailbox is open; [y_reg]: the schedulers of all nodes. *)
Record sys := Sys {
  y_insts : list inst;
  y_open : gset nat;
  y_reg : gmap (N * N) nat;
  y_calls : gmap nat call;
  y_next : nat;
  y_log : list event
}.
Definition new_sys : sys := Sys [] ∅ ∅ ∅ 0 [].

Inductive op :=
| OStart (n id ty : N)                 (* an actor starts and is registered *)
| OClose (a : nat)                     (* it has stopped: its mailbox is closed *)
| OForget (n id : N)                   (* the scheduler of its node forgets it *)
| OCall (n : N) (r : aref) (t : N * N) (v : N) (reply : bool)
| OArrive (k : nat)
| OTry (k : nat) (found : option nat)
| OSend (k : nat)
| OHandle (k : nat) (r : option N)
| ODrop (k : nat)                      (* the actor stopped before it got to the message *)
| OAnswer (k : nat)
| OLose (k : nat).                     (* lost with a connection, or no client for the node *)

Section refs.
(** The configuration of each node. *)
Variable conf : N -> config.
(** [M::as_bytes], [M::from_bytes], [M::write_remote_result], [M::read_remote_result], by type. *)
Variable enc : N -> N -> option bytes.
Variable dec : N -> bytes -> option N.
Variable renc : N -> N -> option bytes.
Variable rdec : N -> bytes -> option N.

Definition put (s : sys) (k : nat) (c : call) (l : list event) : sys :=
  Sys (y_insts s) (y_open s) (y_reg s) (<[k := c]> (y_calls s)) (y_next s) (y_log s ++ l).
Definition at_phase (c : call) (p : phase) : call := Call (c_from c) (c_ref c) (c_type c) (c_val c) (c_reply c) p.

(** server/session/mod.rs:549-563: the task of the session has the result. An error is sent even when
    no response is required; the caller does not know of such a request, so it is left out. *)
Definition reply_with (s : sys) (k : nat) (c : call) (x : answer) (l : list event) : sys :=
  put s k (at_phase c (if c_reply c then QBack x else QOver)) l.

(** Whether [get_actor_ref] (handler.rs:219-239) may find [a] for this id on this node: it was registered
    when the lookup took place, or it is in the cache and its mailbox is open. *)
Definition may_find (s : sys) (n id ty : N) (a : nat) : Prop :=
  y_insts s !! a = Some (Inst n id ty) /\ (a ∈ y_open s \/ y_reg s !! (n, id) = Some a).
Definition may_miss (s : sys) (n id ty : N) : Prop :=
  match y_reg s !! (n, id) with
  | Some a => match y_insts s !! a with Some i => i_type i <> ty | None => True end
  | None => True
  end.
Global Instance inst_eq_dec : EqDecision inst.
Proof. solve_decision. Defined.
Global Instance may_find_dec s n id ty a : Decision (may_find s n id ty a).
Proof. unfold may_find. apply _. Defined.
Global Instance may_miss_dec s n id ty : Decision (may_miss s n id ty).
Proof. unfold may_miss. destruct (y_reg s !! (n, id)) as [a|]; [destruct (y_insts s !! a)|]; apply _. Defined.

(** handler.rs:285 *)
Definition max_retries : nat := 10.

Definition step (s : sys) (o : op) : option sys :=
  match o with
  | OStart n id ty =>
      let a := length (y_insts s) in
      Some (Sys (y_insts s ++ [Inst n id ty]) (y_open s ∪ {[a]}) (<[(n, id) := a]> (y_reg s)) (y_calls s) (y_next s) (y_log s))
  | OClose a => Some (Sys (y_insts s) (y_open s ∖ {[a]}) (y_reg s) (y_calls s) (y_next s) (y_log s))
  | OForget n id => Some (Sys (y_insts s) (y_open s) (delete (n, id) (y_reg s)) (y_calls s) (y_next s) (y_log s))
  | OCall n r t v reply =>
      let k := y_next s in
      let s := Sys (y_insts s) (y_open s) (y_reg s) (y_calls s) (S k) (y_log s ++ [ECalled k n r t v reply]) in
      let c := Call n r t v reply in
      match r with
      | Local a =>
          (* refs/mod.rs:382-420, 474-490 *)
          if decide (a ∈ y_open s) then Some (put s k (c (QMail t v a)) (if reply then [] else [EReturned k RAccepted]))
          else Some (put s k (c QOver) [EReturned k (RFailed EInvalidRef)])
      | Remote m id =>
          (* refs/mod.rs:124-153; actor_ref.rs:52-99, 101-127 *)
          match enc t.2 v with
          | None => Some (put s k (c QOver) [EReturned k (RFailed ESerialisation)])
          | Some body =>
              match handler_name (conf n) t.1 t.2 with
              | None => Some (put s k (c QOver) [EReturned k (RFailed ENotSupported)])
              | Some name => Some (put s k (c (QNet name body)) (if reply then [] else [EReturned k RAccepted]))
              end
          end
      end
  | OArrive k =>
      match y_calls s !! k with
      | Some c =>
          match c_phase c, c_ref c with
          | QNet name body, Remote m _ =>
              (* rpc.rs:168-190 *)
              match message_handler (conf m) name with
              | Some t => Some (put s k (at_phase c (QTry t body 1)) [])
              | None => Some (reply_with s k c (AErr ENotSupported) [])
              end
          | _, _ => None
          end
      | None => None
      end
  | OTry k found =>
      match y_calls s !! k with
      | Some c =>
          match c_phase c, c_ref c with
          | QTry t body attempt, Remote m id =>
              match found with
              | Some a =>
                  if decide (may_find s m id t.1 a) then Some (put s k (at_phase c (QFound t body a)) []) else None
              | None =>
                  (* handler.rs:284-304 *)
                  if decide (may_miss s m id t.1) then
                    Some (if (max_retries <=? S attempt)%nat then reply_with s k c (AErr ENotFound) []
                          else put s k (at_phase c (QTry t body (S attempt))) [])
                  else None
              end
          | _, _ => None
          end
      | None => None
      end
  | OSend k =>
      match y_calls s !! k with
      | Some c =>
          match c_phase c with
          | QFound t body a =>
              (* handler.rs:255-259, 276-280 *)
              match dec t.2 body with
              | Some v => if decide (a ∈ y_open s) then Some (put s k (at_phase c (QMail t v a)) [])
                          else Some (reply_with s k c (AErr EClosed) [])
              | None => Some (reply_with s k c (AErr EDeserialisation) [])
              end
          | _ => None
          end
      | None => None
      end
  | OHandle k r =>
      match y_calls s !! k with
      | Some c =>
          match c_phase c with
          | QMail t v a =>
              if decide (a ∈ y_open s) then
                let l := [EHandled k a t v r] in
                Some (match c_ref c with
                      | Local _ =>
                          put s k (at_phase c QOver)
                            (l ++ if c_reply c then [EReturned k (match r with Some x => RResult x | None => RFailed EClosed end)] else [])
                      | Remote _ _ =>
                          (* handler.rs:260-273; rpc.rs:179-182: a dropped channel *)
                          reply_with s k c
                            (match r with
                             | Some x => match renc t.2 x with Some b => AOk b | None => AErr ESerialisation end
                             | None => AErr EClosed
                             end) l
                      end)
              else None
          | _ => None
          end
      | None => None
      end
  | ODrop k =>
      match y_calls s !! k with
      | Some c =>
          match c_phase c with
          | QMail t v a =>
              if decide (a ∈ y_open s) then None
              else Some (match c_ref c with
                         | Local _ => put s k (at_phase c QOver) (if c_reply c then [EReturned k (RFailed EClosed)] else [])
                         | Remote _ _ => reply_with s k c (AErr EClosed) []
                         end)
          | _ => None
          end
      | None => None
      end
  | OAnswer k =>
      match y_calls s !! k with
      | Some c =>
          match c_phase c with
          | QBack x =>
              (* actor_ref.rs:84-98 *)
              Some (put s k (at_phase c QOver)
                [EReturned k (match x with
                              | AOk b => match rdec (c_type c).2 b with Some r => RResult r | None => RFailed EDeserialisation end
                              | AErr e => RFailed e
                              end)])
          | _ => None
          end
      | None => None
      end
  | OLose k =>
      match y_calls s !! k with
      | Some c => match c_phase c with QNet _ _ | QBack _ => Some (put s k (at_phase c QLost) []) | _ => None end
      | None => None
      end
  end.

Fixpoint run (s : sys) (l : list op) : option sys :=
  match l with [] => Some s | o :: l' => s' ← step s o; run s' l' end.
End refs.
