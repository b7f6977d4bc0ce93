(** Delivery of a remote message to a local actor: the task that the session starts for it
    (coerce/src/remote/net/server/session/mod.rs), the lookups with their retries and the cache
    of references (remote/handler.rs, remote/system/rpc.rs). *)
From Verif Require Export Base.

Section delivery.
(** The message handlers of the systems, by identifier: the actor type ([config.message_handler],
    remote/config.rs); the decoder of the message ([M::from_envelope]). *)
Variable handler : N -> option N.
Variable M : Type.
Variable decode : N -> bytes -> option M.

(** An actor that was started: in which system, its id and its type. Instances are numbered in the
    order in which they were started. *)
Record inst := Inst { i_sys : N; i_id : N; i_type : N }.
(** The error that the caller gets (actor/refs/mod.rs, [ActorRefErr]), or the encoded result. *)
Inductive derr := DNotFound | DDeserialisation | DSerialisation | DClosed | DNotSupported | DInvalidRef.
Inductive dresult := DOk (b : bytes) | DErr (e : derr).
Inductive tstate :=
| Trying (attempt : nat)       (* before the lookup of this attempt *)
| Found (a : nat)              (* before the message is decoded and sent *)
| Sent (a : nat)               (* the actor has it in its mailbox *)
| Finished (r : dresult).
Record task := Task { k_sys : N; k_ident : N; k_id : N; k_body : bytes; k_state : tstate }.

(** One process: [w_open]: the instances whose mailbox is open; [w_tracked]: the schedulers, by
    system and id; [w_cache]: [ACTOR_REF_CACHE], one for the process, by id alone; [w_tasks]: by
    number of arrival; [w_mail]: what was put into mailboxes: instance, number of the task and
    message; [w_seen]: the lookups that were made, by whom and with what result. *)
Record world := World {
  w_insts : list inst;
  w_open : gset nat;
  w_tracked : gmap (N * N) nat;
  w_cache : gmap N nat;
  w_tasks : list task;
  w_mail : list (nat * nat * M);
  w_seen : list (nat * option nat)
}.
Definition new_world : world := World [] ∅ ∅ ∅ [] [] [].

(** [as_actor]: of this type? *)
Definition of_type (w : world) (ty : N) (a : nat) : bool :=
  match w_insts w !! a with Some i => (i_type i =? ty)%N | None => false end.
(** handler.rs:219-239: the reference in the cache if it has the type and its mailbox is open,
    else that of the scheduler of the system (scheduler/mod.rs:242-245), which is cached. *)
Definition get_actor_ref (w : world) (sys ty id : N) : option nat * gmap N nat :=
  let tracked :=
    match w_tracked w !! (sys, id) with
    | Some a => if of_type w ty a then (Some a, <[id := a]> (w_cache w)) else (None, w_cache w)
    | None => (None, w_cache w)
    end in
  match w_cache w !! id with
  | Some a => if of_type w ty a && bool_decide (a ∈ w_open w) then (Some a, w_cache w) else tracked
  | None => tracked
  end.

Definition set_task (w : world) (n : nat) (k : task) (s : tstate) : list task :=
  <[n := Task (k_sys k) (k_ident k) (k_id k) (k_body k) s]> (w_tasks w).
(** handler.rs:285 *)
Definition max_retries : nat := 10.

Inductive wop :=
| WStart (sys id ty : N)            (* an actor is started and registered *)
| WClose (a : nat)                  (* its mailbox is closed: it has stopped *)
| WForget (sys id : N)              (* the scheduler forgets it *)
| WArrive (sys ident id : N) (b : bytes)  (* session/mod.rs:308-316: a task is spawned *)
| WTry (n : nat)                    (* handler.rs:254; 284-304 *)
| WSend (n : nat)                   (* handler.rs:255-259, 276-280 *)
| WReply (n : nat) (r : option bytes)   (* the actor has handled it; [None]: the result cannot be encoded *)
| WDropped (n : nat).               (* the actor stopped before it handled the message *)

Definition wstep (w : world) (o : wop) : option world :=
  match o with
  | WStart sys id ty =>
      let a := length (w_insts w) in
      Some (World (w_insts w ++ [Inst sys id ty]) (w_open w ∪ {[a]}) (<[(sys, id) := a]> (w_tracked w)) (w_cache w) (w_tasks w) (w_mail w) (w_seen w))
  | WClose a => Some (World (w_insts w) (w_open w ∖ {[a]}) (w_tracked w) (w_cache w) (w_tasks w) (w_mail w) (w_seen w))
  | WForget sys id => Some (World (w_insts w) (w_open w) (delete (sys, id) (w_tracked w)) (w_cache w) (w_tasks w) (w_mail w) (w_seen w))
  | WArrive sys ident id b =>
      (* rpc.rs:174-190: without a handler, an error at once; else attempt 1 *)
      let s := match handler ident with Some _ => Trying 1 | None => Finished (DErr DNotSupported) end in
      Some (World (w_insts w) (w_open w) (w_tracked w) (w_cache w) (w_tasks w ++ [Task sys ident id b s]) (w_mail w) (w_seen w))
  | WTry n =>
      match w_tasks w !! n with
      | Some k =>
          match k_state k, handler (k_ident k) with
          | Trying attempt, Some ty =>
              let '(found, cache) := get_actor_ref w (k_sys k) ty (k_id k) in
              let s := match found with
                       | Some a => Found a
                       | None => if (max_retries <=? S attempt)%nat then Finished (DErr DNotFound) else Trying (S attempt)
                       end in
              Some (World (w_insts w) (w_open w) (w_tracked w) cache (set_task w n k s) (w_mail w) (w_seen w ++ [(n, found)]))
          | _, _ => None
          end
      | None => None
      end
  | WSend n =>
      match w_tasks w !! n with
      | Some k =>
          match k_state k with
          | Found a =>
              match decode (k_ident k) (k_body k) with
              | Some m =>
                  (* refs/mod.rs:382-420: the mailbox takes it or is closed; then the sender of the
                     result is dropped (handler.rs:260) *)
                  if decide (a ∈ w_open w) then
                    Some (World (w_insts w) (w_open w) (w_tracked w) (w_cache w) (set_task w n k (Sent a)) (w_mail w ++ [(a, n, m)]) (w_seen w))
                  else Some (World (w_insts w) (w_open w) (w_tracked w) (w_cache w) (set_task w n k (Finished (DErr DClosed))) (w_mail w) (w_seen w))
              | None => Some (World (w_insts w) (w_open w) (w_tracked w) (w_cache w) (set_task w n k (Finished (DErr DDeserialisation))) (w_mail w) (w_seen w))
              end
          | _ => None
          end
      | None => None
      end
  | WReply n r =>
      match w_tasks w !! n with
      | Some k =>
          match k_state k with
          | Sent a =>
              (* handler.rs:260-273 *)
              let s := Finished (match r with Some b => DOk b | None => DErr DSerialisation end) in
              Some (World (w_insts w) (w_open w) (w_tracked w) (w_cache w) (set_task w n k s) (w_mail w) (w_seen w))
          | _ => None
          end
      | None => None
      end
  | WDropped n =>
      match w_tasks w !! n with
      | Some k =>
          match k_state k with
          | Sent a => Some (World (w_insts w) (w_open w) (w_tracked w) (w_cache w) (set_task w n k (Finished (DErr DClosed))) (w_mail w) (w_seen w))
          | _ => None
          end
      | None => None
      end
  end.
Fixpoint wrun (w : world) (l : list wop) : option world :=
  match l with [] => Some w | o :: l' => w' ← wstep w o; wrun w' l' end.

(** handler.rs:308-371: delivery through a reference that is at hand (entities of a shard).
    [ty]: whether the actor has the type; [send]: what [actor.send] answers; [waits]: whether there
    is a channel for the result. The message that is handled, and the result. *)
Inductive sent := Handled (r : option bytes) | Dropped | Refused.
Definition handle_direct (ty : bool) (ident : N) (b : bytes) (send : sent) (waits : bool) : option M * option dresult :=
  match ty, decode ident b with
  | true, Some m =>
      if waits then
        match send with
        | Handled (Some r) => (Some m, Some (DOk r))
        | Handled None => (Some m, Some (DErr DSerialisation))
        | Dropped => (None, Some (DErr DClosed))
        | Refused => (None, Some (DErr DInvalidRef))
        end
      else (match send with Handled _ => Some m | _ => None end, None)
  | _, None => (None, if waits then Some (DErr DDeserialisation) else None)
  | false, _ => (None, if waits then Some (DErr DInvalidRef) else None)
  end.
End delivery.
Arguments new_world {M}.
