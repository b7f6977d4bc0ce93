(** The entities of a shard (coerce/src/sharding/shard). *)
From Verif Require Export Arrange.

Local Open Scope N_scope.

(** shard/mod.rs:77-82. Entity actors are numbered. [R] stands for a request with its result
    channel ([BufferedReq], 71-75). *)
Inductive estate (R : Type) :=
| EIdle
| EStarting (buffer : list R)
| EActive (a : N)
| EPassivated.
Arguments EIdle {R}. Arguments EStarting {R}. Arguments EActive {R}. Arguments EPassivated {R}.

(** EntityRequest: [q_known] tells whether a handler is configured for the message type. *)
Record ereq (R : Type) := EReq { q_id : N; q_recipe : option N; q_known : bool; q_req : R }.
Arguments EReq {R}. Arguments q_id {R}. Arguments q_recipe {R}. Arguments q_known {R}. Arguments q_req {R}.

Inductive eerr := NotSupported | NotFound | ActorUnavailable.
Inductive eeffect (R : Type) :=
| EReply (id : N) (r : R) (e : eerr)      (* the request fails with this error *)
| EForward (id a : N) (r : R)             (* task: send the request to the entity actor *)
| EDrop (id : N) (r : R)                  (* the request disappears with its result channel *)
| ECreate (id recipe : N).                (* task: create the entity actor, report the result *)
Arguments EReply {R}. Arguments EForward {R}. Arguments EDrop {R}. Arguments ECreate {R}.

(** What the shard persists: StartEntity; PassivateEntity and RemoveEntity are understood by
    recovery (shard/recovery.rs:65-78) although nothing writes them. *)
Inductive eentry := JStart (id recipe : N) | JPassivate (id : N) | JRemove (id : N).

Section shard.
Context {R : Type}.
(** shard/mod.rs:111-117: recipe and state of each entity *)
Notation ents := (gmap N (N * estate R)).
Implicit Types (m : ents) (r : R).

(** shard/mod.rs:341-377 *)
Definition entity_request (id : N) (st : estate R) r : estate R * list (eeffect R) :=
  match st with
  | EPassivated | EIdle => (st, [EReply id r ActorUnavailable])
  | EStarting buf => (EStarting (buf ++ [r]), [])
  | EActive a => (st, [EForward id a r])
  end.

(** shard/mod.rs:381-453 (EntityRequest); RemoteEntityRequest (457-502) handles the same
    request with a result channel of its own *)
Definition on_entity_request m (q : ereq R) : ents * list (eeffect R) :=
  if q_known q then
    match m !! q_id q with
    | Some (rc, st) => let '(st', eff) := entity_request (q_id q) st (q_req q) in (<[q_id q := (rc, st')]> m, eff)
    | None =>
        match q_recipe q with
        | Some rc => (<[q_id q := (rc, EStarting [q_req q])]> m, [ECreate (q_id q) rc])
        | None => (m, [EReply (q_id q) (q_req q) NotFound])
        end
    end
  else (m, [EReply (q_id q) (q_req q) NotSupported]).

(** The buffer that disappears with an entry. *)
Definition drop_buffer (id : N) (x : option (N * estate R)) : list (eeffect R) :=
  match x with Some (_, EStarting buf) => map (EDrop id) buf | _ => [] end.

(** shard/mod.rs:323-337 (StartEntity) *)
Definition on_start_entity m (id rc : N) : ents * list (eeffect R) :=
  (<[id := (rc, EStarting [])]> m, drop_buffer id (m !! id) ++ [ECreate id rc]).

(** shard/mod.rs:227-280 (EntityStartResult); [None] is an error *)
Definition on_start_result m (id : N) (res : option N) : ents * list (eeffect R) :=
  match res with
  | None => (m, [])
  | Some a =>
      match m !! id with
      | None => (m, [])
      | Some (rc, st) =>
          (<[id := (rc, EActive a)]> m, match st with EStarting buf => map (EForward id a) buf | _ => [] end)
      end
  end.

(** shard/recovery.rs:50-78 *)
Definition recover_entry m (e : eentry) : ents :=
  match e with
  | JStart id rc => <[id := (rc, EStarting [])]> m
  | JPassivate id => match m !! id with Some (rc, _) => <[id := (rc, EPassivated)]> m | None => m end
  | JRemove id => delete id m
  end.
Definition recover_log (l : list eentry) m : ents := fold_left recover_entry l m.
(** shard/recovery.rs:80-95, 97-155: an entity in a snapshot is idle or passivated *)
Definition recover_snapshot (l : list (N * N * bool)) : ents :=
  fold_left (fun m x => <[x.1.1 := (x.1.2, if (x.2 : bool) then EPassivated else EIdle)]> m) l ∅.

(** shard/mod.rs:208-223; [ord] is the order of the hash table *)
Definition is_starting (st : estate R) : bool := match st with EStarting _ => true | _ => false end.
Definition recover_entities (ord : list N) m : list (N * N) :=
  omap (fun x : N * (N * estate R) => if is_starting x.2.2 then Some (x.1, x.2.1) else None) (arrange ord m).

(** A shard with its surroundings. *)
Record esys := ESys {
  v_ents : ents;
  v_children : gmap N N;                 (* child references by id (ctx.add_child_ref) *)
  v_persistent : bool;                   (* persistent_entities *)
  v_journal : list eentry;               (* what was written for the shard *)
  v_tasks : list (bool * N * N);         (* creations under way: by the present incarnation, id, recipe *)
  v_results : list (N * option N);       (* start results in the mailbox *)
  v_live : list (N * N);                 (* the entity actors that exist: id, number *)
  v_fwd : list (N * N * R);              (* requests on their way to entity actors *)
  v_got : list (N * N * R);              (* requests received by entity actors *)
  v_log : list (eeffect R);              (* all effects so far *)
  v_next : N }.

Definition esys_init (persistent : bool) : esys := ESys ∅ ∅ persistent [] [] [] [] [] [] [] 0.

Inductive vop :=
| VRequest (q : ereq R) (persisted : bool)       (* [persisted]: whether a write to the journal succeeds *)
| VStart (id rc : N) (persisted : bool)          (* StartEntity *)
| VCreated (i : nat) (ok : bool)                 (* the [i]th creation ends (remote/handler.rs:134-168) *)
| VResult (j : nat)                              (* the shard handles the [j]th start result *)
| VDeliver (k : nat)                             (* the [k]th request reaches its entity actor *)
| VStopped (id a : N)                            (* an entity actor stops by itself *)
| VRestart (ord : list N).                       (* the shard stops and is started again *)

Definition remove_nth {A} (i : nat) (l : list A) : list A := take i l ++ drop (S i) l.

Definition forwards (eff : list (eeffect R)) : list (N * N * R) :=
  omap (fun e => match e with EForward id a r => Some (id, a, r) | _ => None end) eff.
Definition creates (eff : list (eeffect R)) : list (N * N) :=
  omap (fun e => match e with ECreate id rc => Some (id, rc) | _ => None end) eff.

(** The effects take place; shard/mod.rs:283-319 (start_entity): the result of the write is
    ignored. *)
Definition apply v m (eff : list (eeffect R)) (persisted : bool) : esys :=
  ESys m (v_children v) (v_persistent v)
       (v_journal v ++ if v_persistent v && persisted then map (fun x => JStart x.1 x.2) (creates eff) else [])
       (v_tasks v ++ map (fun x => (true, x.1, x.2)) (creates eff)) (v_results v) (v_live v)
       (v_fwd v ++ forwards eff) (v_got v) (v_log v ++ eff) (v_next v).

Definition is_ent (id a : N) (x : N * N) : bool := (x.1 =? id) && (x.2 =? a).
(** A shard that stops stops its children (actor/supervised.rs:143-167). *)
Definition is_child (ch : gmap N N) (x : N * N) : bool := bool_decide (ch !! x.1 = Some x.2).

Definition vstep v (o : vop) : esys :=
  match o with
  | VRequest q p => let '(m, eff) := on_entity_request (v_ents v) q in apply v m eff p
  | VStart id rc p => let '(m, eff) := on_start_entity (v_ents v) id rc in apply v m eff p
  | VCreated i ok =>
      match v_tasks v !! i with
      | None => v
      | Some (mine, id, _) =>
          let live := if ok then v_live v ++ [(id, v_next v)] else v_live v in
          let res := if (mine : bool) then v_results v ++ [(id, if ok then Some (v_next v) else None)] else v_results v in
          ESys (v_ents v) (v_children v) (v_persistent v) (v_journal v) (remove_nth i (v_tasks v)) res live
               (v_fwd v) (v_got v) (v_log v) (v_next v + 1)
      end
  | VResult j =>
      match v_results v !! j with
      | None => v
      | Some (id, res) =>
          let '(m, eff) := on_start_result (v_ents v) id res in
          let ch := match res with Some a => <[id := a]> (v_children v) | None => v_children v end in
          ESys m ch (v_persistent v) (v_journal v) (v_tasks v) (remove_nth j (v_results v)) (v_live v)
               (v_fwd v ++ forwards eff) (v_got v) (v_log v ++ eff) (v_next v)
      end
  | VDeliver k =>
      match v_fwd v !! k with
      | None => v
      | Some (id, a, r) =>
          ESys (v_ents v) (v_children v) (v_persistent v) (v_journal v) (v_tasks v) (v_results v) (v_live v)
               (remove_nth k (v_fwd v)) (if existsb (is_ent id a) (v_live v) then v_got v ++ [(id, a, r)] else v_got v)
               (v_log v) (v_next v)
      end
  | VStopped id a =>
      if existsb (is_ent id a) (v_live v) then
        ESys (v_ents v) (delete id (v_children v)) (v_persistent v) (v_journal v) (v_tasks v) (v_results v)
             (List.filter (fun x => negb (is_ent id a x)) (v_live v)) (v_fwd v) (v_got v) (v_log v) (v_next v)
      else v
  | VRestart ord =>
      let m := recover_log (v_journal v) ∅ in
      ESys m ∅ (v_persistent v) (v_journal v)
           (map (fun x => (false, x.1.2, x.2)) (v_tasks v) ++ map (fun x => (true, x.1, x.2)) (recover_entities ord m))
           [] (List.filter (fun x => negb (is_child (v_children v) x)) (v_live v)) (v_fwd v) (v_got v)
           (v_log v ++ flat_map (fun x => drop_buffer x.1 (Some x.2)) (map_to_list (v_ents v))) (v_next v)
  end.

Definition vrun v (l : list vop) : esys := fold_left vstep l v.

End shard.
Arguments esys : clear implicits.
Arguments vop : clear implicits.
