(** The handles of an actor system: [ActorSystem] and [RemoteActorSystem] values, the contexts of
    the actors created through them, and the storage providers the actors get
    (coerce/src/actor/system/mod.rs, actor/system/builder.rs, remote/system/builder.rs,
    remote/system/mod.rs, persistent/mod.rs, actor/context.rs). *)
From Verif Require Export Base.
Local Open Scope N_scope.

(** [TypeId]s: that of the actor type [t], and that of the type [BoxedActorRef]. *)
Inductive tid := TBoxedRef | TActor (t : N).
#[global] Instance tid_eq_dec : EqDecision tid.
Proof. solve_decision. Defined.
#[global] Program Instance tid_countable : Countable tid :=
  inj_countable' (fun x => match x with TBoxedRef => None | TActor t => Some t end)
                 (fun x => match x with None => TBoxedRef | Some t => TActor t end) _.
Next Obligation. by intros []. Qed.

(** persistent/mod.rs:24-27. Providers are numbered; each has its own storage. *)
Record persistence := Persistence { p_default : N; p_own : gmap tid N }.

(** persistent/mod.rs:36-42 *)
Definition from_provider (p : N) : persistence := Persistence p ∅.
(** persistent/mod.rs:44-49: [TypeId::of::<A>()] *)
Definition actor_provider (x : persistence) (t p : N) : persistence := Persistence (p_default x) (<[TActor t := p]> (p_own x)).
(** persistent/mod.rs:51-55 *)
Definition provider (x : persistence) (i : tid) : N := default (p_default x) (p_own x !! i).

(** remote/system/mod.rs:34-47: the actors of a remote system, by number. *)
Record services := Services {
  sv_registry : nat; sv_clients : nat; sv_discovery : nat; sv_heartbeat : nat; sv_mediator : nat }.
Definition service_list (v : services) : list nat :=
  [sv_registry v; sv_clients v; sv_discovery v; sv_heartbeat v; sv_mediator v].

(** actor/system/mod.rs:28-46, remote/system/mod.rs:27-47. A handle is an [Arc] of a structure
    that is never changed afterwards, hence a value. [core] stands for what all copies of the
    structure share: the scheduler, the termination flag, the context counter, id and name. *)
Inductive asys := ASys (core : N) (pers : option persistence) (rem : option rsys)
with rsys := RSys (node : N) (sv : services) (inner : asys).

Definition s_core (s : asys) : N := let 'ASys c _ _ := s in c.
Definition s_pers (s : asys) : option persistence := let 'ASys _ p _ := s in p.
(** actor/system/mod.rs:254-259: [remote()]; [None] is the panic of [expect]. *)
Definition s_remote (s : asys) : option rsys := let 'ASys _ _ r := s in r.
Definition r_node (r : rsys) : N := let 'RSys n _ _ := r in n.
Definition r_services (r : rsys) : services := let 'RSys _ v _ := r in v.
(** remote/system/mod.rs:125-127 *)
Definition r_actor_system (r : rsys) : asys := let 'RSys _ _ s := r in s.
(** actor/system/mod.rs:248-252, 284-289 *)
Definition to_remote (s : asys) (r : rsys) : asys := ASys (s_core s) (s_pers s) (Some r).
(** actor/system/mod.rs:275-279, 291-296 *)
Definition to_persistent (s : asys) (p : persistence) : asys := ASys (s_core s) (Some p) (s_remote s).

(** A type of actors: its number and whether it is a [PersistentActor]. *)
Record atype := AType { t_num : N; t_persists : bool }.

(** An actor: [a_root] is the first actor without a parent above it; [a_remote] what [SetRemote]
    gave it; [a_store] the storage provider of its context; [a_read] what recovery read. An
    entry carries the type of its writer. *)
Record hactor := HActor {
  a_id : string;
  a_type : atype;
  a_tracked : bool;
  a_root : nat;
  a_sys : asys;
  a_ctx : N;
  a_remote : option rsys;
  a_store : option N;
  a_read : list (N * N);
  a_alive : bool }.

(** What the copies of an actor system share. [c_down]: the scheduler has stopped. *)
Record cstate := CState {
  c_map : gmap string nat;
  c_term : bool;
  c_down : bool;
  c_next : N;
  c_remote : option rsys }.
(** actor/system/builder.rs:43-57, scheduler/mod.rs:31-40 *)
Definition fresh_core : cstate := CState ∅ false false 1 None.

Inductive handle := HS (s : asys) | HR (r : rsys).

Record world := World {
  w_cores : list cstate;
  w_actors : list hactor;
  w_handles : list handle;
  w_stores : gmap (N * string) (list (N * N)) }.
Definition world0 : world := World [] [] [] ∅.

Definition core_of (w : world) (c : N) : cstate := default fresh_core (w_cores w !! N.to_nat c).
Definition with_core (w : world) (c : N) (f : cstate -> cstate) : world :=
  World (alter f (N.to_nat c) (w_cores w)) (w_actors w) (w_handles w) (w_stores w).
Definition with_actor (w : world) (r : nat) (f : hactor -> hactor) : world :=
  World (w_cores w) (alter f r (w_actors w)) (w_handles w) (w_stores w).
Definition add_handle (w : world) (h : handle) : world :=
  World (w_cores w) (w_actors w) (w_handles w ++ [h]) (w_stores w).
Definition add_actor (w : world) (a : hactor) : world :=
  World (w_cores w) (w_actors w ++ [a]) (w_handles w) (w_stores w).

Definition bump (c : cstate) : cstate := CState (c_map c) (c_term c) (c_down c) (c_next c + 1) (c_remote c).
(** scheduler/mod.rs:194-205 *)
Definition enlist (id : string) (r : nat) (c : cstate) : cstate :=
  CState (<[id := r]> (c_map c)) (c_term c) (c_down c) (c_next c) (c_remote c).
Definition set_c_remote (x : rsys) (c : cstate) : cstate :=
  CState (c_map c) (c_term c) (c_down c) (c_next c) (Some x).
Definition set_term (c : cstate) : cstate := CState (c_map c) true (c_down c) (c_next c) (c_remote c).
Definition set_down (c : cstate) : cstate := CState (c_map c) (c_term c) true (c_next c) (c_remote c).

Definition dead (a : hactor) : hactor :=
  HActor (a_id a) (a_type a) (a_tracked a) (a_root a) (a_sys a) (a_ctx a) (a_remote a) (a_store a) (a_read a) false.
Definition given_remote (x : rsys) (a : hactor) : hactor :=
  HActor (a_id a) (a_type a) (a_tracked a) (a_root a) (a_sys a) (a_ctx a) (Some x) (a_store a) (a_read a) (a_alive a).
Definition given_system (s : asys) (a : hactor) : hactor :=
  HActor (a_id a) (a_type a) (a_tracked a) (a_root a) s (a_ctx a) (a_remote a) (a_store a) (a_read a) (a_alive a).

(** context.rs:471-483: the provider is looked up by [boxed_ref.type_id()]. [boxed_ref] is a
    [BoxedActorRef], and with [std::any::Any] in scope (context.rs:11) the method gives the type id of that type. *)
Definition with_persistence (s : asys) : option N := (fun x => provider x TBoxedRef) <$> s_pers s.

(** scheduler/mod.rs:297-330, lifecycle.rs:48-79, context.rs:54-79: the actor's task makes the
    context, which takes a context id, and a persistent one gets its provider and reads its
    journal, under the actor's id (persistent/actor.rs:19-21). Without persistence the context of a
    persistent actor panics (context.rs:473-476), and the actor never starts. *)
Definition start (w : world) (s : asys) (id : string) (t : atype) (tracked : bool) (parent : option nat) : world * bool :=
  let r := length (w_actors w) in
  let store := if t_persists t then with_persistence s else None in
  let ok := negb (t_persists t) || bool_decide (is_Some store) in
  let read := match store with Some p => default [] (w_stores w !! (p, id)) | None => [] end in
  let root := match parent ≫= fun q => w_actors w !! q with Some a => a_root a | None => r end in
  let a := HActor id t tracked root s (c_next (core_of w (s_core s))) None store read ok in
  let w1 := with_core (add_actor w a) (s_core s) bump in
  (* actor/system/mod.rs:117-126, 149-158: a registration that fails is ignored *)
  (if tracked && negb (c_down (core_of w (s_core s))) then with_core w1 (s_core s) (enlist id r) else w1, ok).

Definition plain (t : N) : atype := AType t false.

Definition service_names : list string :=
  ["remote-registry"; "remote-client-registry"; "node-discovery"; "heartbeat"; "pubsub-mediator"]%string.
Definition start_services (w : world) (s : asys) (l : list string) : world :=
  fold_left (fun w id => (start w s id (plain 0) true None).1) l w.

(** remote/system/builder.rs:188-246: what the builder does once the actors are there, in [w5]. *)
Definition finish (w5 : world) (v : services) (s : asys) (n : N) : world * option rsys :=
  (* builder.rs:206-213: the system is wrapped twice *)
  let r1 := RSys n v s in
  let s2 := to_remote s r1 in
  let r2 := RSys n v s2 in
  (* builder.rs:215-237; registry.rs:49-52 also replaces the system of its context *)
  let w6 := with_actor w5 (sv_registry v) (fun a => given_system (r_actor_system r2) (given_remote r2 a)) in
  let w7 := with_actor w6 (sv_heartbeat v) (given_remote r2) in
  let w8 := with_actor w7 (sv_discovery v) (given_remote r2) in
  let w9 := with_actor w8 (sv_mediator v) (given_remote r2) in
  (* builder.rs:239-244: [expect] *)
  if c_down (core_of w5 (s_core s)) then (w9, None)
  else (with_core w9 (s_core s) (set_c_remote r2), Some r2).

(** remote/system/builder.rs:163-186, registry.rs:29-44, clients.rs:28-41, heartbeat/mod.rs:52-66.
    The types of these actors do not matter here. The configuration is left out (see [Config_Model]). *)
Definition build (w : world) (s : asys) (n : N) : world * option rsys :=
  let k := length (w_actors w) in
  let v := Services k (S k) (S (S k)) (S (S (S k))) (S (S (S (S k)))) in
  finish (start_services w s service_names) v s n.

(** Stops or kills the actors below the given ones. *)
Definition end_under (w : world) (l : list nat) : world :=
  World (w_cores w) ((fun a => if bool_decide (a_root a ∈ l) then dead a else a) <$> w_actors w) (w_handles w) (w_stores w).

(** actor/system/mod.rs:216-227, scheduler/mod.rs:50-85, remote/system/mod.rs:55-69. That the
    actors do stop, and when they do not, is the subject of [Shutdown_Model]. *)
Definition shutdown (w : world) (s : asys) : world :=
  let c := s_core s in
  let w1 := with_core w c set_term in
  let w2 := if c_down (core_of w c) then w1
            else with_core (end_under w1 (map_to_list (c_map (core_of w c))).*2) c set_down in
  match s_remote s with Some r => end_under w2 (service_list (r_services r)) | None => w2 end.

(** What the program does: outside actors with the handles it has collected, numbered in the order
    it got them, and inside actors, numbered in the order of their creation. *)
Inductive hop :=
| HNew (p : option persistence)             (* an actor system, perhaps with persistence *)
| HPersist (h : nat) (p : persistence)      (* [to_persistent] *)
| HBuild (h : nat) (n : N)                  (* [RemoteActorSystem::builder()…build()] *)
| HInner (h : nat)                          (* [actor_system()] *)
| HReach (h : nat)                          (* [remote()] *)
| HContext (a : nat)                        (* the actor passes on its [ctx.system()] *)
| HCreate (h : nat) (id : string) (t : atype) (tracked : bool)  (* [new_actor] *)
| HSpawn (a : nat) (id : string) (t : atype)     (* [ctx.spawn]; also a shard making an entity *)
| HDeploy (h : nat) (id : string) (t : atype)    (* [deploy_actor] to the node itself *)
| HServe (h : nat)                          (* the worker is started: it serves other nodes *)
| HPeer (a : nat) (id : string) (t : atype) (* another node connects and deploys an actor here *)
| HUse (a : nat)                            (* the actor uses [ctx.system().remote()], e.g. to subscribe to a topic *)
| HStore (a : nat) (x : N)                  (* the persistent actor stores an event *)
| HEnd (a : nat)                            (* it stops *)
| HFind (h : nat) (id : string)             (* [get_tracked_actor] *)
| HTerminated (h : nat)                     (* [is_terminated] *)
| HShutdown (h : nat).

Inductive hres :=
| RHandle (h : nat) | RActor (a : nat) | RFound (a : option nat) | RBool (b : bool) | RDone
| RFailed                                   (* an error is returned *)
| RPanic                                    (* the caller panics *)
| RVoid.                                    (* there is nothing like that to operate on *)

Definition s_handle (w : world) (h : nat) : option asys := match w_handles w !! h with Some (HS s) => Some s | _ => None end.
Definition r_handle (w : world) (h : nat) : option rsys := match w_handles w !! h with Some (HR r) => Some r | _ => None end.
Definition living (w : world) (a : nat) : option hactor :=
  match w_actors w !! a with Some x => if a_alive x then Some x else None | None => None end.

Definition started (x : world * bool) (r : nat) : world * hres := (x.1, if x.2 then RActor r else RFailed).
Definition return_handle (w : world) (h : handle) : world * hres := (add_handle w h, RHandle (length (w_handles w))).

Definition hstep (w : world) (o : hop) : world * hres :=
  let r := length (w_actors w) in
  match o with
  | HNew p =>
      (* actor/system/builder.rs:29-59 *)
      let c := N.of_nat (length (w_cores w)) in
      return_handle (World (w_cores w ++ [fresh_core]) (w_actors w) (w_handles w) (w_stores w)) (HS (ASys c p None))
  | HPersist h p => match s_handle w h with Some s => return_handle w (HS (to_persistent s p)) | None => (w, RVoid) end
  | HBuild h n =>
      match s_handle w h with
      | Some s => match build w s n with (w', Some x) => return_handle w' (HR x) | (w', None) => (w', RPanic) end
      | None => (w, RVoid)
      end
  | HInner h => match r_handle w h with Some x => return_handle w (HS (r_actor_system x)) | None => (w, RVoid) end
  | HReach h =>
      match s_handle w h with
      | Some s => match s_remote s with Some x => return_handle w (HR x) | None => (w, RPanic) end
      | None => (w, RVoid)
      end
  | HContext a => match living w a with Some x => return_handle w (HS (a_sys x)) | None => (w, RVoid) end
  | HCreate h id t tracked =>
      match s_handle w h with Some s => started (start w s id t tracked None) r | None => (w, RVoid) end
  | HSpawn a id t =>
      (* context.rs:229-231, 254-257 *)
      match living w a with Some x => started (start w (a_sys x) id t false (Some a)) r | None => (w, RVoid) end
  | HDeploy h id t =>
      (* remote/system/actor.rs:135-146, 198-211, handler.rs:134-168; the actor is not registered yet, and its type is *)
      match r_handle w h with Some x => started (start w (r_actor_system x) id t true None) r | None => (w, RVoid) end
  | HServe h =>
      (* net/server/mod.rs:71-74 *)
      match r_handle w h with
      | Some x => started (start w (r_actor_system x) "remote-session-store" (plain 0) true None) r
      | None => (w, RVoid)
      end
  | HPeer a id t =>
      match living w a with
      | Some x =>
          (* session/store.rs:51-57, session/mod.rs:74-75: a session that cannot reach the remote system
             panics as it starts, and the [expect] of the store then panics too *)
          let w1 := (start w (a_sys x) "session" (plain 0) false (Some a)).1 in
          match s_remote (a_sys x) with
          | None => (with_actor (with_actor w1 r dead) a dead, RPanic)
          | Some y =>
              (* session/mod.rs:120-123, 596-615, remote/system/actor.rs:183-211 *)
              started (start w1 (r_actor_system y) id t true None) (S r)
          end
      | None => (w, RVoid)
      end
  | HUse a =>
      match living w a with
      | Some x => match s_remote (a_sys x) with Some _ => (w, RDone) | None => (with_actor w a dead, RPanic) end
      | None => (w, RVoid)
      end
  | HStore a x =>
      (* persistent/actor.rs:31-57 *)
      match living w a with
      | Some b =>
          match a_store b with
          | Some p => (World (w_cores w) (w_actors w) (w_handles w)
                             (<[(p, a_id b) := default [] (w_stores w !! (p, a_id b)) ++ [(t_num (a_type b), x)]]> (w_stores w)), RDone)
          | None => (w, RVoid)
          end
      | None => (w, RVoid)
      end
  | HEnd a =>
      (* lifecycle.rs:125-160; only actors without a parent, with everything below them *)
      match living w a with
      | Some x =>
          if bool_decide (a_root x = a) then
            let c := s_core (a_sys x) in
            let w1 := end_under w [a] in
            (if a_tracked x && negb (c_term (core_of w c))
             then with_core w1 c (fun c => CState (delete (a_id x) (c_map c)) (c_term c) (c_down c) (c_next c) (c_remote c)) else w1, RDone)
          else (w, RVoid)
      | None => (w, RVoid)
      end
  | HFind h id =>
      (* actor/system/mod.rs:229-242; the type of the actor is left out *)
      match s_handle w h with
      | Some s => let c := core_of w (s_core s) in (w, RFound (if c_down c then None else c_map c !! id))
      | None => (w, RVoid)
      end
  | HTerminated h => match s_handle w h with Some s => (w, RBool (c_term (core_of w (s_core s)))) | None => (w, RVoid) end
  | HShutdown h => match s_handle w h with Some s => (shutdown w s, RDone) | None => (w, RVoid) end
  end.

Definition hrun (l : list hop) : world * list hres := run hstep world0 l.
