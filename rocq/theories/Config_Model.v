(** The names under which messages and actors are known to other nodes
    (coerce/src/remote/system/builder.rs, remote/config/mod.rs, remote/handler.rs). *)
From Verif Require Export Arrange.
From Coq Require Import String Ascii.

(** [std::any::TypeId] of the types that the tables mention; actors, messages and factories are
    numbers: [RemoteActorMarker<A>] (handler.rs:56-75), [RemoteActorHandler<A, F>] (102-121),
    [RemoteActorMessageMarker<A, M>] (77-93). Different types have different ids. *)
Inductive type_id := TActor (a : N) | TFactory (a f : N) | TMessage (a m : N).
Global Instance type_id_eq_dec : EqDecision type_id.
Proof. solve_decision. Defined.
Global Instance type_id_countable : Countable type_id.
Proof.
  refine (inj_countable' (fun t => match t with TActor a => inl a | TFactory a f => inr (inl (a, f)) | TMessage a m => inr (inr (a, m)) end)
    (fun x => match x with inl a => TActor a | inr (inl (a, f)) => TFactory a f | inr (inr (a, m)) => TMessage a m end) _).
  by intros [].
Defined.

(** A call of [with_handler::<A, M>(name)] or of [with_actor] with a factory [f] of actors [a]
    (builder.rs:270-291). *)
Inductive reg := RHandler (a m : N) (name : bytes) | RActor (a f : N).
Global Instance reg_eq_dec : EqDecision reg.
Proof. solve_decision. Defined.

(** builder.rs:253-258, without the heartbeat configuration. *)
Record builder := Builder { b_actors : gmap bytes (N * N); b_handlers : gmap bytes (N * N) }.
(** config/mod.rs:17-27, without tag, version, attributes and security. *)
Record config := Config {
  c_actor_types : gmap type_id bytes;
  c_handler_types : gmap type_id bytes;
  c_handlers : gmap bytes (N * N);
  c_actors : gmap bytes (N * N)
}.

(** The [id] of a message handler: that of its marker (handler.rs:379-381); of an actor handler: its
    own (handler.rs:177-179). *)
Definition message_handler_id (h : N * N) : type_id := TMessage h.1 h.2.
Definition actor_handler_id (h : N * N) : type_id := TFactory h.1 h.2.

(** builder.rs:308-314: one entry for each handler, in the order of the table. *)
Definition type_table (id : N * N -> type_id) (l : list (bytes * (N * N))) : gmap type_id bytes :=
  foldl (fun t x => <[id x.2 := x.1]> t) ∅ l.

Section config.
(** [A::type_name()] (actor/mod.rs:243-248), which actors may redefine. *)
Variable type_name : N -> bytes.

(** builder.rs:270-291. *)
Definition register (b : builder) (r : reg) : builder :=
  match r with
  | RHandler a m name => Builder (b_actors b) (<[name := (a, m)]> (b_handlers b))
  | RActor a f => Builder (<[type_name a := (a, f)]> (b_actors b)) (b_handlers b)
  end.
(** builder.rs:261-268, 138-142: the functions given to [configure] run one after the other. *)
Definition builder_of (l : list reg) : builder := foldl register (Builder ∅ ∅) l.

(** builder.rs:298-333; [oh], [oa]: the order of the two tables. *)
Definition build (oh oa : list bytes) (b : builder) : config :=
  Config (type_table actor_handler_id (arrange oa (b_actors b)))
         (type_table message_handler_id (arrange oh (b_handlers b)))
         (b_handlers b) (b_actors b).
Definition configured (l : list reg) (oh oa : list bytes) : config := build oh oa (builder_of l).

(** singleton/mod.rs:108-126: [mgr f] is the type [Manager<F>], [act f] the type of its actor. *)
Variables mgr act : N -> N.
Definition utf8 (s : string) : bytes := map N_of_ascii (list_ascii_of_string s).
Definition manager_name (f : N) (suffix : string) : bytes :=
  utf8 "SingletonManager<" ++ type_name (act f) ++ utf8 suffix.
(** The messages, as types. *)
Definition MRequestLease : N := 0.
Definition MLeaseAck : N := 1.
Definition MStarted : N := 2.
Definition MStopped : N := 3.
Definition singleton (f : N) : list reg :=
  [ RHandler (mgr f) MRequestLease (manager_name f ">.RequestLease");
    RHandler (mgr f) MLeaseAck (manager_name f ">.LeaseAck");
    RHandler (mgr f) MStarted (manager_name f ">.SingletonStarted");
    RHandler (mgr f) MStopped (manager_name f ">.SingletonStopped") ].
End config.

(** config/mod.rs:67-70. *)
Definition handler_name (c : config) (a m : N) : option bytes := c_handler_types c !! TMessage a m.
(** config/mod.rs:72-77. *)
Definition actor_name (c : config) (a : N) : option bytes := c_actor_types c !! TActor a.
(** config/mod.rs:79-83; the handler is given by its types. *)
Definition message_handler (c : config) (k : bytes) : option (N * N) := c_handlers c !! k.
(** config/mod.rs:85-89. *)
Definition actor_handler (c : config) (k : bytes) : option (N * N) := c_actors c !! k.

(** config/mod.rs:95-103; [lower]: [str::to_lowercase]; [o]: the order of the table. *)
Definition by_lower (lower : bytes -> bytes) (x y : bytes) : bool := bytes_leb (lower x) (lower y).
Definition capable_actors (lower : bytes -> bytes) (o : list type_id) (c : config) : list bytes :=
  stable_sort (by_lower lower) (arrange o (c_actor_types c)).*2.
Definition capable_messages (lower : bytes -> bytes) (o : list type_id) (c : config) : list bytes :=
  stable_sort (by_lower lower) (arrange o (c_handler_types c)).*2.
