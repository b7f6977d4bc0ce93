(** Programs that change: the storage of coerce/src/persistent/journal under successive versions of a program. *)
From Verif Require Export Journal_Model.

(** ** A program and its versions

    A version of the program gives, for each persistence id, the registrations that
    [PersistentActor::configure] makes in it (persistent/actor.rs:23, persistent/journal/types.rs:39-68).
    [init_journal_types] (types.rs:87-108) keeps them per actor type in a static cache, so within one
    process the registrations of an actor type never change, and another process starts from an empty
    cache: the version of a process is fixed when it starts. Rust types are numbered per version: the
    number [3] of one version need not be the type [3] of another. *)
Definition versions := nat -> string -> jtypes.

(** What happens: the program is stopped and started as version [v], or an actor of the running
    program does something with its journal. *)
Inductive uop :=
| UBoot (v : nat)
| UCall (pid : string) (o : jop).

(** The running version with its actors and the storage, which outlives the process: the storage is
    [InMemoryStorage] (persistent/journal/provider.rs:53-300) in the model; the stores that do outlive
    a process keep the same interface (see the Redis area for the one that exists). *)
Record usys := USys { u_version : nat; u_sys : jsys (St := mem_store) }.

Definition u_init (v : nat) : usys := USys v mem_init.

(** A process that ends takes all its actors with their [Journal]s along (persistent/journal/mod.rs:25-31
    and persistent/context.rs:6-9); nothing of [last_sequence_id] is stored apart from the entries. *)
Definition ustep (conf : versions) (s : usys) (x : uop) : usys * option jout :=
  match x with
  | UBoot v => (USys v (JSys (js_store (u_sys s)) ∅), None)
  | UCall pid o =>
      let '(s', r) := jstep mem_storage (conf (u_version s)) (u_sys s) (pid, o) in
      (USys (u_version s) s', Some r)
  end.

Definition urun (conf : versions) (s : usys) (h : list uop) : usys * list (option jout) :=
  run (ustep conf) s h.
