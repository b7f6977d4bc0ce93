(** Where actors are expected to be. *)
From Coq Require Import Ascii.
From Verif Require Import Paths_Model.

(** The ids of an actor's ancestors and its own, from the top. *)
Inductive lineage (s : list pactor) : nat -> list string -> Prop :=
| LinTop a x : s !! a = Some x -> pa_origin x = FromSystem -> lineage s a [pa_id x]
| LinChild a x p l : s !! a = Some x -> (pa_origin x = SpawnedBy p \/ pa_origin x = WithParent p) -> lineage s p l ->
    lineage s a (l ++ [pa_id x]).

(** The path that they make up. *)
Definition path_of (system_name : string) (l : list string) : string := fold_left path_join l system_name.

Fixpoint no_slash (s : string) : Prop :=
  match s with EmptyString => True | String c s' => c <> "/"%char /\ no_slash s' end.

(** An operation that gives actor [p] a child, other than attaching one. *)
Definition takes_in (p : nat) (o : pop) : Prop := match o with PSpawn q _ | PAdd q _ => q = p | _ => False end.
Definition attaches (p : nat) (o : pop) : Prop := match o with PAttach q _ => q = p | _ => False end.

(** No actor is attached to another one or given a parent by the system. *)
Definition plain (o : pop) : Prop := match o with PAttach _ _ | PSupervised _ _ => False | _ => True end.
