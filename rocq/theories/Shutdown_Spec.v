(** What callers of [shutdown] expect, over the observable trace. *)
From Verif Require Import Shutdown_Model.

(** The actor has stopped: its [stopped] hook has run, or it panicked. *)
Definition stopped (r : nat) (tr : list yevent) : Prop := YHook r ∈ tr \/ YPanicked r ∈ tr.
(** No other tracked actor was created with this id. *)
Definition only_one (r : nat) (id : string) (tr : list yevent) : Prop :=
  forall r', YCreated r' id true ∈ tr -> r' = r.

(** The steps that are not somebody's decision. *)
Definition internal (o : yop) : Prop := match o with OActor _ | OSched => True | _ => False end.
Definition effective (y : sys) (o : yop) : Prop := internal o /\ ystep y o <> (y, []).
Definition yrun_from (y : sys) (ops : list yop) : sys * list yevent :=
  let '(y', evs) := run ystep y ops in (y', concat evs).
(** A run of such steps, each of which does something. *)
Fixpoint effective_run (y : sys) (ops : list yop) : Prop :=
  match ops with
  | [] => True
  | o :: ops => effective y o /\ effective_run (ystep y o).1 ops
  end.

(** Nobody asks the scheduler anything in a message handler or in a [stopped] hook, and nobody
    is between reading the termination flag and deregistering when [shutdown] sets it. *)
Definition asks_nothing (o : yop) : Prop :=
  match o with OCreate _ _ asks => asks = false | OSend _ x => x <> RAsk | _ => True end.
Definition calm (ops : list yop) : Prop :=
  (forall o, o ∈ ops -> asks_nothing o) /\
  forall pre post, ops = pre ++ OFlag :: post ->
    forall r a, y_actors (yrun pre).1 !! r = Some a -> a_phase a <> ADereg.
(** [shutdown] was called and has asked the scheduler to stop. *)
Definition shutdown_asked (y : sys) : Prop := GStop ∈ y_mail y \/ y_sched y <> GLoop.
