(** Executions of waiting tasks in which everyone gets their turn, and ranks. *)
From Verif Require Export Waits_Model.

Section Spec.
  Context {K M : Type} `{Countable K}.
  Notation act := (action K M).
  Notation pid := (K + N)%type.
  Notation state := (state K M).
  Variable handler : K -> M -> list act -> Prop.
  Variable started : K -> list act -> Prop.

  (** Task [p] runs something: who waits for it, what is left, and whether it waits. *)
  Definition runs (s : state) (p : pid) (k : option pid) (todo : list act) (w : bool) : Prop :=
    exists l, s_procs s !! p = Some (Live l (Some (Run k todo w))).
  (** An actor waits for its next message. *)
  Definition idle (s : state) (q : K) : Prop := exists l, s_procs s !! inl q = Some (Live l None).
  Definition dead (s : state) (p : pid) : Prop := s_procs s !! p = Some Dead.

  (** It is up to the scheduler of tokio, not to another task or the outside, that [p] goes on. *)
  Definition ready (s : state) (p : pid) : Prop :=
    (exists k todo, runs s p k todo false /\ head todo <> Some Hang) \/
    (exists q x l, p = inl q /\ s_procs s !! p = Some (Live (x :: l) None)).

  (** An execution without end: at each instant one task moves, or the outside does. *)
  Definition execution (e : nat -> state) (who : nat -> option pid) : Prop :=
    forall t, step handler started (e t) (who t) (e (S t)).
  (** Every task that is ready gets its turn. *)
  Definition fair (e : nat -> state) (who : nat -> option pid) : Prop :=
    forall t p, ready (e t) p -> exists t', (t <= t')%nat /\ who t' = Some p.

  (** States that executions from the start of the program get to. *)
  Inductive reachable (l : list K) : state -> Prop :=
  | ReachInit : reachable l (init l)
  | ReachStep s p s' : reachable l s -> step handler started s p s' -> reachable l s'.

  (** Ranks. [rank q] is given to an actor that is always to get to its next message, [sure q m] to a message whose
      answer is sure to come, and [rank0 y] to an actor whose start is sure to be over. Actors and messages without a
      rank may do anything, such as wait for ever. *)
  Variable rank : K -> option nat.
  Variable sure : K -> M -> option nat.
  Variable rank0 : K -> option nat.

  (** Waits only for what has a lower rank. What it starts without waiting for it is not restricted. *)
  Definition moves (r : nat) (a : act) : Prop :=
    match a with
    | Ask q m => exists r', sure q m = Some r' /\ (r' < r)%nat
    | Begin y => exists r', rank0 y = Some r' /\ (r' < r)%nat
    | Hang => False
    | Tell _ _ | Launch _ | Fork _ | Delegate _ | Forward _ _ | Reply | Pause | Die => True
    end.
  (** As well, those who are to give the answer in its place are sure to do so. *)
  Fixpoint fine (r : nat) (a : act) : Prop :=
    match a with
    | Delegate l => (fix all l := match l with [] => True | a :: l => fine r a /\ all l end) l
    | Forward q m => exists r', sure q m = Some r' /\ (r' < r)%nat
    | _ => moves r a
    end.

  Definition ranked : Prop :=
    (forall q m r, sure q m = Some r -> exists r', rank q = Some r' /\ (r' <= r)%nat) /\
    (forall q m todo r, sure q m = Some r -> handler q m todo -> Forall (fine r) todo) /\
    (forall q m todo r, rank q = Some r -> handler q m todo -> Forall (moves r) todo) /\
    (forall q todo r, rank q = Some r -> started q todo -> Forall (moves r) todo) /\
    (forall y todo r, rank0 y = Some r -> started y todo -> Forall (fine r) todo).

  (** ** Deadlock *)

  (** Task [x] is to answer [p]: it does so now, or has the question in its mailbox. *)
  Definition owes (s : state) (x p : pid) : Prop :=
    exists l r, s_procs s !! x = Some (Live l r) /\
      ((exists m, (m, Some p) ∈ l) \/ (exists todo w, r = Some (Run (Some p) todo w))).
  (** A set of tasks that all wait, for answers that only tasks of the set owe. *)
  Definition deadlock (s : state) (D : pid -> Prop) : Prop :=
    (forall p, D p -> exists k todo, runs s p k todo true) /\
    (forall p x, D p -> owes s x p -> D x).
End Spec.
