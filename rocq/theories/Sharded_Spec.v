(** What callers of sharded entities expect. *)
From Verif Require Import Sharded_Model Entity_Model.
Local Open Scope N_scope.

Section spec.
Variable shard_of : N -> N.
Variable readable : bytes -> bool.
Implicit Types (tr : list zevent) (z : sys).

(** How often this happened. *)
Definition count (f : zevent -> bool) tr : nat := length (List.filter f tr).
Definition is_called (k : N) (e : zevent) : bool := match e with ZCalled k' _ _ _ => k' =? k | _ => false end.
Definition is_handled (k : N) (e : zevent) : bool := match e with ZHandled k' _ _ _ _ => k' =? k | _ => false end.
Definition is_returned (k : N) (e : zevent) : bool := match e with ZReturned k' _ => k' =? k | _ => false end.
Definition is_gone (k : N) (e : zevent) : bool := match e with ZGone k' => k' =? k | _ => false end.

(** The request of call [k] waits on a host: for an allocation of its shard, or for the start of
    the shard. *)
Definition of_call (k : N) (r : sreq) : Prop := t_call (r_ticket r) = k.
Definition waits_allocation z (k : N) : Prop :=
  exists n h s l r, z_hosts z !! n = Some h /\ sh_pending h !! s = Some l /\ r ∈ l /\ of_call k r.
Definition waits_shard z (k : N) : Prop :=
  exists n h s a buf req r, z_hosts z !! n = Some h /\ sh_hosted h !! s = Some (HStarting a buf req) /\ r ∈ buf /\ of_call k r.
(** It waits in a shard for the start of its entity. *)
Definition waits_entity z (k : N) : Prop :=
  exists x m id rc buf t, z_shards z !! x = Some m /\ m !! id = Some (rc, EStarting buf) /\ t ∈ buf /\ t_call t = k.

(** Steps that are not somebody's decision: requests, creations and answers proceed. *)
Definition internal (o : zop) : Prop :=
  match o with OHandle _ | OArrive _ _ _ | OEntity _ _ | OAnswer _ | OCreated _ _ | OLose _ => True | _ => False end.
Fixpoint effective_run z (ops : list zop) : Prop :=
  match ops with
  | [] => True
  | o :: ops => internal o /\ zstep shard_of readable z o <> (z, []) /\ effective_run (zstep shard_of readable z o).1 ops
  end.
Definition at_rest z : Prop := z_mail z = [] /\ z_tasks z = [].

End spec.
