(** What is expected of the shards of a cluster. *)
From Verif Require Import ShardSys_Model.
Local Open Scope N_scope.

Section spec.
Context {R : Type}.
Implicit Types (y : sys R) (p : packet R).

(** Node [n] runs shard [s]. *)
Definition runs y (n s : N) : Prop := exists a up, (n, s, a, up) ∈ y_live y.

(** The packet is part of starting, moving or stopping [s]: no requests, questions or hints. *)
Definition ctl_msg (m : hmsg R) : option N :=
  match m with
  | MAllocated s _ | MReady s _ | MStop s _ | MStopped s => Some s
  | MRequest _ _ | MReallocating _ => None
  end.
Definition ctl_packet p : option N :=
  match p with
  | PSend _ m | PMail _ m => ctl_msg m
  | PMoved s | PStopTask _ s _ _ | PNotifyStop _ s _ => Some s
  | PAsk _ _ | PTask _ _ _ _ => None
  end.
(** Nothing about [s] is under way, and the node runs it, if it is alive. *)
Definition settled y (n s : N) : Prop :=
  (forall p, p ∈ y_net y -> ctl_packet p <> Some s) /\
  forall h, y_hosts y !! n = Some h -> exists a, sh_hosted h !! s = Some (HReady a).
(** [s] is being moved: it was asked to stop, is stopping, or waits for its new node. *)
Definition moving_packet (s : N) p : bool :=
  match p with
  | PSend _ (MStop s' _) | PMail _ (MStop s' _) => s' =? s
  | PStopTask _ s' _ _ | PMoved s' => s' =? s
  | _ => false
  end.
Definition moving y (s : N) : Prop := exists p, p ∈ y_net y /\ moving_packet s p = true.
(** Some host has not yet seen that [n] owns [s]. *)
Definition names_owner y (s n : N) : Prop :=
  exists t, PSend t (MAllocated s n) ∈ y_net y \/ PMail t (MAllocated s n) ∈ y_net y.

(** An orderly step: a shard is moved only when it is settled; an allocation of a shard
    that is being moved is requested only by the move itself; only dead nodes are declared unavailable, and
    only when no news about their shards is under way. *)
Definition orderly y (o : yop R) : Prop :=
  match o with
  | YCoord (CONodeUnavailable n _ _) => y_hosts y !! n = None /\ forall s, ~ names_owner y s n
  | YCoord o =>
      forall c eff s n, cstep (y_coord y) o = Some (c, eff) -> CStop s n ∈ eff -> settled y n s
  | YPick i _ _ => forall n s, y_net y !! i = Some (PAsk n s) -> ~ moving y s
  | _ => True
  end.
Fixpoint orderly_run y (l : list (yop R)) : Prop :=
  match l with
  | [] => True
  | o :: l' => orderly y o /\ orderly_run (ystep y o) l'
  end.

(** A request to stop [s] is on its way to node [n] or being carried out there. *)
Definition stop_outstanding y (n s : N) : Prop :=
  (exists req, PSend n (MStop s req) ∈ y_net y) \/ (exists req, PMail n (MStop s req) ∈ y_net y) \/
  (exists a req, PStopTask n s a req ∈ y_net y).
Definition stop_answered y (s : N) : Prop := PMoved s ∈ y_net y.

End spec.
