(** What is expected of a worker that has been started. *)
From stdpp Require Export relations.
From Verif Require Import Join_Model.

(** Node [x] has node [y] in its list of nodes. *)
Definition jknows (j : jstate) (x y : N) : Prop := exists m, j_nodes j !! x = Some m /\ y ∈ m_known m.

(** The call of [start] of node [x] has returned. *)
Definition returned (j : jstate) (x : N) : Prop := exists r, j_phase j !! x = Some (PBack r).
Definition calls_start (ops : list jop) (x : N) : Prop := exists s, JStart x s ∈ ops.
(** Every call of [start] has returned. *)
Definition all_returned (ops : list jop) (j : jstate) : Prop := forall x, calls_start ops x -> returned j x.

(** Node [x] was started with the address of node [s] as its seed; the nodes that are connected
    by this. *)
Definition has_seed (ops : list jop) (x s : N) : Prop := JStart x (Some s) ∈ ops.
Definition linked (ops : list jop) : N -> N -> Prop := rtsc (has_seed ops).

(** Nothing fails: no handshake is lost or given up, every node can be reached and asked, and none
    is taken for terminated. *)
Definition fine (o : jop) : bool :=
  match o with
  | JAsk _ None | JGiveUp _ | JLose _ | JGone _ _ => false
  | JHandle _ _ down => bool_decide (down = [])
  | _ => true
  end.
(** The seed of every node that is back was resolved. *)
Definition resolved (ops : list jop) (j : jstate) : Prop :=
  forall x, calls_start ops x -> j_phase j !! x <> Some (PBack OUnresolved).

(** The steps that are taken without anyone starting, failing or giving up. *)
Definition goes_on (o : jop) : bool :=
  match o with
  | JLookup _ _ | JAsk _ _ | JHandle _ _ _ | JAck _ | JReturn _ | JGiveUp _ => true
  | _ => false
  end.
(** Nobody gives up on a handshake that has not been lost, and a seed that is up can be asked. *)
Definition harmless (j : jstate) (o : jop) : Prop :=
  match o with
  | JGiveUp i => exists t, j_tickets j !! i = Some t /\ t_arr t = ALost
  | JAsk x None => exists s, j_phase j !! x = Some (PAsk s) /\ j_nodes j !! s = None
  | _ => True
  end.
Fixpoint patient (j : jstate) (ops : list jop) : Prop :=
  match ops with
  | [] => True
  | o :: ops' => harmless j o /\ match jstep j o with Some j' => patient j' ops' | None => False end
  end.
