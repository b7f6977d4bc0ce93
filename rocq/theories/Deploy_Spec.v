(** What is expected of deployments. *)
From Verif Require Import Deploy_Model Locate_Spec.

(** The events of one deployment. *)
Definition of_call (k : nat) (e : pevent) : bool :=
  match e with
  | PMade k' _ _ | PUp k' | PDied k' | PNoActor k' | PFailed k' _ | PRef k' _ _ | PErr k' _ => Nat.eqb k k'
  end.
Definition events (k : nat) (s : psys) : list pevent := List.filter (of_call k) (ps_log s).

(** The caller of a deployment was answered. *)
Definition answers (k : nat) (e : pevent) : Prop :=
  match e with PRef k' _ _ | PErr k' _ => k' = k | _ => False end.
Definition answered (k : nat) (s : psys) : Prop := exists e, e ∈ ps_log s /\ answers k e.

(** Steps of a deployment itself, with those of its lookup. *)
Definition own (k : nat) (q : option nat) (o : pop) : bool :=
  match o with
  | PArrive k' _ | PLose k' | PChecked k' | PCreate k' _ | PStart k' _ | PReply k' => Nat.eqb k k'
  | PWorld (LTimeout q') => bool_decide (q = Some q')
  | _ => false
  end.
(** Histories without changes of membership or lost registrations. *)
Definition world_op (o : pop) : option lop := match o with PWorld o => Some o | _ => None end.

Section spec.
Variable handlers : N -> string -> option (bytes -> bool).
(** How a deployment may fail on its target, the events up to then, and the reasons. *)
Inductive failure (s : psys) (k : nat) (c : pcall) : perr -> list pevent -> Prop :=
| f_exists m : LCreated m (p_id c) ∈ w_log (ps_world s) -> failure s k c PExists []
| f_type : handlers (p_to c) (p_type c) = None -> failure s k c PNotSupported []
| f_recipe d b : handlers (p_to c) (p_type c) = Some d -> p_recipe c = Some b -> d b = false -> failure s k c PUnavailable []
| f_factory d b : handlers (p_to c) (p_type c) = Some d -> p_recipe c = Some b -> d b = true -> failure s k c PUnavailable [PNoActor k]
| f_start d b : handlers (p_to c) (p_type c) = Some d -> p_recipe c = Some b -> d b = true ->
    failure s k c PUnavailable [PMade k (p_to c) (p_id c); PDied k].
(** The node and the recipe are fit for the actor. *)
Definition fit (c : pcall) : Prop :=
  exists d b, handlers (p_to c) (p_type c) = Some d /\ p_recipe c = Some b /\ d b = true.
End spec.
