(** What a user expects of a pool of workers. *)
From Verif Require Export Pool_Model.

Section spec.
Context {S M R E : Type}.
Variable hdl : E -> S -> M -> option (S * R).
Notation pool := (pool S M R E).
Notation pop := (pop M E).

(** What the caller of dispatch [c] was told. *)
Definition answer_of (w : pool) (c : nat) : option (R + derr) :=
  match c_caller <$> p_calls w !! c with Some (Returned x) => Some x | _ => None end.
(** The caller neither has its answer nor has given up. *)
Definition waits (w : pool) (c : nat) : Prop := c_caller <$> p_calls w !! c = Some Waiting.
(** Dispatch [c] was handled, by this worker with this result. *)
Definition handled_by (w : pool) (c k : nat) (r : R) : Prop :=
  exists h, h ∈ p_log w /\ h_call h = c /\ h_worker h = k /\ h_result h = r.
Definition was_handled (w : pool) (c : nat) : Prop := exists h, h ∈ p_log w /\ h_call h = c.
(** The life of worker [k]. *)
Definition life_of (w : pool) (k : nat) : option life := k_life <$> p_workers w !! k.

(** A worker in state [s] that handles these messages one after the other gives these results and comes to
    this state. *)
Inductive works : S -> list (handled M R E) -> S -> Prop :=
| works_nil s : works s [] s
| works_cons s s1 s' h l :
    hdl (h_env h) s (h_msg h) = Some (s1, h_result h) -> works s1 l s' -> works s (h :: l) s'.

(** Steps of the pool itself, including the end of what has begun to stop. *)
Definition inner (o : pop) : bool :=
  match o with PTake | PSend _ | PWork _ _ | PForward _ | PReturn _ | PClose _ | PSupClose => true | _ => false end.
(** A worker or the supervisor stops. *)
Definition stopping (o : pop) : bool := match o with PEnd _ | PSupEnd => true | _ => false end.
End spec.
