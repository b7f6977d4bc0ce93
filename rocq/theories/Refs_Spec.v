(** What is expected of messages sent through references. *)
From Verif Require Import Refs_Model Config_Spec.

(** What is known of call [k] from what happened: which handlers ran for it, what it returned. *)
Definition handled (k : nat) (l : list event) : list (nat * (N * N) * N * option N) :=
  omap (fun e => match e with EHandled k' a t v r => if decide (k' = k) then Some (a, t, v, r) else None | _ => None end) l.
Definition returned (k : nat) (l : list event) : list outcome :=
  omap (fun e => match e with EReturned k' x => if decide (k' = k) then Some x else None | _ => None end) l.

(** The names used on both nodes stand for the same types. *)
Definition agree (l l' : list reg) : Prop :=
  forall k a m a' m', RHandler a m k ∈ l -> RHandler a' m' k ∈ l' -> a = a' /\ m = m'.
(** Encoding, then decoding. *)
Definition round_trip (enc : N -> N -> option bytes) (dec : N -> bytes -> option N) : Prop :=
  forall m v b, enc m v = Some b -> dec m b = Some v.

(** The operations that only happen to calls that were made. *)
Definition progress (o : op) : bool :=
  match o with OArrive _ | OTry _ _ | OSend _ | OHandle _ _ | ODrop _ | OAnswer _ | OLose _ => true | _ => false end.
