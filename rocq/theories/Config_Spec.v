(** What is expected of the names of messages and actors. *)
From Verif Require Import Config_Model.

(** The last registration under this name is for messages [m] to actors [a]. *)
Definition in_force (l : list reg) (k : bytes) (a m : N) : Prop :=
  exists pre post, l = pre ++ RHandler a m k :: post /\ forall a' m', RHandler a' m' k ∉ post.
(** The last factory registered for actors whose type has this name. *)
Definition factory_in_force (type_name : N -> bytes) (l : list reg) (k : bytes) (a f : N) : Prop :=
  exists pre post, l = pre ++ RActor a f :: post /\ type_name a = k /\
    forall a' f', type_name a' = k -> RActor a' f' ∉ post.
(** No name is used for two types; no type has two names. *)
Definition one_type (l : list reg) : Prop :=
  forall k a m a' m', RHandler a m k ∈ l -> RHandler a' m' k ∈ l -> a = a' /\ m = m'.
Definition one_name (l : list reg) : Prop :=
  forall k k' a m, RHandler a m k ∈ l -> RHandler a m k' ∈ l -> k = k'.
