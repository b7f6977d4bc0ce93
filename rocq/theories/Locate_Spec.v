(** What is expected of locating actors. *)
From Verif Require Import Locate_Model Nodes_Spec.

(** The ways in which a history may not interfere. *)
Definition is_store (o : lop) : bool := match o with LStore _ _ => true | _ => false end.
Definition is_lose (o : lop) : bool := match o with LLose _ => true | _ => false end.
Definition creates (id : string) (o : lop) : option N :=
  match o with LCreate n id' => if String.eqb id id' then Some n else None | _ => None end.
Definition hops_of (k : nat) (o : lop) : bool := match o with LHop k' => Nat.eqb k k' | _ => false end.

(** Whether an actor runs on a node, by what has been logged. *)
Definition running (n : N) (id : string) (log : list levent) : bool :=
  foldl (fun b e => match e with
                    | LCreated n' id' => if (n =? n')%N && String.eqb id id' then true else b
                    | LStopped n' id' => if (n =? n')%N && String.eqb id id' then false else b
                    | _ => b
                    end) false log.

Section spec.
Variable rhash : N -> string -> string -> option Z -> N.
Variable khash : string -> N.
Variable search : list N -> N -> nat.

(** The nodes [X] agree on where the entry of an actor is kept, at a node among them. *)
Definition agree (w : world) (X : gset N) (id : string) (o : N) : Prop :=
  o ∈ X /\ forall x, x ∈ X -> owner rhash khash search w x id = o.

(** No registration of an actor is on its way. *)
Definition arrived (w : world) (id : string) : Prop :=
  (forall n, (n, id) ∉ w_local w) /\ (forall o n, (o, id, n) ∉ w_net w).

(** The ring of every node of [X] was built from records that the nodes agree on, and has the
    node itself; no two nodes have the same hash. *)
Definition rings_right (w : world) (X : gset N) : Prop :=
  exists P : rnode -> Prop,
    (forall a b, P a -> P b -> r_id a = r_id b -> a = b) /\
    no_collision rhash P /\
    forall x, x ∈ X -> exists l, w_stores w !! x = Some (drun rhash search l) /\ consistent l /\
      (forall n, member l n -> P n /\ r_id n ∈ X) /\ exists n, member l n /\ r_id n = x.
End spec.
