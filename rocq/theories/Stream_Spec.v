(** What is expected of publish and subscribe. *)
From Verif Require Import Stream_Model.

Section spec.
Variable M : Type.
Variable tname : N -> bytes.
Variable mtype : N -> N.
Variable decode : N -> bytes -> outcome M.
Variable member : M -> option (bool * N).

(** What an operation publishes to a topic and key: a message, or one that comes from another
    node. *)
Definition pub_on (t : N) (key : bytes) (o : mop M) : list M :=
  match o with
  | MPublish _ t' k x _ => if bool_decide (tname t' = tname t /\ k = key) then [x] else []
  | MRaw _ n k b => if bool_decide (n = tname t /\ k = key) then match decode (mtype t) b with Done x => [x] | _ => [] end else []
  | _ => []
  end.
Definition pubs (t : N) (key : bytes) (l : list (mop M)) : list M := flat_map (pub_on t key) l.
(** What a subscription delivered to its actor. *)
Definition got (m : med M) (i : N) : list M := from_option (sb_got M) [] (m_subs M m !! i).
Definition live (m : med M) (i : N) : bool := from_option (sb_live M) false (m_subs M m !! i).
(** The last event about a node says that it was added. *)
Definition known (l : list M) (n : N) : Prop :=
  last (omap (fun x => match member x with Some (b, n') => if (n' =? n)%N then Some b else None | None => None end) l) = Some true.
Definition ends_sub (i : N) (o : mop M) : bool :=
  match o with MUnsubscribe _ j => (j =? i)%N | MActorStop _ j => (j =? i)%N | _ => false end.
End spec.

(** ** Between nodes *)
(** What tasks are still going to send. *)
Definition left_of (t : task) : list flight := (fun d => Flight (t_src t) d (t_tag t) (t_packet t)) <$> t_left t.
Definition remaining (ts : list task) : list flight := flat_map left_of ts.
Definition with_tag (k : nat) (l : list flight) : list flight := List.filter (fun f => Nat.eqb (f_tag f) k) l.
Definition between (src dst : N) (l : list flight) : list flight := List.filter (on_link src dst) l.
(** No packet of a publisher is on its way. *)
Definition calm {M} (g : cluster M) (n : N) : Prop :=
  (forall t, t ∈ g_tasks M g -> t_src t <> n) /\ (forall f, f ∈ g_wire M g -> f_src f <> n) /\ (forall f, f ∈ g_in M g -> f_src f <> n).
Definition fresh_cluster {M} (meds : gmap N (med M)) : cluster M := Clu M meds [] [] [] [] [] 0.
