(** What is expected of a cluster that comes together. *)
From stdpp Require Export relations.
From Verif Require Import Mesh_Model.

(** Node [x] knows node [y]. *)
Definition knows (h : mesh) (x y : N) : Prop := exists m, h_nodes h !! x = Some m /\ y ∈ m_known m.
(** No handshake is on its way. *)
Definition settled (h : mesh) : Prop := h_flight h = [].

(** In the history, a node has used another one as its seed. *)
Definition seeded (ops : list mop) (x s : N) : Prop := exists l, MSeed x s l ∈ ops.
Definition started (ops : list mop) (x : N) : Prop := MStart x ∈ ops.
(** They are connected by such steps, whoever was the seed of whom. *)
Definition joined (ops : list mop) : N -> N -> Prop := rtsc (seeded ops).

(** No handshake fails, every node can be reached, none is marked as terminated. *)
Definition smooth (o : mop) : bool :=
  match o with
  | MFail _ | MGone _ _ => false
  | MHandle _ _ down => bool_decide (down = [])
  | _ => true
  end.
(** Steps that need nothing from outside. *)
Definition handles (o : mop) : bool := match o with MHandle _ _ _ => true | _ => false end.
