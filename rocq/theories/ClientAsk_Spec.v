(** C106: what is expected of a client that is asked for the identity of its node and for handshakes. *)
From Verif Require Import Client_Model.

Section spec.
Context {M : Type}.
Variable frame_ok : M -> bool.
Variable len : M -> N.
Implicit Types (l : list (cop M)) (c : client M).

(** The requests for the identity, those for a handshake, and those that were answered. *)
Definition asked_id l : list nat := omap (fun o => match o with AIdentify i => Some i | _ => None end) l.
Definition asked_hs l : list nat := omap (fun o => match o with AHandshake i _ => Some i | _ => None end) l.
Definition told_id (out : list cout) : list nat := omap (fun e => match e with OIdentity i _ => Some i | _ => None end) out.
Definition told_hs (out : list cout) : list nat := omap (fun e => match e with OHandshakeDone i => Some i | _ => None end) out.

Definition connected c (n : N) : Prop := exists hs, c_state c = CConnected n hs.

(** After [l] the client has a connection to [n], and it is since then that [b] happened. *)
Definition connected_since l (n : N) (b : list (cop M)) : Prop :=
  exists a link, l = a ++ AConnect (Identified n link) :: b /\
    forall p q, b = p ++ q ->
      exists c, crun frame_ok len new_client (a ++ AConnect (Identified n link) :: p) = Some c /\ connected c n.

(** No acknowledgement arrives on a connection on which no handshake was written. *)
Definition own_acks l : Prop :=
  forall l1 l2 c n, l = l1 ++ AAck :: l2 -> crun frame_ok len new_client l1 = Some c -> c_state c <> CConnected n HNone.
End spec.
