(** What is expected of incoming connections. *)
From Verif Require Import Session_Model.

Section spec.
Variable verify : bytes -> option Z.
(** A token that was signed with the key of the node and has not expired. *)
Definition good_token (a : auth) (now : Z) (token : bytes) : Prop :=
  match a with
  | NoAuth => True
  | JwtAuth ttl => exists ts, verify token = Some ts /\ match ttl with Some d => (now <= ts + d)%Z | None => True end
  end.
(** A first frame that carries one. *)
Definition good_frame (a : auth) (now : Z) (frame : bytes) : Prop :=
  exists e, read_session_event frame = Done (SIdentify e) /\ good_token a now (ie_token e).
End spec.

Definition eff_conn (x : seffect) : N := match x with EIdentity c => c | EEvent c _ => c end.
(** No effect of a connection. *)
Definition untouched (s : server) (c : N) : Prop := forall x, x ∈ v_effects s -> eff_conn x <> c.
Definition is_first (c : N) (o : vop) : bool := match o with VFirst c' _ _ => (c' =? c)%N | _ => false end.
(** Steps by which a connection ends: its own. *)
Definition ends (c : N) (o : vop) : bool := match o with VClose c' | VFrame c' _ => (c' =? c)%N | _ => false end.
