(** What is expected of discovery. *)
From Verif Require Import Discovery_Model.

(** The callbacks a list of events answers, and the nodes whose handshakes it begins, that it
    announces as added, or reports as failed. *)
Definition answered (l : list devent) : list nat := omap (fun e => match e with VAnswer c _ => Some c | _ => None end) l.
Definition shaken (l : list devent) : list rnode := omap (fun e => match e with VShake n => Some n | _ => None end) l.
Definition added (l : list devent) : list rnode := omap (fun e => match e with VAdded n => Some n | _ => None end) l.
Definition failed (l : list devent) : list rnode := omap (fun e => match e with VFailed n => Some n | _ => None end) l.

(** Nothing is left to do. *)
Definition quiet (d : disc) : Prop := g_mail d = [] /\ g_groups d = [].
(** Steps of the actor and of its tasks, as opposed to requests and changes from outside. *)
Definition internal (o : qop) : bool := match o with QHandle _ _ | QShake _ _ _ | QJoin _ => true | _ => false end.

(** What nodes report of others is right: an identity answered at the address they report, or
    that claims this address, has the number they report. *)
Definition reports_right (net : nat -> string -> option ident) : Prop :=
  forall k a i p k' a' j, net k a = Some i -> p ∈ i_peers i -> net k' a' = Some j ->
    r_addr p = a' \/ r_addr p = r_addr (i_node j) -> r_id (i_node j) = r_id p.
