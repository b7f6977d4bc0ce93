(** What is expected of a client and of the registry of clients. *)
From Verif Require Import Client_Model.

Section spec.
Context {M : Type}.
Variable frame_ok : M -> bool.
Variable len : M -> N.
Notation cstep := (cstep frame_ok len).
Notation crun := (crun frame_ok len new_client).
Implicit Types (c : client M) (o : cop M) (l : list (cop M)).

(** The messages written to the connection: those handed to the client, and the pings it
    writes itself while connected. *)
Definition written1 c o : list M :=
  match o with
  | AWrite m _ => [m]
  | APing m _ => match c_state c with CConnected _ _ => [m] | _ => [] end
  | _ => []
  end.
Inductive writes : list (cop M) -> client M -> list M -> Prop :=
| writes_nil : writes [] new_client []
| writes_snoc l c o c' ms : writes l c ms -> cstep c o = Some c' -> writes (l ++ [o]) c' (ms ++ written1 c o).

(** The client gave up: it asked to be removed. *)
Definition given_up c : Prop := exists n, ORemove n ∈ c_out c.

(** Every buffered message goes out when a connection is made. *)
Definition flushes o : Prop := match o with AConnect (Identified _ link) => forall i, link i = true | _ => True end.

(** ** Attempts *)
Definition failed (r : outcome) : bool := match r with Identified _ _ => false | _ => true end.
(** Failed attempts since the last connection, if any. *)
Fixpoint fails (l : list (cop M)) : nat :=
  match l with
  | [] => 0
  | AConnect r :: l' => if failed r then S (fails l') else 0
  | _ :: l' => fails l'
  end.
Definition fails_since l : nat := fails (rev l).
Definition made (o : cop M) : bool := match o with AConnect (Identified _ _) => true | _ => false end.
(** A run of a client that has not given up, in which every report of a lost connection finds
    the client connected. *)
Inductive orderly : list (cop M) -> client M -> Prop :=
| orderly_nil : orderly [] new_client
| orderly_snoc l c o c' : orderly l c -> cstep c o = Some c' -> ~ given_up c ->
    (o = ALost -> exists n hs, c_state c = CConnected n hs) -> orderly (l ++ [o]) c'.
(** Whether it was ever connected. *)
Definition ever_connected l : bool := existsb made l.
End spec.

(** ** Registry *)
Section registry.
Context {M : Type}.
Implicit Types (l : list (gop M)).
(** The client that last connected to a node and was not removed for that node since. *)
Fixpoint latest_client (l : list (gop M)) (n : N) : option nat :=
  match l with
  | [] => None
  | GConnected m c :: l' => if (m =? n)%N then Some c else latest_client l' n
  | GRemove _ (Some m) :: l' => if (m =? n)%N then None else latest_client l' n
  | _ :: l' => latest_client l' n
  end.
Definition connected_client l n : option nat := latest_client (rev l) n.
(** The writes for a node, in order, with the client they go to. *)
Fixpoint routed (past : list (gop M)) (l : list (gop M)) : list (nat * M) :=
  match l with
  | [] => []
  | GWrite n m :: l' =>
      match latest_client past n with Some c => [(c, m)] | None => [] end ++ routed (GWrite n m :: past) l'
  | o :: l' => routed (o :: past) l'
  end.
End registry.
