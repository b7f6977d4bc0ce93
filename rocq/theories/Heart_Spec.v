(** What is expected of the heartbeat and of the health report. *)
From Verif Require Import Nodes_Model Nodes_Spec Heart_Model.

Section spec.
Context {C : Type}.
Implicit Types (l : list (hop C)) (h : heart C).

(** The last ping result of a node that came in since it was last reported gone. *)
Fixpoint latest (l : list (hop C)) (n : N) : option ping :=
  match l with
  | [] => None
  | HPing m p :: l' => if (m =? n)%N then Some p else latest l' n
  | HTerminated m _ _ _ :: l' => if (m =? n)%N then None else latest l' n
  | _ :: l' => latest l' n
  end.
Definition last_ping l (n : N) : option ping := latest (rev l) n.

(** The report that a node is gone. *)
Definition reports_gone (o : hop C) (n : N) : bool :=
  match o with HTerminated m _ _ _ => (m =? n)%N | _ => false end.

(** Heartbeats, with the clock they read. *)
Definition beats (o : hop C) : option (N -> Z) :=
  match o with HTick _ clock _ | HTerminated _ _ clock _ => Some clock | _ => None end.
Definition beaten l : Prop := exists o, o ∈ l /\ is_Some (beats o).

(** The nodes a heartbeat looked at, as it left them. *)
Definition viewed h h' (s : rstate) : Prop :=
  is_Some (record (h_store h) (s_id s)) /\ record (h_store h') (s_id s) = Some s.

(** The healthy node that started first; equal start times are settled by the id. *)
Definition comes_first (min_date : Z) (a b : rstate) : Prop :=
  let start s := default min_date (r_started (s_node s)) in
  (start a < start b)%Z \/ (start a = start b /\ s_id a <= s_id b)%N.
Definition oldest_healthy (min_date : Z) (P : rstate -> Prop) (s : rstate) : Prop :=
  P s /\ s_status s = Healthy /\ forall x, P x -> s_status x = Healthy -> comes_first min_date s x.

(** The events. *)
Definition leaders (l : list hevent) : list N := omap (fun e => match e with ELeader n => Some n | _ => None end) l.
Definition ups (l : list hevent) : list N := omap (fun e => match e with EMemberUp n _ => Some n | _ => None end) l.
(** The events of one step. *)
Definition published h h' (es : list hevent) : Prop := h_sent h' = h_sent h ++ es.
(** The channels that asked for the next leader. *)
Definition waits l : list C := omap (fun o => match o with HWait c => Some c | _ => None end) l.

(** Ids that fit an i64. *)
Definition small (n : N) : Prop := (n < 2 ^ 63)%N.
End spec.

(** ** Health *)
(** Registered and not removed since. *)
Definition registered (sys : list checked) (l : list kop) (a : checked) : Prop :=
  exists l1 l2, (l1 = [] /\ l2 = l /\ a ∈ sys \/ l = l1 ++ KRegister a :: l2) /\ KRemove (k_id a) ∉ l2.
