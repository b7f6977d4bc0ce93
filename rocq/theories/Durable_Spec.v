(** What a user of persistent actors expects of crashes, lost answers and overlapping
    incarnations, over the observable trace. *)
From Verif Require Import Journal_Model Journal_Spec Durable_Model Redis_Spec.
Local Open Scope Z_scope.

(** The messages a call stores. *)
Definition messages_in (c : dcall) : list msg :=
  match c with CPersist m b => [(m, b)] | CBatch l => l | _ => [] end.

(** Messages of [pid] whose storing was acknowledged, in the order of the answers. *)
Definition acked_by (pid : string) (e : devent) : list msg :=
  match e with
  | VAnswer _ p c true => if decide (p = pid) then messages_in c else []
  | _ => []
  end.
Definition acked (pid : string) (t : list devent) : list msg := concat (map (acked_by pid) t).

(** Messages, resp. snapshots, of [pid] that some incarnation tried to store. *)
Definition tried_by (pid : string) (e : devent) : list msg :=
  match e with VCall _ p c => if decide (p = pid) then messages_in c else [] | _ => [] end.
Definition tried (pid : string) (t : list devent) : list msg := concat (map (tried_by pid) t).

Definition snapped_by (pid : string) (e : devent) : list msg :=
  match e with
  | VCall _ p (CSnapshot m b) => if decide (p = pid) then [(m, b)] else []
  | _ => []
  end.
Definition snapped (pid : string) (t : list devent) : list msg := concat (map (snapped_by pid) t).

(** Only messages were stored for [pid]: no snapshot, nothing cleared. *)
Definition plain_event (pid : string) (e : devent) : Prop :=
  match e with
  | VCall _ p (CPersist _ _) | VCall _ p (CBatch _) => True
  | VCall _ p _ => p <> pid
  | _ => True
  end.
Definition plain (pid : string) (t : list devent) : Prop := Forall (plain_event pid) t.

(** ** The calls fit the storage: short payloads, fewer than 2^62 entries *)
Definition good_event (e : devent) : Prop :=
  match e with
  | VCall _ _ (CPersist _ b) | VCall _ _ (CSnapshot _ b) => good_payload b
  | VCall _ _ (CBatch l) => forall m b, (m, b) ∈ l -> good_payload b
  | _ => True
  end.
Definition weight (e : devent) : Z :=
  match e with
  | VCall _ _ (CBatch l) => Z.of_nat (length l)
  | VCall _ _ _ => 1
  | _ => 0
  end.
Fixpoint total_weight (t : list devent) : Z :=
  match t with [] => 0 | e :: t' => weight e + total_weight t' end.
Definition good_trace (t : list devent) : Prop :=
  Forall good_event t /\ total_weight t < 4611686018427387904.

(** ** One writer that retries

    The state of the storing calls of [pid]: what the acknowledged calls must leave, the
    call that is not acknowledged yet, the incarnation that calls, whether the latest
    acknowledged call was a batch, and whether the calls followed the rules: one incarnation
    makes all of them, a call that was not acknowledged is made again before any other, no
    single persist comes directly after a batch, nothing is cleared. *)
Record progress := Progress {
  p_expected : expected;
  p_open : option dcall;
  p_writer : option N;
  p_batch : bool;
  p_rules : bool;
}.

Definition progress_init : progress := Progress expected_init None None false true.

Definition is_single (c : dcall) : bool := match c with CPersist _ _ => true | _ => false end.
Definition is_batch (c : dcall) : bool := match c with CBatch _ => true | _ => false end.
Definition is_clear (c : dcall) : bool := match c with CClear | CClearOld => true | _ => false end.

(** What is expected when [c] has taken effect. *)
Definition after_call (c : dcall) (x : expected) : expected :=
  match c with
  | CSnapshot m b => Expected (Some (m, b)) []
  | _ => Expected (x_snapshot x) (x_after x ++ messages_in c)
  end.

Definition progress_step (pid : string) (q : progress) (e : devent) : progress :=
  match e with
  | VCall i p c =>
      if decide (p = pid) then
        Progress (p_expected q) (Some c) (Some i) (p_batch q)
          (p_rules q && bool_decide (p_open q = None \/ p_open q = Some c)
           && bool_decide (p_writer q = None \/ p_writer q = Some i)
           && negb (is_single c && p_batch q) && negb (is_clear c))
      else q
  | VAnswer i p c true =>
      if decide (p = pid) then
        Progress (after_call c (p_expected q)) None (p_writer q) (is_batch c) (p_rules q)
      else q
  | _ => q
  end.
Definition progress_of (pid : string) (t : list devent) : progress :=
  fold_left (progress_step pid) t progress_init.

(** The calls of [pid] in [t] follow the rules. *)
Definition persevering (pid : string) (t : list devent) : Prop := p_rules (progress_of pid t) = true.

(** The states a start may find after [t]: everything acknowledged, and perhaps the call that
    is not acknowledged yet. *)
Definition possible (pid : string) (t : list devent) (x : expected) : Prop :=
  x = p_expected (progress_of pid t) \/
  exists c, p_open (progress_of pid t) = Some c /\ x = after_call c (p_expected (progress_of pid t)).
