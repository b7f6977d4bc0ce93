(** Side conditions of the redis journal theorems, over the observable history. *)
From Verif Require Import Journal_Model Journal_Spec ShardWire_Model.
Local Open Scope Z_scope.

(** Registered identifiers are Rust strings (UTF-8) of at most 2^20 bytes. *)
Definition good_identifier (i : string) : Prop :=
  utf8 (bytes_of_string i) = true /\ Z.of_nat (length (bytes_of_string i)) <= 1048576.

Definition good_identifiers (t : jtypes) : Prop :=
  forall m i, In (m, i) (jt_messages t) \/ In (m, i) (jt_snapshots t) -> good_identifier i.

(** Payloads are shorter than 2^31 bytes. *)
Definition good_payload (b : bytes) : Prop := Z.of_nat (length b) < 2147483648.

Definition good_call (o : jop) : Prop :=
  match o with
  | JPersist _ b _ | JSnapshot _ b _ => good_payload b
  | JBatch l _ => forall m b, In (m, b) l -> good_payload b
  | _ => True
  end.

(** Number of entries a call may write. *)
Definition entries_of (o : jop) : Z :=
  match o with
  | JPersist _ _ _ | JSnapshot _ _ _ => 1
  | JBatch l _ => Z.of_nat (length l)
  | _ => 0
  end.
Fixpoint total_entries (h : list (string * jop)) : Z :=
  match h with [] => 0 | x :: h' => entries_of x.2 + total_entries h' end.

(** The calls fit the storage: short payloads, fewer than 2^62 entries. *)
Definition good_calls (h : list (string * jop)) : Prop :=
  (forall x, In x h -> good_call x.2) /\ total_entries h < 4611686018427387904.

(** Old messages of [pid] are only cleared when nothing was acknowledged since the
    latest snapshot (the usual place: right after the snapshot). *)
Fixpoint tidy (pid : string) (x : expected) (h : list event) : Prop :=
  match h with
  | [] => True
  | e :: h' =>
      match e with
      | (p, JClearOld _, JBool true) => p = pid -> x_after x = []
      | _ => True
      end /\ tidy pid (expected_step pid x e) h'
  end.
Definition tidy_history (pid : string) (h : list event) : Prop := tidy pid expected_init h.

(** Since the last snapshot or clear, no single persist of [pid] was the next write after
    a batch or after a restart (an incarnation that found messages). State: what is
    expected, whether this holds so far, whether the last write was a batch or precedes
    the current incarnation. *)
Record order_state := Order { o_expected : expected; o_ok : bool; o_late : bool }.

Definition order_step (pid : string) (s : order_state) (e : event) : order_state :=
  let x := expected_step pid (o_expected s) e in
  if decide (e.1.1 = pid) then
    match e.1.2, e.2 with
    | JPersist _ _ _, JOk =>
        Order x (match x_after (o_expected s) with [] => true | _ => o_ok s && negb (o_late s) end) false
    | JBatch _ _, JOk => Order x (o_ok s) true
    | JSnapshot _ _ _, JOk => Order x true true
    | JClear _, JBool true => Order x true true
    | JStart, _ => Order x (o_ok s) true
    | _, _ => Order x (o_ok s) (o_late s)
    end
  else Order x (o_ok s) (o_late s).

Definition orderly (pid : string) (h : list event) : bool :=
  o_ok (fold_left (order_step pid) h (Order expected_init true true)).
