(** What a persist call and a start-up must do, stated without the model's loops. *)
From Verif Require Import Persist_Model.

(** The number of attempts a policy allows. *)
Definition attempt_limit (p : persist_policy) : option nat :=
  match p with
  | PRetry UntilSuccess => None
  | PRetry (MaxAttempts n) => Some (Nat.max 1 n)
  | _ => Some 1%nat
  end.

(** What the caller sees, and whether the actor is told to stop, when giving up. *)
Definition give_up (p : persist_policy) : persist_result * bool :=
  match p with
  | PRetry _ => (PRErr, true)
  | PReturnErr => (PRErr, false)
  | PStopActor => (PRStopping, true)
  | PPanicPolicy => (PRPanic, false)
  end.

(** The first [n] attempts all failed. *)
Definition first_fail (n : nat) (outcomes : list bool) : Prop :=
  (n <= length outcomes)%nat /\ Forall (eq true) (take n outcomes).

Definition within (n : nat) (limit : option nat) : Prop :=
  match limit with Some l => (n <= l)%nat | None => True end.

(** Result of a persist call with the given attempt outcomes. *)
Inductive persist_expected (p : persist_policy) (outcomes : list bool)
  : persist_result -> bool -> nat -> bool (* written *) -> Prop :=
| expect_ok k : first_fail k outcomes -> outcomes !! k = Some false ->
    within (S k) (attempt_limit p) ->
    persist_expected p outcomes PROk false (S k) true
| expect_give_up l : attempt_limit p = Some l -> first_fail l outcomes ->
    persist_expected p outcomes (give_up p).1 (give_up p).2 l false
| expect_retrying : first_fail (length outcomes) outcomes ->
    within (S (length outcomes)) (attempt_limit p) ->
    persist_expected p outcomes PRRetrying false (length outcomes) false.

(** The journal operations that write. *)
Inductive is_write : (bool -> jop) -> Prop :=
| write_message m b : is_write (JPersist m b)
| write_batch l : l <> [] -> is_write (JBatch l)
| write_snapshot s b : is_write (JSnapshot s b).

(** ** Start-up *)

(** The payloads replayed in a trace, in order. *)
Definition replayed (t : list startup_event) : list payload :=
  omap (fun e => match e with ERecoverSnapshot p | ERecoverMessage p => Some p | _ => None end) t.

(** The content of a journal: the snapshot, then the messages. *)
Definition contents (j : loaded) : list payload :=
  match j.1 with Some p => [p] | None => [] end ++ default [] j.2.

Definition recovery_limit (p : recovery_policy) : option nat :=
  match p with
  | RRetry UntilSuccess => None
  | RRetry (MaxAttempts n) => Some (Nat.max 1 n)
  | _ => Some 1%nat
  end.

(** The journal of the first load that succeeds, if the policy lets it happen. *)
Definition first_load (p : recovery_policy) (loads : list (option loaded)) (j : loaded) : Prop :=
  exists k, Forall (eq None) (take k loads) /\ loads !! k = Some (Some j) /\ within (S k) (recovery_limit p).

(** Number of failed loads seen in a trace. *)
Definition load_errors (t : list startup_event) : nat :=
  length (List.filter (fun e => match e with ELoadError => true | _ => false end) t).

Definition is_handle (e : startup_event) : bool := match e with EHandle _ => true | _ => false end.
Definition is_post (e : startup_event) : bool := match e with EPostRecovery => true | _ => false end.
