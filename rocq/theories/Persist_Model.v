(** Persistence failure policies and start-up of a persistent actor:
    coerce/src/persistent/{actor,failure,recovery}.rs. *)
From Verif Require Export Journal_Model.

(** persistent/failure.rs:22-31; delays are not modelled. *)
Inductive retry := UntilSuccess | MaxAttempts (max_attempts : nat).

(** persistent/failure.rs:14-20 *)
Inductive persist_policy := PRetry (r : retry) | PReturnErr | PStopActor | PPanicPolicy.

(** persistent/failure.rs:7-12 *)
Inductive recovery_policy := RRetry (r : retry) | RStopActor | RPanicPolicy.

(** persistent/failure.rs:33-56: [None] = retry, [Some] = give up after [ctx.stop(None)]. *)
Definition should_retry (attempts : nat) (r : retry) : bool :=
  match r with
  | UntilSuccess => true
  | MaxAttempts n => negb (n <=? attempts)%nat
  end.

(** What the caller of [persist] observes. *)
Inductive persist_result :=
| PROk                 (* Ok(()) *)
| PRErr                (* Err(e) *)
| PRStopping           (* Err(PersistErr::ActorStopping(e)) *)
| PRPanic              (* panic!("persist failed") *)
| PRRetrying.          (* the oracle is exhausted: the call is still retrying *)

Section persist.
  Context {St : Type} (S : storage St) (conf : string -> jtypes).

  (** persistent/actor.rs:31-59 (persist), 61-81 (persist_batch) and 83-112 (snapshot)
      with check, 171-214. [op fail] is the journal operation with the outcome of the
      storage call; [outcomes] tells for each attempt whether the storage fails.
      Returns the result, whether the actor was told to stop, the number of attempts
      made, and the new state. *)
  Fixpoint persist_loop (policy : persist_policy) (pid : string) (op : bool -> jop)
      (attempts : nat) (outcomes : list bool) (s : jsys (St := St))
    : persist_result * bool * nat * jsys (St := St) :=
    match outcomes with
    | [] => (PRRetrying, false, attempts - 1, s)%nat
    | fail :: rest =>
        let '(s', out) := jstep S conf s (pid, op fail) in
        match out with
        | JOk => (PROk, false, attempts, s')
        | JErr =>
            match policy with
            | PRetry r =>
                if should_retry attempts r then persist_loop policy pid op (1 + attempts) rest s'
                else (PRErr, true, attempts, s')
            | PReturnErr => (PRErr, false, attempts, s')
            | PStopActor => (PRStopping, true, attempts, s')
            | PPanicPolicy => (PRPanic, false, attempts, s')
            end
        | _ => (PRPanic, false, attempts, s')
        end
    end.

  Definition persist_call policy pid op outcomes s := persist_loop policy pid op 1 outcomes s.
End persist.

(** ** Start-up *)

(** A payload to recover: its type and bytes. *)
Definition payload : Type := N * bytes.

Inductive startup_event :=
| EPreRecovery | ELoadError                 (* on_recovery_err after a failed load *)
| ERecoverSnapshot (p : payload) | ERecoverMessage (p : payload)
| EDecodeError (p : payload)                (* on_recovery_err after a failed decode *)
| ERecoveryFailed | EPostRecovery
| EHandle (m : N) | EStopped | EPanic.

(** The journal returned by a successful load: persistent/recovery.rs:78-82. *)
Definition loaded : Type := option payload * option (list payload).

Section startup.
  (** Whether a payload can be decoded: journal/mod.rs:430-493. *)
  Context (decodes : payload -> bool).
  (** Whether handling a message ends with the context stopping. *)
  Context (stops : N -> bool).

  (** persistent/recovery.rs:23-76; [loads] is the oracle of load attempts.
      [None]: still retrying. [Some (inr j)]: recovered. [Some (inl panic)]: failed. *)
  Fixpoint recover_journal (policy : recovery_policy) (attempts : nat)
      (loads : list (option loaded)) : list startup_event * option (bool + loaded) :=
    match loads with
    | [] => ([], None)
    | Some j :: _ => ([], Some (inr j))
    | None :: rest =>
        match policy with
        | RStopActor => ([ELoadError], Some (inl false))
        | RRetry r =>
            if should_retry attempts r then
              let '(t, res) := recover_journal policy (1 + attempts) rest in (ELoadError :: t, res)
            else ([ELoadError], Some (inl false))
        | RPanicPolicy => ([ELoadError], Some (inl true))
        end
    end.

  (** The loop of persistent/actor.rs:276-290; [false] = stopped by a decode error. *)
  Fixpoint replay_messages (l : list payload) : list startup_event * bool :=
    match l with
    | [] => ([], true)
    | p :: l' => if decodes p then
                   let '(t, ok) := replay_messages l' in (ERecoverMessage p :: t, ok)
                 else ([EDecodeError p], false)
    end.

  (** persistent/actor.rs:262-290 *)
  Definition replay (j : loaded) : list startup_event * bool :=
    match j.1 with
    | Some p => if decodes p then
                  let '(t, ok) := replay_messages (default [] j.2) in (ERecoverSnapshot p :: t, ok)
                else ([EDecodeError p], false)
    | None => replay_messages (default [] j.2)
    end.

  (** actor/lifecycle.rs:81-126: handle until the context is stopping. The mailbox is
      the list of messages received before its senders are gone. *)
  Fixpoint handle_all (mailbox : list N) : list startup_event :=
    match mailbox with
    | [] => []
    | m :: rest => EHandle m :: if stops m then [] else handle_all rest
    end.

  (** persistent/actor.rs:230-296 inside actor/lifecycle.rs:50-135. *)
  Definition startup (policy : recovery_policy) (loads : list (option loaded))
      (mailbox : list N) : list startup_event :=
    let '(t1, res) := recover_journal policy 1 loads in
    EPreRecovery :: t1 ++
    match res with
    | None => []
    | Some (inl true) => [EPanic]
    | Some (inl false) => [ERecoveryFailed; EStopped]
    | Some (inr j) =>
        let '(t2, ok) := replay j in
        t2 ++ if ok then [EPostRecovery] ++ handle_all mailbox ++ [EStopped] else [EStopped]
    end.
End startup.
