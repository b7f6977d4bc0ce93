(** A pool of workers with its supervisor, from a dispatch to its answer (coerce/src/actor/worker.rs). *)
From Verif Require Export Base.

Section pool.
(** The state of a worker, messages, results, and whatever else a handler depends on. *)
Context {S M R E : Type}.
(** The handler of a worker (message/mod.rs:100-106); [None]: it panics. *)
Variable hdl : E -> S -> M -> option (S * R).

(** An actor handles messages; it has left its loop but its mailbox is there (lifecycle.rs:113-119);
    the mailbox is gone. *)
Inductive life := Running | Ending | Closed.

(** worker.rs:123-141: where the message of a dispatch is: in the mailbox of the supervisor; in a task that
    has not sent it yet; in the mailbox of a worker; back in the task with a result; the channel of the caller
    has a result ([Some]) or is closed. *)
Inductive task := TAsked | TToSend (k : nat) | TSent (k : nat) | TGot (k : nat) (r : R) | TEnd (r : option R).
(** actor/refs/mod.rs:263-284, the errors of a dispatch. *)
Inductive derr := InvalidRef | ResultChannelClosed.
(** worker.rs:91-111: the caller waits, got an answer, or gave the call up (the future was dropped). The wait for
    the supervisor and the wait for the result are one: the supervisor answers as soon as it started the task, and
    if it does not, its caller gets the same error. *)
Inductive caller := Waiting | Returned (x : R + derr) | Gone.
Record call := Call { c_msg : M; c_task : task; c_caller : caller }.
(** A worker: its state, its mailbox (dispatches in order). *)
Record wk := Wk { k_state : S; k_box : list nat; k_life : life }.
(** Dispatch [h_call] was handled by worker [h_worker] with this result. *)
Record handled := Handled { h_call : nat; h_worker : nat; h_env : E; h_msg : M; h_result : R }.

(** [p_calls]: the dispatches, numbered in order; [p_ring]: the queue of the supervisor (worker.rs:13-15);
    [p_sbox]: its mailbox. For statements only: [p_asked], the dispatches that its mailbox took, in order, and
    [p_log], what was handled. *)
Record pool := Pool {
  p_calls : list call; p_sup : life; p_ring : list nat; p_sbox : list nat; p_workers : list wk;
  p_asked : list nat; p_log : list handled
}.

(** worker.rs:17-46: every worker has a clone of the state; the supervisor starts last. *)
Definition pool_new (s : S) (count : nat) : pool :=
  Pool [] Running (seq 0 count) [] (replicate count (Wk s [] Running)) [] [].

Definition set_task (t : task) (c : nat) (l : list call) : list call :=
  alter (fun x => Call (c_msg x) t (c_caller x)) c l.
Definition set_caller (y : caller) (c : nat) (l : list call) : list call :=
  alter (fun x => Call (c_msg x) (c_task x) y) c l.
(** Messages are dropped with their channels: every sender gets ResultChannelClosed (actor/refs/mod.rs:412), the
    task of a dispatch only logs it and drops the channel of the caller (worker.rs:138). *)
Definition drop_all (cs : list nat) (l : list call) : list call := foldr (set_task (TEnd None)) l cs.

Inductive pop :=
| PDispatch (m : M)        (* a dispatch through any clone of the reference *)
| PTake                    (* the supervisor handles a message *)
| PSend (c : nat)          (* the task of a dispatch sends to its worker *)
| PWork (k : nat) (e : E)  (* a worker handles a message *)
| PForward (c : nat)       (* the task passes the result on *)
| PReturn (c : nat)        (* the caller gets its answer *)
| PCancel (c : nat)        (* the caller gives up *)
| PEnd (k : nat)           (* a worker leaves its loop *)
| PClose (k : nat)         (* the mailbox of a worker goes *)
| PSupEnd | PSupClose.     (* the same for the supervisor *)

Definition pstep (w : pool) (o : pop) : option pool :=
  let '(Pool cs sup ring sbox ws asked log) := w in
  match o with
  | PDispatch m => (* worker.rs:91-98, actor/refs/mod.rs:396-414 *)
      match sup with
      | Closed => Some (Pool (cs ++ [Call m (TEnd None) (Returned (inr InvalidRef))]) sup ring sbox ws asked log)
      | _ => Some (Pool (cs ++ [Call m TAsked Waiting]) sup ring (sbox ++ [length cs]) ws (asked ++ [length cs]) log)
      end
  | PTake => (* worker.rs:119-142; the message of an empty pool is dropped *)
      match sup, sbox with
      | Running, c :: sbox' =>
          match ring with
          | k :: ring' => Some (Pool (set_task (TToSend k) c cs) sup (ring' ++ [k]) sbox' ws asked log)
          | [] => Some (Pool (set_task (TEnd None) c cs) sup [] sbox' ws asked log)
          end
      | _, _ => None
      end
  | PSend c => (* worker.rs:128-129 *)
      match c_task <$> cs !! c with
      | Some (TToSend k) =>
          x ← ws !! k;
          match k_life x with
          | Closed => Some (Pool (set_task (TEnd None) c cs) sup ring sbox ws asked log)
          | _ => Some (Pool (set_task (TSent k) c cs) sup ring sbox
                   (<[k := Wk (k_state x) (k_box x ++ [c]) (k_life x)]> ws) asked log)
          end
      | _ => None
      end
  | PWork k e => (* message/mod.rs:160-187, lifecycle.rs:76-115; a panic ends the task of the actor *)
      x ← ws !! k;
      match k_life x, k_box x with
      | Running, c :: box =>
          y ← cs !! c;
          match hdl e (k_state x) (c_msg y) with
          | Some (s, r) =>
              Some (Pool (set_task (TGot k r) c cs) sup ring sbox (<[k := Wk s box Running]> ws) asked
                     (log ++ [Handled c k e (c_msg y) r]))
          | None => Some (Pool (drop_all (c :: box) cs) sup ring sbox (<[k := Wk (k_state x) [] Closed]> ws) asked log)
          end
      | _, _ => None
      end
  | PForward c => (* worker.rs:130-136 *)
      match c_task <$> cs !! c with
      | Some (TGot _ r) => Some (Pool (set_task (TEnd (Some r)) c cs) sup ring sbox ws asked log)
      | _ => None
      end
  | PReturn c => (* worker.rs:98-109 *)
      x ← cs !! c;
      match c_caller x, c_task x with
      | Waiting, TEnd (Some r) => Some (Pool (set_caller (Returned (inl r)) c cs) sup ring sbox ws asked log)
      | Waiting, TEnd None => Some (Pool (set_caller (Returned (inr ResultChannelClosed)) c cs) sup ring sbox ws asked log)
      | _, _ => None
      end
  | PCancel c =>
      x ← cs !! c;
      match c_caller x with
      | Waiting => Some (Pool (set_caller Gone c cs) sup ring sbox ws asked log)
      | _ => None
      end
  | PEnd k =>
      x ← ws !! k;
      match k_life x with
      | Running => Some (Pool cs sup ring sbox (<[k := Wk (k_state x) (k_box x) Ending]> ws) asked log)
      | _ => None
      end
  | PClose k =>
      x ← ws !! k;
      match k_life x with
      | Ending => Some (Pool (drop_all (k_box x) cs) sup ring sbox (<[k := Wk (k_state x) [] Closed]> ws) asked log)
      | _ => None
      end
  | PSupEnd => match sup with Running => Some (Pool cs Ending ring sbox ws asked log) | _ => None end
  | PSupClose => match sup with Ending => Some (Pool (drop_all sbox cs) Closed ring [] ws asked log) | _ => None end
  end.

Fixpoint prun (w : pool) (l : list pop) : option pool :=
  match l with
  | [] => Some w
  | o :: l' => w' ← pstep w o; prun w' l'
  end.
End pool.
Arguments call : clear implicits.
Arguments task : clear implicits.
Arguments caller : clear implicits.
Arguments wk : clear implicits.
Arguments pool : clear implicits.
Arguments pop : clear implicits.
Arguments handled : clear implicits.
