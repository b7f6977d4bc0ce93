(** Persistent actors whose storage calls may be lost, late or unanswered, with several
    incarnations of one persistence id at the same time: coerce/src/persistent/journal/mod.rs,
    persistent/recovery.rs and the storages behind them.

    A call of an actor is split into three steps: the write is issued, the storage performs it
    (or not, or later), the caller gets an answer. With redis the command runs in a task of its
    own (providers/persistence/coerce-redis/src/journal/actor.rs:79-99), so it goes on when the caller is gone; the
    connection may break before or after the command is performed. The in-memory storage
    performs each call at once ([prun]). *)
From Verif Require Export Journal_Model.
Local Open Scope Z_scope.

(** The storing calls of a persistent actor: persistent/actor.rs:31-112 (persist,
    persist_batch, snapshot), :135-140 (clear_old_messages), and journal/mod.rs:413-415
    (clear, called on the journal). *)
Inductive dcall :=
| CPersist (m : N) (b : bytes)
| CBatch (l : list (N * bytes))
| CSnapshot (m : N) (b : bytes)
| CClearOld
| CClear.

#[global] Instance dcall_eq_dec : EqDecision dcall.
Proof. solve_decision. Defined.

(** The call of the storage it makes: persistent/journal/storage.rs:13-54. *)
Inductive dwrite :=
| WMessage (e : entry)
| WBatch (es : list entry)
| WSnapshot (e : entry)
| WDeleteTo (to : Z)
| WDeleteAll.

(** What a user observes. *)
Inductive devent :=
| VStart (i : N) (pid : string)             (* an incarnation starts to recover *)
| VRecovered (i : N) (pid : string) (snapshot : option (N * bytes)) (messages : list (N * bytes))
| VCall (i : N) (pid : string) (c : dcall)
| VAnswer (i : N) (pid : string) (c : dcall) (ok : bool)
| VGone (i : N) (pid : string).             (* stopped, crashed or panicked *)

(** What happens next, chosen freely. *)
Inductive dop :=
| DStart (pid : string)
| DLoad (i : N)
| DCall (i : N) (c : dcall)
| DApply (k : N)
| DAnswer (i : N) (ok : bool)
| DCrash (i : N).

(** An incarnation: its journal, whether it still has to read its messages (with the snapshot
    it found), and the call it waits for (with the number of the write). *)
Record incarnation := Inc {
  i_pid : string;
  i_journal : journal;
  i_loading : option (option (N * bytes));
  i_call : option (N * dcall);
}.

Section durable.
  Context {St : Type} (S : storage St) (conf : string -> jtypes).

  Record dsys := DSys {
    d_store : St;
    d_incs : gmap N incarnation;
    d_flight : gmap N (string * dwrite);  (* issued, not performed *)
    d_next : N;
  }.

  (** journal/mod.rs:254-288 (message), :207-233 (batch), :290-320 (snapshot), :413-427
      (clears): the write a call makes. [None]: the type is not registered (a panic);
      [Some None]: no write is needed (empty batch; nothing to clear). *)
  Definition call_write (pid : string) (c : dcall) (j : journal) : option (option dwrite) :=
    match c with
    | CPersist m b =>
        match reg_types (jt_messages (conf pid)) !! m with
        | Some ty => Some (Some (WMessage (Entry (j_last j) ty b)))
        | None => None
        end
    | CBatch l =>
        match batch_types conf pid l with
        | Some [] => Some None
        | Some es => Some (Some (WBatch (batch_entries (j_last j) es)))
        | None => None
        end
    | CSnapshot m b =>
        match reg_types (jt_snapshots (conf pid)) !! m with
        | Some ty => Some (Some (WSnapshot (Entry (j_last j + 1) ty b)))
        | None => None
        end
    | CClearOld => Some match j_snap j with Some s => Some (WDeleteTo s) | None => None end
    | CClear => Some (Some WDeleteAll)
    end.

  (** The journal after a call was acknowledged, same lines. *)
  Definition call_done (c : dcall) (j : journal) : journal :=
    match c with
    | CPersist _ _ => Journal (j_last j + 1) (j_snap j)
    | CBatch l => Journal (j_last j + Z.of_nat (length l)) (j_snap j)
    | CSnapshot _ _ => Journal (j_last j + 1) (Some (j_last j + 1))
    | CClearOld | CClear => j
    end.

  Definition apply_write (pid : string) (w : dwrite) : St -> St :=
    match w with
    | WMessage e => s_write_message S pid e
    | WBatch es => s_write_batch S pid es
    | WSnapshot e => s_write_snapshot S pid e
    | WDeleteTo to => s_delete_to S pid to
    | WDeleteAll => s_delete_all S pid
    end.

  (** A call that needs no write: [Ok(())] for an empty batch (persistent/actor.rs:66-68),
      [false] for [clear_old_messages] without a snapshot (journal/mod.rs:424-426). *)
  Definition empty_answer (c : dcall) : bool :=
    match c with CBatch _ => true | _ => false end.

  Definition dstep (s : dsys) (o : dop) : dsys * list devent :=
    let '(DSys st incs fl n) := s in
    match o with
    | DStart pid =>
        (* persistent/context.rs:21-30 and recovery.rs:88-93: a new journal reads the latest snapshot *)
        let '(j, snap) := recover_snapshot S conf pid journal_new st in
        (DSys st (<[n := Inc pid j (Some snap) None]> incs) fl (n + 1), [VStart n pid])
    | DLoad i =>
        (* recovery.rs:95-98: then, with a second call, the messages *)
        match incs !! i with
        | Some (Inc pid j (Some snap) call) =>
            let '(j', ms) := recover_messages S conf pid j st in
            (DSys st (<[i := Inc pid j' None call]> incs) fl n, [VRecovered i pid snap (default [] ms)])
        | _ => (s, [])
        end
    | DCall i c =>
        match incs !! i with
        | Some (Inc pid j None None) =>
            match call_write pid c j with
            | None => (DSys st (delete i incs) fl n, [VCall i pid c; VGone i pid])
            | Some None => (s, [VCall i pid c; VAnswer i pid c (empty_answer c)])
            | Some (Some w) =>
                (DSys st (<[i := Inc pid j None (Some (n, c))]> incs) (<[n := (pid, w)]> fl) (n + 1),
                 [VCall i pid c])
            end
        | _ => (s, [])
        end
    | DApply k =>
        match fl !! k with
        | Some (pid, w) => (DSys (apply_write pid w st) incs (delete k fl) n, [])
        | None => (s, [])
        end
    | DAnswer i ok =>
        match incs !! i with
        | Some (Inc pid j l (Some (k, c))) =>
            if ok then
              match fl !! k with
              | Some _ => (s, [])  (* not performed yet: no positive answer *)
              | None => (DSys st (<[i := Inc pid (call_done c j) l None]> incs) fl n, [VAnswer i pid c true])
              end
            else (DSys st (<[i := Inc pid j l None]> incs) fl n, [VAnswer i pid c false])
        | _ => (s, [])
        end
    | DCrash i =>
        match incs !! i with
        | Some x => (DSys st (delete i incs) fl n, [VGone i (i_pid x)])
        | None => (s, [])
        end
    end.

  Fixpoint drun (s : dsys) (l : list dop) : dsys * list devent :=
    match l with
    | [] => (s, [])
    | o :: l' => let '(s1, t1) := dstep s o in
                 let '(s2, t2) := drun s1 l' in (s2, t1 ++ t2)
    end.

  (** ** Storages that perform and answer each call at once (persistent/journal/provider.rs) *)

  Inductive pop :=
  | PStart (pid : string) | PLoad (i : N) | PCall (i : N) (c : dcall) | PCrash (i : N).

  Definition expand (s : dsys) (p : pop) : list dop :=
    match p with
    | PStart pid => [DStart pid]
    | PLoad i => [DLoad i]
    | PCall i c => [DCall i c; DApply (d_next s); DAnswer i true]
    | PCrash i => [DCrash i]
    end.

  Fixpoint prun (s : dsys) (l : list pop) : dsys * list devent :=
    match l with
    | [] => (s, [])
    | p :: l' => let '(s1, t1) := drun s (expand s p) in
                 let '(s2, t2) := prun s1 l' in (s2, t1 ++ t2)
    end.
End durable.
Arguments DSys {St}. Arguments d_store {St}. Arguments d_incs {St}.
Arguments d_flight {St}. Arguments d_next {St}.

(** An empty storage and no actor. *)
Definition durable_init {St} (st : St) : dsys (St := St) := DSys st ∅ ∅ 1%N.
