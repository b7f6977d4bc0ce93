(** Persistent journal: coerce/src/persistent/journal/{mod,types,provider,storage}.rs
    and the actor level entry points of coerce/src/persistent/actor.rs. *)
From Verif Require Export Base.
Local Open Scope Z_scope.

(** persistent/journal/storage.rs:6-11 (struct JournalEntry). Sequence ids are
    [i64] in the code and [Z] here: overflow of an [i64] counter that starts at 0
    and grows by one per write is not modelled. *)
Record entry := Entry { e_seq : Z; e_type : string; e_bytes : bytes }.

#[global] Instance entry_eq_dec : EqDecision entry.
Proof. solve_decision. Defined.

(** ** Type registration *)

(** A Rust message or snapshot type ([TypeId]) is a number; [conf] is the list of
    calls [types.message::<M>(identifier)] (resp. [snapshot]) that
    [PersistentActor::configure] makes, in order. *)
Definition regs := list (N * string).

(** persistent/journal/types.rs:49-50 and :64-65: TypeId -> identifier, last call wins. *)
Definition reg_types (r : regs) : gmap N string :=
  fold_left (fun acc x => <[x.1 := x.2]> acc) r ∅.

(** persistent/journal/types.rs:44-47 and :59-62: identifier -> recovery handler of
    the type, last call wins. *)
Definition reg_handlers (r : regs) : gmap string N :=
  fold_left (fun acc x => <[x.2 := x.1]> acc) r ∅.

Record jtypes := JTypes { jt_messages : regs; jt_snapshots : regs }.

(** ** Storage interface *)

(** persistent/journal/storage.rs:13-54 (trait JournalStorage), the part used by
    persisting and recovering. Failures of a call are injected by the caller (an
    operation argument), see [jop] below; the functions are the successful calls. *)
Record storage (St : Type) := Storage {
  s_write_snapshot : string -> entry -> St -> St;
  s_write_message : string -> entry -> St -> St;
  s_write_batch : string -> list entry -> St -> St;
  s_read_latest_snapshot : string -> St -> option entry;
  s_read_latest_messages : string -> Z -> St -> option (list entry);
  s_delete_to : string -> Z -> St -> St;
  s_delete_all : string -> St -> St;
}.
Arguments Storage {St}.
Arguments s_write_snapshot {St}. Arguments s_write_message {St}.
Arguments s_write_batch {St}. Arguments s_read_latest_snapshot {St}.
Arguments s_read_latest_messages {St}. Arguments s_delete_to {St}.
Arguments s_delete_all {St}.

(** ** In-memory storage *)

(** persistent/journal/provider.rs:20-23 *)
Record actor_journal := AJ { aj_snapshots : list entry; aj_messages : list entry }.

(** persistent/journal/provider.rs:49-51; the RwLock makes each call atomic. *)
Notation mem_store := (gmap string actor_journal).

(** [iter().enumerate().find(p).map(index)] followed by [messages[index..]], with
    the empty vector when nothing is found (provider.rs:147-158, 211-227, 266-273). *)
Fixpoint suffix_from (p : entry -> bool) (l : list entry) : list entry :=
  match l with
  | [] => []
  | e :: l' => if p e then l else suffix_from p l'
  end.

(** [messages[..index]] with [index] the first position satisfying [p], and the
    empty vector when nothing is found (provider.rs:230-243). *)
Fixpoint prefix_to (p : entry -> bool) (l : list entry) : option (list entry) :=
  match l with
  | [] => None
  | e :: l' => if p e then Some [] else
                 match prefix_to p l' with Some r => Some (e :: r) | None => None end
  end.

(** provider.rs:72-88 *)
Definition mem_write_snapshot (pid : string) (e : entry) (st : mem_store) : mem_store :=
  match st !! pid with
  | Some j => <[pid := AJ (aj_snapshots j ++ [e]) (aj_messages j)]> st
  | None => <[pid := AJ [e] []]> st
  end.

(** provider.rs:90-106 *)
Definition mem_write_message (pid : string) (e : entry) (st : mem_store) : mem_store :=
  match st !! pid with
  | Some j => <[pid := AJ (aj_snapshots j) (aj_messages j ++ [e])]> st
  | None => <[pid := AJ [] [e]]> st
  end.

(** provider.rs:108-125 *)
Definition mem_write_batch (pid : string) (es : list entry) (st : mem_store) : mem_store :=
  match st !! pid with
  | Some j => <[pid := AJ (aj_snapshots j) (aj_messages j ++ es)]> st
  | None => <[pid := AJ [] es]> st
  end.

(** provider.rs:127-135 *)
Definition mem_read_latest_snapshot (pid : string) (st : mem_store) : option entry :=
  match st !! pid with Some j => last (aj_snapshots j) | None => None end.

(** provider.rs:137-171: 0 reads everything, otherwise the suffix that starts at
    the first message with a greater sequence id. *)
Definition mem_read_latest_messages (pid : string) (from : Z) (st : mem_store)
  : option (list entry) :=
  match st !! pid with
  | Some j => Some (if from =? 0 then aj_messages j
                    else suffix_from (fun e => from <? e_seq e) (aj_messages j))
  | None => None
  end.

(** provider.rs:173-188 *)
Definition mem_read_message (pid : string) (seq : Z) (st : mem_store) : option entry :=
  match st !! pid with
  | None => None
  | Some j => List.find (fun e => e_seq e =? seq) (aj_messages j)
  end.

(** Result of a call that may panic. *)
Inductive presult (A : Type) := PVal (a : A) | PPanic.
Arguments PVal {A}. Arguments PPanic {A}.

(** provider.rs:190-250. The bound of the prefix case is [from], as in the code
    (line 234); the remaining case is [panic!("todo: this")] (line 245). *)
Definition mem_read_messages (pid : string) (from to : Z) (st : mem_store)
  : presult (option (list entry)) :=
  match st !! pid with
  | None => PVal None
  | Some j =>
      match head (aj_messages j), last (aj_messages j) with
      | Some first, Some final =>
          if e_seq final <=? to then
            if from <=? e_seq first then PVal (Some (aj_messages j))
            else PVal (Some (suffix_from (fun e => from <? e_seq e) (aj_messages j)))
          else if from <=? e_seq first then
            PVal (Some (default [] (prefix_to (fun e => from <? e_seq e) (aj_messages j))))
          else PPanic
      | _, _ => PVal None
      end
  end.

(** provider.rs:252-293 *)
Definition mem_delete_to (pid : string) (to : Z) (st : mem_store) : mem_store :=
  match st !! pid with
  | None => st
  | Some j =>
      let keep := suffix_from (fun e => to <=? e_seq e) (aj_messages j) in
      let messages := match last (aj_messages j) with
                      | Some newest => if e_seq newest <? to then [] else keep
                      | None => keep
                      end in
      <[pid := AJ (aj_snapshots j) messages]> st
  end.

(** provider.rs:295-299 *)
Definition mem_delete_all (pid : string) (st : mem_store) : mem_store := delete pid st.

Definition mem_storage : storage mem_store :=
  Storage mem_write_snapshot mem_write_message mem_write_batch
          mem_read_latest_snapshot mem_read_latest_messages mem_delete_to mem_delete_all.

(** ** The journal of one actor incarnation *)

(** persistent/journal/mod.rs:25-31; the persistence id is the key under which the
    handle is kept in [jsys], the storage is [js_store]. *)
Record journal := Journal { j_last : Z; j_snap : option Z }.

(** persistent/journal/mod.rs:34-45 *)
Definition journal_new : journal := Journal 0 None.

(** Operations of a persistent actor on its journal. A message or snapshot is given
    by its Rust type and its serialised bytes; [fail] says that the storage call
    returned an error (and did nothing). *)
Inductive jop :=
| JStart                                   (* (re)start: init_journal and load *)
| JPersist (m : N) (b : bytes) (fail : bool)
| JBatch (l : list (N * bytes)) (fail : bool)
| JSnapshot (s : N) (b : bytes) (fail : bool)
| JClearOld (fail : bool)
| JClear (fail : bool).

Inductive jout :=
| JRecovered (snapshot : option (N * bytes)) (messages : option (list (N * bytes)))
| JOk | JErr | JBool (b : bool)
| JPanic.

Section journal.
  Context {St : Type} (S : storage St) (conf : string -> jtypes).

  (** All running actors and the shared storage. *)
  Record jsys := JSys { js_store : St; js_journals : gmap string journal }.

  (** persistent/journal/mod.rs:254-288: the entry gets the current
      [last_sequence_id], which is incremented after the write succeeded. *)
  Definition persist_message (pid : string) (m : N) (b : bytes) (fail : bool)
      (j : journal) (st : St) : option (journal * St * jout) :=
    match reg_types (jt_messages (conf pid)) !! m with
    | None => None (* expect("message type not configured") *)
    | Some ty =>
        Some (if fail then (j, st, JErr)
              else (Journal (j_last j + 1) (j_snap j),
                    s_write_message S pid (Entry (j_last j) ty b) st, JOk))
    end.

  (** The numbering of persistent/journal/mod.rs:208-220: first entry [last + 1]. *)
  Fixpoint batch_entries (seq : Z) (l : list (string * bytes)) : list entry :=
    match l with
    | [] => []
    | (ty, b) :: l' => Entry (seq + 1) ty b :: batch_entries (seq + 1) l'
    end.

  (** persistent/batch.rs:32-44: building the batch looks up each type ([unwrap]). *)
  Definition batch_types (pid : string) (l : list (N * bytes)) : option (list (string * bytes)) :=
    mapM (fun x => match reg_types (jt_messages (conf pid)) !! x.1 with
                   | Some ty => Some (ty, x.2) | None => None end) l.

  (** persistent/journal/mod.rs:207-233, after the early return for an empty batch in
      persistent/actor.rs:66-68. *)
  Definition persist_batch (pid : string) (l : list (N * bytes)) (fail : bool)
      (j : journal) (st : St) : option (journal * St * jout) :=
    match batch_types pid l with
    | None => None
    | Some [] => Some (j, st, JOk)
    | Some es =>
        Some (if fail then (j, st, JErr)
              else (Journal (j_last j + Z.of_nat (length es)) (j_snap j),
                    s_write_batch S pid (batch_entries (j_last j) es) st, JOk))
    end.

  (** persistent/journal/mod.rs:290-320 *)
  Definition persist_snapshot (pid : string) (s : N) (b : bytes) (fail : bool)
      (j : journal) (st : St) : option (journal * St * jout) :=
    match reg_types (jt_snapshots (conf pid)) !! s with
    | None => None
    | Some ty =>
        Some (if fail then (j, st, JErr)
              else (Journal (j_last j + 1) (Some (j_last j + 1)),
                    s_write_snapshot S pid (Entry (j_last j + 1) ty b) st, JOk))
    end.

  (** persistent/journal/mod.rs:322-353 *)
  Definition recover_snapshot (pid : string) (j : journal) (st : St)
    : journal * option (N * bytes) :=
    match s_read_latest_snapshot S pid st with
    | Some raw =>
        (Journal (e_seq raw) (Some (e_seq raw)),
         match reg_handlers (jt_snapshots (conf pid)) !! e_type raw with
         | Some h => Some (h, e_bytes raw) | None => None end)
    | None => (j, None)
    end.

  (** The loop of persistent/journal/mod.rs:368-396: entries of unknown type are
      skipped, the sequence id advances in any case. *)
  Fixpoint recover_loop (h : gmap string N) (last : Z) (l : list entry)
    : Z * list (N * bytes) :=
    match l with
    | [] => (last, [])
    | e :: l' =>
        let '(last', r) := recover_loop h (e_seq e) l' in
        (last', match h !! e_type e with Some m => (m, e_bytes e) :: r | None => r end)
    end.

  (** persistent/journal/mod.rs:355-411 *)
  Definition recover_messages (pid : string) (j : journal) (st : St)
    : journal * option (list (N * bytes)) :=
    match s_read_latest_messages S pid (j_last j) st with
    | Some l =>
        let '(last', r) := recover_loop (reg_handlers (jt_messages (conf pid))) (j_last j) l in
        (Journal last' (j_snap j), match r with [] => None | _ => Some r end)
    | None => (j, None)
    end.

  (** persistent/recovery.rs:84-101 with persistent/context.rs:21-30 (a new journal). *)
  Definition load_journal (pid : string) (st : St) : journal * jout :=
    let '(j1, snap) := recover_snapshot pid journal_new st in
    let '(j2, msgs) := recover_messages pid j1 st in
    (j2, JRecovered snap msgs).

  (** persistent/journal/mod.rs:413-415 *)
  Definition journal_clear (pid : string) (fail : bool) (j : journal) (st : St)
    : journal * St * jout :=
    if fail then (j, st, JBool false) else (j, s_delete_all S pid st, JBool true).

  (** persistent/journal/mod.rs:417-427 *)
  Definition clear_old_messages (pid : string) (fail : bool) (j : journal) (st : St)
    : journal * St * jout :=
    match j_snap j with
    | Some s => if fail then (j, st, JBool false) else (j, s_delete_to S pid s st, JBool true)
    | None => (j, st, JBool false)
    end.

  (** One operation of the actor with persistence id [pid]. A panic in a handler ends
      the actor (its handle disappears); an operation of an actor without a journal is
      [expect("journal not initialised")] (persistent/context.rs:40-46). *)
  Definition jstep (s : jsys) (x : string * jop) : jsys * jout :=
    let '(pid, o) := x in
    let finish (r : option (journal * St * jout)) :=
      match r with
      | Some (j', st', out) => (JSys st' (<[pid := j']> (js_journals s)), out)
      | None => (JSys (js_store s) (delete pid (js_journals s)), JPanic)
      end in
    match o with
    | JStart => let '(j, out) := load_journal pid (js_store s) in
                (JSys (js_store s) (<[pid := j]> (js_journals s)), out)
    | _ =>
        match js_journals s !! pid with
        | None => (s, JPanic)
        | Some j =>
            finish match o with
                   | JPersist m b fail => persist_message pid m b fail j (js_store s)
                   | JBatch l fail => persist_batch pid l fail j (js_store s)
                   | JSnapshot m b fail => persist_snapshot pid m b fail j (js_store s)
                   | JClearOld fail => Some (clear_old_messages pid fail j (js_store s))
                   | JClear fail => Some (journal_clear pid fail j (js_store s))
                   | JStart => None
                   end
        end
    end.

  Definition jrun (s : jsys) (h : list (string * jop)) : jsys * list jout := run jstep s h.
End journal.
Arguments JSys {St}. Arguments js_store {St}. Arguments js_journals {St}.

(** A system with an empty in-memory store and no running actor. *)
Definition mem_init : jsys (St := mem_store) := JSys ∅ ∅.
