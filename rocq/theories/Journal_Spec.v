(** What a user of a persistent actor expects of its journal, stated over the
    observable history only: the calls made and the answers they returned. *)
From Verif Require Import Journal_Model.
Local Open Scope Z_scope.

(** A call with its answer. *)
Definition event : Type := (string * jop) * jout.

(** A message as the user sees it: its type and its bytes. *)
Definition msg : Type := N * bytes.

(** ** What is expected *)

(** The state a fresh start must rebuild: the latest acknowledged snapshot and the
    messages acknowledged after it. *)
Record expected := Expected { x_snapshot : option msg; x_after : list msg }.

Definition expected_init : expected := Expected None [].

Definition expected_step (pid : string) (x : expected) (e : event) : expected :=
  if decide (e.1.1 = pid) then
    match e.1.2, e.2 with
    | JPersist m b _, JOk => Expected (x_snapshot x) (x_after x ++ [(m, b)])
    | JBatch l _, JOk => Expected (x_snapshot x) (x_after x ++ l)
    | JSnapshot s b _, JOk => Expected (Some (s, b)) []
    | JClear _, JBool true => expected_init
    | _, _ => x
    end
  else x.

(** What must be recovered for [pid] after the history [h]. *)
Definition must_recover (pid : string) (h : list event) : expected :=
  fold_left (expected_step pid) h expected_init.

(** The answer of a start, with "no messages" and "an empty list" identified. *)
Definition recovered (o : jout) : option (option msg * list msg) :=
  match o with
  | JRecovered s ms => Some (s, default [] ms)
  | _ => None
  end.

(** ** What the code actually keeps

    After a snapshot, as long as no message has been written behind it, the first
    single [persist] of every incarnation is written with the sequence id of the
    snapshot and is not replayed. *)
Record actual := Actual {
  a_snapshot : option msg;
  a_lost : list msg;      (* acknowledged after the snapshot, never replayed *)
  a_kept : list msg;      (* acknowledged after the snapshot and replayed *)
  a_fresh : bool;         (* no write since the snapshot or since the start *)
}.

Definition actual_init : actual := Actual None [] [] true.

Definition actual_step (pid : string) (x : actual) (e : event) : actual :=
  let '(Actual snap lost kept fresh) := x in
  if decide (e.1.1 = pid) then
    match e.1.2, e.2 with
    | JPersist m b _, JOk =>
        match snap, kept, fresh with
        | Some _, [], true => Actual snap (lost ++ [(m, b)]) [] false
        | _, _, _ => Actual snap lost (kept ++ [(m, b)]) false
        end
    | JBatch l _, JOk => Actual snap lost (kept ++ l) fresh
    | JSnapshot s b _, JOk => Actual (Some (s, b)) [] [] true
    | JClear _, JBool true => Actual None [] [] fresh
    | JStart, _ => Actual snap lost kept true
    | _, _ => x
    end
  else x.

Definition does_recover (pid : string) (h : list event) : actual :=
  fold_left (actual_step pid) h actual_init.

(** ** Side conditions *)

(** No identifier is registered for two different types. *)
Definition unambiguous (r : regs) : Prop :=
  forall m m' i, In (m, i) r -> In (m', i) r -> m = m'.

Definition unambiguous_types (t : jtypes) : Prop :=
  unambiguous (jt_messages t) /\ unambiguous (jt_snapshots t).

(** The history takes no snapshot of [pid]. *)
Definition no_snapshot (pid : string) (h : list (string * jop)) : Prop :=
  forall x, In x h -> x.1 = pid -> forall s b f, x.2 <> JSnapshot s b f.

(** The events of a run: the calls paired with their answers. *)
Definition history {St} (S : storage St) (conf : string -> jtypes)
    (s : jsys (St := St)) (h : list (string * jop)) : list event :=
  combine h (jrun S conf s h).2.

(** The answer a start of [pid] gives after the history. *)
Definition start_after {St} (S : storage St) (conf : string -> jtypes)
    (s : jsys (St := St)) (h : list (string * jop)) (pid : string) : jout :=
  (jstep S conf (jrun S conf s h).1 (pid, JStart)).2.

(** ** Isolation *)

(** The calls made on [pid], and the answers they got in a run. *)
Definition calls_of (pid : string) (h : list (string * jop)) : list (string * jop) :=
  filter (fun x => x.1 = pid) h.

Definition answers_of (pid : string) (h : list event) : list jout :=
  omap (fun e : event => if decide (e.1.1 = pid) then Some e.2 else None) h.

(** ** Range reads *)

(** The stored messages of a journal, in order. *)
Definition messages_of (pid : string) (st : mem_store) : list entry :=
  match st !! pid with Some j => aj_messages j | None => [] end.

(** The messages with a sequence id in [from, to]. *)
Definition in_range (from to : Z) (l : list entry) : list entry :=
  List.filter (fun e => (from <=? e_seq e) && (e_seq e <=? to)) l.
