(** What the user of an upgraded program expects of its persistent actors. *)
From Verif Require Import Upgrade_Model Journal_Spec.

(** ** Histories *)

(** An operation with its answer. *)
Definition uevent : Type := uop * option jout.

Definition uhistory (conf : versions) (s : usys) (h : list uop) : list uevent :=
  combine h (urun conf s h).2.

(** The version that runs after [h], when [v] ran before it. *)
Definition version_after (v : nat) (h : list uop) : nat :=
  fold_left (fun v x => match x with UBoot w => w | UCall _ _ => v end) h v.

(** The versions that ran. *)
Definition versions_of (v : nat) (h : list uop) : list nat :=
  v :: omap (fun x => match x with UBoot w => Some w | UCall _ _ => None end) h.

(** A message or snapshot with the version that wrote it, and its type in that version. *)
Definition umsg : Type := (nat * N) * bytes.

(** ** What is expected: the latest acknowledged snapshot and what was acknowledged after it,
    whichever version acknowledged it. *)
Record uexpected := UExpected { ux_version : nat; ux_snapshot : option umsg; ux_after : list umsg }.

Definition ux_step (pid : string) (x : uexpected) (e : uevent) : uexpected :=
  let '(UExpected v sn af) := x in
  match e.1, e.2 with
  | UBoot w, _ => UExpected w sn af
  | UCall p o, Some r =>
      if decide (p = pid) then
        match o, r with
        | JPersist m b _, JOk => UExpected v sn (af ++ [((v, m), b)])
        | JBatch l _, JOk => UExpected v sn (af ++ map (fun y => ((v, y.1), y.2)) l)
        | JSnapshot s b _, JOk => UExpected v (Some ((v, s), b)) []
        | JClear _, JBool true => UExpected v None []
        | _, _ => x
        end
      else x
  | _, _ => x
  end.

Definition must_survive (v : nat) (pid : string) (h : list uevent) : uexpected :=
  fold_left (ux_step pid) h (UExpected v None []).

(** ** What is kept: as in [Journal_Spec], the first single message of an incarnation behind a
    snapshot is lost. *)
Record uactual := UActual {
  ua_version : nat;
  ua_snapshot : option umsg;
  ua_lost : list umsg;
  ua_kept : list umsg;
  ua_fresh : bool;
}.

Definition ua_step (pid : string) (x : uactual) (e : uevent) : uactual :=
  let '(UActual v snap lost kept fresh) := x in
  match e.1, e.2 with
  | UBoot w, _ => UActual w snap lost kept fresh
  | UCall p o, Some r =>
      if decide (p = pid) then
        match o, r with
        | JPersist m b _, JOk =>
            match snap, kept, fresh with
            | Some _, [], true => UActual v snap (lost ++ [((v, m), b)]) [] false
            | _, _, _ => UActual v snap lost (kept ++ [((v, m), b)]) false
            end
        | JBatch l _, JOk => UActual v snap lost (kept ++ map (fun y => ((v, y.1), y.2)) l) fresh
        | JSnapshot s b _, JOk => UActual v (Some ((v, s), b)) [] [] true
        | JClear _, JBool true => UActual v None [] [] fresh
        | JStart, _ => UActual v snap lost kept true
        | _, _ => x
        end
      else x
  | _, _ => x
  end.

Definition does_survive (v : nat) (pid : string) (h : list uevent) : uactual :=
  fold_left (ua_step pid) h (UActual v None [] [] true).

(** The answer a start of [pid] gets after the history. *)
Definition ustart_after (conf : versions) (v : nat) (h : list uop) (pid : string) : option jout :=
  (ustep conf (urun conf (u_init v) h).1 (UCall pid JStart)).2.

(** ** What a version reads *)

(** The identifier under which the registrations store a type: the last call for the type. *)
Definition written_as (r : regs) (m : N) : option string :=
  fold_left (fun acc x => if decide (x.1 = m) then Some x.2 else acc) r None.

(** The type as which the registrations read an identifier: the last call for the identifier. *)
Definition read_as (r : regs) (i : string) : option N :=
  fold_left (fun acc x => if decide (x.2 = i) then Some x.1 else acc) r None.

(** What version [w] makes of something stored by another version; [part] is messages or snapshots. *)
Definition seen_by (conf : versions) (part : jtypes -> regs) (w : nat) (pid : string) (u : umsg) : option msg :=
  match written_as (part (conf u.1.1 pid)) u.1.2 with
  | Some i => match read_as (part (conf w pid)) i with Some m => Some (m, u.2) | None => None end
  | None => None
  end.

(** Version [w] keeps the identifiers of version [v]: what [v] registers as [m], [w] registers as
    [r m] under the same identifier, and as nothing else. *)
Definition keeps (r : N -> N) (old new : regs) : Prop :=
  forall m i, In (m, i) old -> In (r m, i) new /\ (forall m', In (m', i) new -> m' = r m).

Definition no_snapshots (pid : string) (h : list uop) : Prop :=
  forall s b f, ~ In (UCall pid (JSnapshot s b f)) h.
