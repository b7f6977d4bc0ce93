(** What a user of an actor reference expects, over the observable trace. *)
From Verif Require Import Actor_Model.

Section spec.
  Context {St Msg Res : Type}.
  Notation event := (event Msg Res).
  Notation request := (request Msg).

  (** The accepted requests, in order, with their numbers. *)
  Definition accepted (tr : list event) : list (nat * request) :=
    omap (fun e => match e with EAccepted i r => Some (i, r) | _ => None end) tr.
  (** The requests handled, in order. *)
  Definition handled (tr : list event) : list nat :=
    omap (fun e => match e with EHandled i => Some i | _ => None end) tr.
  (** The results that sends got, in order. *)
  Definition replies (tr : list event) : list (nat * Res) :=
    omap (fun e => match e with EReply i r => Some (i, r) | _ => None end) tr.

  Definition count (p : event -> bool) (tr : list event) : nat := length (List.filter p tr).

  (** What became of the caller of request [i]: an answer or an error. *)
  Definition is_outcome (i : nat) (e : event) : bool :=
    match e with
    | EReply j _ | EStatusReply j _ | EStopAnswered j | EDiscarded j => Nat.eqb i j
    | _ => false
    end.
  Definition is_stopped_hook (e : event) : bool := match e with EStoppedHook => true | _ => false end.
  Definition is_told (w : nat) (e : event) : bool := match e with ETold v => Nat.eqb w v | _ => false end.

  (** The answers of the handler when the requests are handled one after the other. *)
  Fixpoint answers (handler : St -> Msg -> St * Res * effect) (u : St) (l : list (nat * request))
    : list (nat * Res) :=
    match l with
    | [] => []
    | (i, RUser m ans) :: l' =>
        let '(u', r, e) := handler u m in
        match e with Panic => [] | _ => if ans then [(i, r)] else [] end ++ answers handler u' l'
    | _ :: l' => answers handler u l'
    end.

  (** Whether the actor with reference [w] and id [id] is watching after these requests. *)
  Definition watch_step (w : nat) (id : string) (b : bool) (r : request) : bool :=
    match r with
    | RWatch _ v => if decide (v = w) then true else b
    | RUnwatch j => if decide (j = id) then false else b
    | _ => b
    end.
  Definition watching (w : nat) (id : string) (l : list request) : bool :=
    fold_left (watch_step w id) l false.

  (** The id of the actor with reference [w] is [id], and no other watching actor has it. *)
  Definition owns_id (w : nat) (id : string) (l : list request) : Prop :=
    forall id' w', In (RWatch id' w') l -> (id' = id <-> w' = w).

  (** Requests whose caller waits for an answer. *)
  Definition awaits (r : request) : bool :=
    match r with RUser _ b => b | RStop b => b | RStatus => true | _ => false end.
End spec.
