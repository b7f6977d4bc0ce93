(** What is expected of the entities of a shard. *)
From Verif Require Import Entity_Model.
Local Open Scope N_scope.

Section spec.
Context {R : Type}.
Implicit Types (v : esys R) (l : list (vop R)) (log : list (eeffect R)).

Definition arrived (id : N) l : list R :=
  omap (fun o => match o with VRequest q _ => if q_id q =? id then Some (q_req q) else None | _ => None end) l.
(** Requests that must reach the entity: those of a known type, from the first one that
    carries a recipe on. *)
Fixpoint served (known : bool) (id : N) l : list R :=
  match l with
  | [] => []
  | VRequest q _ :: l' =>
      if (q_id q =? id) && q_known q then
        if known || match q_recipe q with Some _ => true | None => false end
        then q_req q :: served true id l' else served known id l'
      else served known id l'
  | _ :: l' => served known id l'
  end.

(** What became of the requests for [id]. *)
Definition outcome (id : N) (e : eeffect R) : option R :=
  match e with
  | EReply id' r _ | EForward id' _ r | EDrop id' r => if id' =? id then Some r else None
  | ECreate _ _ => None
  end.
Definition outcomes (id : N) log : list R := omap (outcome id) log.
Definition forwarded (id : N) log : list R :=
  omap (fun e => match e with EForward id' _ r => if id' =? id then Some r else None | _ => None end) log.
Definition dropped (id : N) log : list R :=
  omap (fun e => match e with EDrop id' r => if id' =? id then Some r else None | _ => None end) log.
Definition creations (id : N) log : list N :=
  omap (fun e => match e with ECreate id' rc => if id' =? id then Some rc else None | _ => None end) log.
Definition buffered v (id : N) : list R :=
  match v_ents v !! id with Some (_, EStarting buf) => buf | _ => [] end.

(** A history of one incarnation in which the entity is started by requests only. *)
Definition undisturbed (id : N) (o : vop R) : bool :=
  match o with VStart id' _ _ => negb (id' =? id) | VRestart _ => false | _ => true end.

(** The shard is restarted only when no creation is under way, and entities it knows are not
    started by messages. *)
Definition orderly v (o : vop R) : Prop :=
  match o with
  | VRestart _ => v_tasks v = [] /\ v_results v = []
  | VStart id _ _ => v_ents v !! id = None
  | _ => True
  end.
Fixpoint orderly_run v l : Prop :=
  match l with [] => True | o :: l' => orderly v o /\ orderly_run (vstep v o) l' end.

(** All writes to the journal succeed. *)
Definition stored (o : vop R) : bool :=
  match o with VRequest _ p | VStart _ _ p => p | _ => true end.

End spec.
