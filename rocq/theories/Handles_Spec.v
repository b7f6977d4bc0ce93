(** What the handles of an actor system are used for, in terms of what programs do with them. *)
From Verif Require Export Handles_Model.
Local Open Scope N_scope.

(** The handles and actors an operation goes through have numbers from [k] and [K] on. *)
Definition goes_through (k K : nat) (o : hop) : Prop :=
  match o with
  | HNew _ => True
  | HPersist h _ | HBuild h _ | HInner h | HReach h | HCreate h _ _ _ | HDeploy h _ _ | HServe h
  | HFind h _ | HTerminated h | HShutdown h => (k <= h)%nat
  | HContext a | HSpawn a _ _ | HPeer a _ _ | HUse a | HStore a _ | HEnd a => (K <= a)%nat
  end.

(** The program goes on with the handle number [k] that the builder returned, with the actors from
    number [K] on that it creates from there, and with no others. It does not take a remote handle
    out of a system, no other node deploys actors, and no further system is built. *)
Definition direct (k K : nat) (o : hop) : Prop :=
  goes_through k K o /\
  match o with HNew _ | HReach _ | HPeer _ _ _ | HBuild _ _ => False | _ => True end.

(** The handle or actor whose system an operation that returns a handle starts from. *)
Definition source (w : world) (o : hop) : option N :=
  match o with
  | HPersist h _ | HBuild h _ | HReach h => s_core <$> s_handle w h
  | HInner h => (fun r => s_core (r_actor_system r)) <$> r_handle w h
  | HContext a => (fun x => s_core (a_sys x)) <$> living w a
  | _ => None
  end.
(** The id of the system a handle belongs to, as [system_id()] gives it. *)
Definition handle_system (h : handle) : N := match h with HS s => s_core s | HR r => s_core (r_actor_system r) end.

(** The ids an operation may give to tracked actors. *)
Definition names (o : hop) : list string :=
  match o with
  | HCreate _ id _ true | HDeploy _ id _ | HPeer _ id _ => [id]
  | HServe _ => ["remote-session-store"]
  | HBuild _ _ => service_names
  | _ => []
  end%string.

(** Up to the world [w], nothing in [l] gives the id [id] to another tracked actor, ends an actor
    with that id, or shuts down the system [c]. *)
Definition undisturbed (w : world) (c : N) (id : string) (l : list hop) : Prop :=
  forall o, o ∈ l ->
    id ∉ names o /\
    match o with
    | HEnd b => forall x, w_actors w !! b = Some x -> a_id x <> id
    | HShutdown h => forall s, s_handle w h = Some s -> s_core s <> c
    | _ => True
    end.

(** Somebody has shut down the system [c] in the run. *)
Definition was_shut_down (w : world) (c : N) (l : list hop) (rs : list hres) : Prop :=
  exists i h s, l !! i = Some (HShutdown h) /\ rs !! i = Some RDone /\ s_handle w h = Some s /\ s_core s = c.

(** A [Persistence] as a program can make it: the default provider, then providers for actor types. *)
Definition configured (p : N) (l : list (N * N)) : persistence :=
  fold_left (fun x y => actor_provider x y.1 y.2) l (from_provider p).
(** The provider meant for an actor type: the last one given for it, else the default. *)
Definition meant (p : N) (l : list (N * N)) (t : N) : N :=
  match list_find (fun y => y.1 = t) (reverse l) with Some (_, y) => y.2 | None => p end.

(** A program with a single actor system, its persistence given at the start. *)
Definition one_system (l : list hop) : Prop :=
  Forall (fun o => match o with HNew _ | HPersist _ _ => False | _ => True end) l.

(** The events stored by the actors with the id [id], with the types of these actors, in the order
    in which the calls returned. *)
Fixpoint stored_by (w : world) (id : string) (l : list hop) (rs : list hres) : list (N * N) :=
  match l, rs with
  | HStore a x :: l', RDone :: rs' =>
      match w_actors w !! a with
      | Some b => if bool_decide (a_id b = id) then (t_num (a_type b), x) :: stored_by w id l' rs' else stored_by w id l' rs'
      | None => stored_by w id l' rs'
      end
  | _ :: l', _ :: rs' => stored_by w id l' rs'
  | _, _ => []
  end.
