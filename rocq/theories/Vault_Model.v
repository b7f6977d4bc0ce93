(** Persistent entities behind sharding: the requests to sharded entities ([Sharded_Model]) and
    the journals of their actors ([Durable_Model]) in one system. *)
From Verif Require Export Sharded_Model Durable_Model.
From Verif Require Import Entity_Model.
Local Open Scope N_scope.

#[global] Instance ticket_eq_dec : EqDecision ticket.
Proof. solve_decision. Defined.

(** An entity actor with its copy of the state: what it recovered and what it has stored since.
    [a_busy]: the request whose message it is storing. *)
Record eactor := EActor {
  a_node : N;
  a_ent : N;
  a_inc : N;                       (* its incarnation in the storage model *)
  a_state : list (N * bytes);
  a_busy : option ticket }.

(** What can be observed: what callers and handlers see, what the journals do, and which
    incarnation an entity actor is. *)
Inductive wevent :=
| WZ (e : zevent)
| WD (e : devent)
| WUp (e i : N).

Inductive wop :=
| WShard (o : zop)                       (* hosts, shards, calls, network: as in [Sharded_Model] *)
| WStart (t : nat)                       (* the creation [t] has made the actor, which starts to recover *)
| WLoad (i : N)                          (* it reads its messages *)
| WCreated (t : nat) (i : N)             (* the creation ends with this actor *)
| WFailed (t : nat)                      (* the creation ends with an error *)
| WTake (t : nat)                        (* the entity actor takes the request [t] *)
| WStored (e : N) (t : nat)              (* its message is stored: it answers the request [t] *)
| WAgain (e : N)                         (* storing has failed: once more *)
| WGiveUp (e : N) (t : nat)              (* storing has failed: it answers with its failure *)
| WRefused (t : nat) (d : outcome)       (* the request reaches no handler *)
| WStop (i : N)                          (* the actor stops or panics, also during recovery *)
| WPerform (k : N)                       (* the storage performs a write *)
| WCrash (n : N).                        (* a node dies *)

Section vault.
Context {St : Type} (S : storage St) (conf : string -> jtypes).
Variable shard_of : N -> N.
Variable readable : bytes -> bool.
(** persistent/actor.rs:19-21: the persistence id is the id of the actor unless it says otherwise, here of the entity
    (sharding/shard/mod.rs:283-302). *)
Variable pid_of : N -> string.
(** The handlers of the entity: what a message makes it store, if anything (ctx.persist,
    persistent/actor.rs:31-57), what it answers in which state, and what it answers when storing
    has failed. *)
Variable stored_as : bytes -> option (N * bytes).
Variable answer : list (N * bytes) -> bytes -> bytes.
Variable failure : bytes.

(** [w_new]: the actors that recover, with node, entity and what they have read. *)
Record wsys := WSys {
  w_z : sys;
  w_d : dsys (St := St);
  w_new : gmap N (N * N * option (list (N * bytes)));
  w_actors : gmap N eactor }.

(** Journals first, then requests. *)
Definition zruns (z : sys) (l : list zop) : sys * list zevent :=
  let '(z', evs) := run (zstep shard_of readable) z l in (z', concat evs).
Definition act (w : wsys) (ds : list dop) (zs : list zop) (new : gmap N (N * N * option (list (N * bytes))))
  (actors : gmap N eactor) (ups : list wevent) : wsys * list wevent :=
  let '(d, devs) := drun S conf (w_d w) ds in
  let '(z, zevs) := zruns (w_z w) zs in
  (WSys z d new actors, map WD devs ++ ups ++ map WZ zevs).
Definition keep (w : wsys) (ds : list dop) (zs : list zop) : wsys * list wevent := act w ds zs (w_new w) (w_actors w) [].

Definition runs (w : wsys) (i : N) : bool := bool_decide (is_Some (d_incs (w_d w) !! i)).

(** What belongs to the entity actors is not for [WShard]. *)
Definition passes (o : zop) : bool :=
  match o with OEntity _ _ | OCreated _ _ | OCrash _ => false | _ => true end.

(** The messages that a start reads (recovery.rs:84-101). *)
Definition loads (w : wsys) (i : N) : option (list (N * bytes)) :=
  match (drun S conf (w_d w) [DLoad i]).2 with [VRecovered _ _ _ ms] => Some ms | _ => None end.

(** The incarnations on a node. *)
Definition on_node (w : wsys) (n : N) : list N :=
  omap (fun x : N * (N * N * option (list (N * bytes))) => if x.2.1.1 =? n then Some x.1 else None) (map_to_list (w_new w)) ++
  omap (fun x : N * eactor => if a_node x.2 =? n then Some (a_inc x.2) else None) (map_to_list (w_actors w)).

Definition set_actor (w : wsys) (e : N) (st : list (N * bytes)) (b : option ticket) : gmap N eactor :=
  match w_actors w !! e with
  | Some x => <[e := EActor (a_node x) (a_ent x) (a_inc x) st b]> (w_actors w)
  | None => w_actors w
  end.

Definition wstep (w : wsys) (o : wop) : wsys * list wevent :=
  match o with
  | WShard o => if passes o then keep w [] [o] else (w, [])
  | WStart t =>
      (* shard/mod.rs:283-319, persistent/actor.rs:228-237 *)
      match z_tasks (w_z w) !! t with
      | Some (TCreate n _ _ id _) =>
          act w [DStart (pid_of id)] [] (<[d_next (w_d w) := (n, id, None)]> (w_new w)) (w_actors w) []
      | _ => (w, [])
      end
  | WLoad i =>
      match w_new w !! i, loads w i with
      | Some (n, id, None), Some ms => act w [DLoad i] [] (<[i := (n, id, Some ms)]> (w_new w)) (w_actors w) []
      | _, _ => (w, [])
      end
  | WCreated t i =>
      match z_tasks (w_z w) !! t, w_new w !! i with
      | Some (TCreate n _ _ id _), Some (n', id', Some ms) =>
          if (n' =? n) && (id' =? id) && runs w i then
            let e := z_nexte (w_z w) in
            act w [] [OCreated t true] (delete i (w_new w)) (<[e := EActor n id i ms None]> (w_actors w)) [WUp e i]
          else (w, [])
      | _, _ => (w, [])
      end
  | WFailed t => keep w [] [OCreated t false]
  | WTake t =>
      match z_tasks (w_z w) !! t with
      | Some (TEntity _ _ _ _ e k) =>
          match w_actors w !! e with
          | Some (EActor _ _ i st None) =>
              if runs w i then
                match stored_as (t_msg k) with
                | None => keep w [] [OEntity t (DDone (answer st (t_msg k)))]
                | Some (ty, b) => act w [DCall i (CPersist ty b)] [] (w_new w) (set_actor w e st (Some k)) []
                end
              else (w, [])
          | _ => (w, [])
          end
      | _ => (w, [])
      end
  | WStored e t =>
      match w_actors w !! e, z_tasks (w_z w) !! t with
      | Some (EActor _ _ i st (Some k)), Some (TEntity _ _ _ _ e' k') =>
          if (e' =? e) && bool_decide (k' = k) then
            match (drun S conf (w_d w) [DAnswer i true]).2, stored_as (t_msg k) with
            | [_], Some x =>
                act w [DAnswer i true] [OEntity t (DDone (answer (st ++ [x]) (t_msg k)))] (w_new w)
                    (set_actor w e (st ++ [x]) None) []
            | _, _ => (w, [])
            end
          else (w, [])
      | _, _ => (w, [])
      end
  | WAgain e =>
      (* persistent/actor.rs:31-57, failure.rs: with the retry policy *)
      match w_actors w !! e with
      | Some (EActor _ _ i st (Some k)) =>
          match stored_as (t_msg k) with
          | Some (ty, b) => keep w [DAnswer i false; DCall i (CPersist ty b)] []
          | None => (w, [])
          end
      | _ => (w, [])
      end
  | WGiveUp e t =>
      match w_actors w !! e, z_tasks (w_z w) !! t with
      | Some (EActor _ _ i st (Some k)), Some (TEntity _ _ _ _ e' k') =>
          if (e' =? e) && bool_decide (k' = k) && runs w i then
            act w [DAnswer i false] [OEntity t (DDone failure)] (w_new w) (set_actor w e st None) []
          else (w, [])
      | _, _ => (w, [])
      end
  | WRefused t d =>
      match z_tasks (w_z w) !! t with
      | Some (TEntity _ _ _ _ e k) =>
          let here := match w_actors w !! e with Some x => runs w (a_inc x) | None => false end in
          let busy := match w_actors w !! e with Some x => bool_decide (a_busy x = Some k) | None => false end in
          match d with
          | DRefused | DUndecoded | DOtherType => if here && busy then (w, []) else keep w [] [OEntity t d]
          | DPanicked => if here then (w, []) else keep w [] [OEntity t d]
          | _ => (w, [])
          end
      | _ => (w, [])
      end
  | WStop i => keep w [DCrash i] []
  | WPerform k => keep w [DApply k] []
  | WCrash n => keep w (map DCrash (on_node w n)) [OCrash n]
  end.

Definition wruns (w : wsys) (l : list wop) : wsys * list wevent :=
  let '(w', evs) := run wstep w l in (w', concat evs).
Definition wsys_init (nodes : list N) (st : St) : wsys := WSys (sys_init nodes) (durable_init st) ∅ ∅.
End vault.
Arguments WSys {St}. Arguments w_z {St}. Arguments w_d {St}. Arguments w_new {St}. Arguments w_actors {St}.
Arguments wsys : clear implicits.

(** What the callers and handlers see, and what the journals do. *)
Definition requests (l : list wevent) : list zevent := omap (fun e => match e with WZ x => Some x | _ => None end) l.
Definition journals (l : list wevent) : list devent := omap (fun e => match e with WD x => Some x | _ => None end) l.
