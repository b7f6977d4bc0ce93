(** What users of persistent sharded entities expect. *)
From Verif Require Import Journal_Model Journal_Spec Durable_Model Durable_Spec Sharded_Model Vault_Model.
Local Open Scope N_scope.

(** The state of an incarnation, by what was observed: what it recovered and what it was told to
    be stored since. *)
Definition view_of (i : N) (e : devent) : list msg :=
  match e with
  | VRecovered j _ _ ms => if j =? i then ms else []
  | VAnswer j _ c true => if j =? i then messages_in c else []
  | _ => []
  end.
Definition view (i : N) (l : list devent) : list msg := flat_map (view_of i) l.

(** The incarnations of a persistence id do not overlap: when one starts to recover, all earlier
    ones are gone. *)
Definition apart (pid : string) (l : list devent) : Prop :=
  forall l1 i l2, l = l1 ++ VStart i pid :: l2 -> forall j, VStart j pid ∈ l1 -> VGone j pid ∈ l1.

(** A test for it. *)
Fixpoint apartb_from (pid : string) (live : list N) (l : list devent) : bool :=
  match l with
  | [] => true
  | VStart i p :: l' =>
      if bool_decide (p = pid) then match live with [] => apartb_from pid [i] l' | _ => false end else apartb_from pid live l'
  | VGone i p :: l' => apartb_from pid (if bool_decide (p = pid) then List.filter (fun j => negb (j =? i)) live else live) l'
  | _ :: l' => apartb_from pid live l'
  end.
Definition apartb (pid : string) (l : list devent) : bool := apartb_from pid [] l.
