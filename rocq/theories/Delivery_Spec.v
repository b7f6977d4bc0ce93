(** What is expected of the delivery of remote messages. *)
From Verif Require Import Delivery_Model.

(** The lookups that were made for a task, and the deliveries. *)
Definition lookups {M} (w : world M) (n : nat) : list (option nat) := snd <$> List.filter (fun x => (fst x =? n)%nat) (w_seen M w).
Definition deliveries {M} (w : world M) (n : nat) : list (nat * M) :=
  (fun x => (fst (fst x), snd x)) <$> List.filter (fun x => (snd (fst x) =? n)%nat) (w_mail M w).
(** The tasks in the order in which their messages got into mailboxes. *)
Definition order {M} (w : world M) : list nat := (fun x => snd (fst x)) <$> w_mail M w.

(** A task that will not put a message into a mailbox any more: it has, or it failed. *)
Definition over (k : task) : bool := match k_state k with Trying _ | Found _ => false | _ => true end.
Definition finished (k : task) : option dresult := match k_state k with Finished r => Some r | _ => None end.

(** Each message arrives when those before it are over: the sender waited for their answers. *)
Definition is_arrival (o : wop) : bool := match o with WArrive _ _ _ _ => true | _ => false end.
Fixpoint one_by_one (handler : N -> option N) {M} (decode : N -> bytes -> option M) (w : world M) (l : list wop) : Prop :=
  match l with
  | [] => True
  | o :: l' =>
      (is_arrival o = true -> forall n k, w_tasks M w !! n = Some k -> over k = true) /\
      match wstep handler M decode w o with Some w' => one_by_one handler decode w' l' | None => True end
  end.

(** The actors with this id are started in this system only. *)
Definition alone (sys id : N) (o : wop) : Prop := match o with WStart sys' id' _ => id' = id -> sys' = sys | _ => True end.
