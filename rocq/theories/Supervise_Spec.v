(** What a parent expects of its children, over the observable trace. *)
From Verif Require Import Supervise_Model.

(** Children of this parent that have come into being, including those that failed to start. *)
Definition born (tr : list sevent) : list (nat * string) :=
  omap (fun e => match e with SSpawned r id | SStartFailed r id => Some (r, id) | _ => None end) tr.
(** Those that have ended. *)
Definition ended (tr : list sevent) : list nat :=
  omap (fun e => match e with SChildEnded r => Some r | SStartFailed r _ => Some r | _ => None end) tr.
Definition told_of (id : string) (tr : list sevent) : nat :=
  length (List.filter (fun e => match e with STold j => String.eqb id j | _ => false end) tr).
Definition live_child (r : nat) (id : string) (tr : list sevent) : Prop :=
  (r, id) ∈ born tr /\ r ∉ ended tr.
(** The ended children with an id. *)
Definition ended_with (id : string) (tr : list sevent) : nat :=
  length (List.filter (fun x => String.eqb id x.2 && bool_decide (x.1 ∈ ended tr)) (born tr)).

(** Histories in which children are only spawned through the context. *)
Definition spawn_only (ops : list sop) : Prop :=
  forall o, In o ops -> match o with SOAdd _ | SOAttach _ => False | _ => True end.
(** Nothing is under way: every end has been reported and handled. *)
Definition settled (s : sup) : Prop := s_inbox s = [] /\ forall r c, s_actors s !! r = Some c -> c_alive c = true.
(** The latest actor the parent holds under each id, spawned, added or attached, until it is told of
    the end of one of that id. *)
Definition children_of (tr : list sevent) : gmap string nat :=
  fold_left (fun m e => match e with
                        | SSpawned r id | SStartFailed r id | SAttached r id => <[id := r]> m
                        | STold id => delete id m
                        | _ => m
                        end) tr ∅.
