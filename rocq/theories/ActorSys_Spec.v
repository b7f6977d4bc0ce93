(** What is expected of the registry, worker pools, timers and descriptions. *)
From Verif Require Import ActorSys_Model.

(** * Registry *)

(** The most recently created actor with an id that has not stopped. Actors are numbered in
    the order of their creation. *)
Definition latest_live (id : string) (tr : list gevent) (r : nat) : Prop :=
  GCreated r id ∈ tr /\ GStopped r ∉ tr /\
  forall r', GCreated r' id ∈ tr -> GStopped r' ∉ tr -> (r' <= r)%nat.

(** The answer to a lookup made after the operations [ops], when the scheduler gets to it. *)
Definition lookup_answer (ops : list gop) (id : string) : option (option nat) :=
  let tr := (grun (ops ++ GOLookup 0 id :: repeat GOProcess (S (length (g_mail (grun ops).1))))).2 in
  match last tr with Some (GAnswer _ res) => Some res | _ => None end.

(** An id is not used again before its actor has stopped, actors do not panic and do not
    stop before they are registered. *)
Definition careful (ops : list gop) : Prop :=
  forall pre o post, ops = pre ++ o :: post ->
    match o with
    | GOCreate id => forall r t, g_actors (grun pre).1 !! r = Some t -> t_id t = id -> t_alive t = false
    | GOStop r => forall t, g_actors (grun pre).1 !! r = Some t -> t_sent t = true
    | GOCrash _ => False
    | _ => True
    end.
(** All created actors have been registered (their creation has returned). *)
Definition all_registered (s : registry) : Prop := forall r t, g_actors s !! r = Some t -> t_sent t = true.

(** * Worker pools *)
Definition given {W} `{EqDecision W} (w : W) (l : list (option W)) : nat :=
  length (List.filter (fun x => bool_decide (x = Some w)) l).

(** * Descriptions *)
Definition below (o : options) (depth : nat) : bool :=
  match max_depth o with Some m => (m <? S depth)%nat | None => false end.

(** Depth and width limits hold everywhere in a description. *)
Fixpoint within (o : options) (depth : nat) (d : description) {struct d} : Prop :=
  let 'Desc _ rs := d in
  (if below o depth then rs = [] else True) /\
  match max_children o with Some n => (length rs <= n)%nat | None => True end /\
  (fix all (l : list dresult) : Prop :=
     match l with [] => True | DOk d' :: l' => within o (S depth) d' /\ all l' | _ :: l' => all l' end) rs.

(** A description follows the tree: one result per describable child, in order. *)
Inductive follows (o : options) : nat -> tree -> description -> Prop :=
| FollowsBottom depth id att re ch : below o depth = true -> follows o depth (Tree id att re ch) (Desc id [])
| FollowsChildren depth id att re ch rs :
    below o depth = false -> Forall2 (result_follows o (S depth)) (describable is_attached o ch) rs ->
    follows o depth (Tree id att re ch) (Desc id rs)
with result_follows (o : options) : nat -> tree -> dresult -> Prop :=
| RFOk depth t d : follows o depth t d -> result_follows o depth t (DOk d)
| RFErr depth id att re ch : (re = Refuses \/ exists d, re = Drops d) -> result_follows o depth (Tree id att re ch) (DErr id)
| RFTimeout depth t : result_follows o depth t (DTimeout (tree_id t)).

(** The complete description: everybody who can answer is described, the others are
    reported as failing. *)
Fixpoint complete (o : options) (depth : nat) (t : tree) : dresult :=
  match t with
  | Tree id _ re ch =>
      match re with
      | Refuses | Drops _ => DErr id
      | Silent => DTimeout id
      | Handles _ =>
          DOk (Desc id (if below o depth then []
                        else map snd (describable fst o (map (fun c => (is_attached c, complete o (S depth) c)) ch))))
      end
  end.

(** The longest total delay along a path, [None] if somebody never answers. *)
Fixpoint path_delay (t : tree) : option N :=
  match t with
  | Tree _ _ re ch =>
      match re with
      | Refuses => Some 0%N
      | Drops d => Some d
      | Silent => None
      | Handles d =>
          fold_right (fun x m => match x, m with Some a, Some b => Some (N.max (a + d) b) | _, _ => None end)%N (Some d)
                     (map path_delay ch)
      end
  end.
