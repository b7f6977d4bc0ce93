(** Nodes that ping one another and elect a leader, in time
    (coerce/src/remote/net/client/ping.rs, coerce/src/remote/heartbeat, coerce/src/remote/net/server/session). *)
From Verif Require Export Heart_Model.

Section lead.
Variable min_date max_date max_duration : Z.
Variable cf : hconfig.
Variable rhash : N -> string -> string -> option Z -> N.
Variable search : list N -> N -> nat.
(** [ping_timeout] (heartbeat/mod.rs:44), the same on every node. *)
Variable ping_timeout : Z.
(** How far the clock of a node is off; it stays off by as much. *)
Variable skew : N -> Z.

(** One ping, from the write to its result (ping.rs:67-107): on its way, answered by the other
    node (session/mod.rs:318-350), or over. Its request stays in the table until its pong comes
    in, so the channel of ping.rs:85-95 gives neither an error nor is it closed. *)
Inductive cstate := Flying | Answered | Done (at_ : Z).
Record call := Call { k_src : N; k_dst : N; k_start : Z; k_state : cstate }.
Definition set_state (k : call) (s : cstate) : call := Call (k_src k) (k_dst k) (k_start k) s.

(** A message to the heartbeat: the result of a ping ([NodePing]), or that the node said it is
    shutting down ([NodeTerminated], [None]); with the time it was sent. *)
Record note := Note { t_at : Z; t_about : N; t_what : option ping }.

(** [l_now]: the time. [l_started]: the nodes that were ever started, with the description they
    give of themselves; an id is used once. [l_live]: those running. [l_hearts]: the heartbeat
    actors with the registry of their node; one that panicked is gone. [l_mail]: their
    mailboxes. [l_ticked]: when they last ticked. *)
Record world := World {
  l_now : Z;
  l_started : gmap N rnode;
  l_live : gset N;
  l_hearts : gmap N (heart unit);
  l_mail : gmap N (list note);
  l_calls : list call;
  l_ticked : gmap N Z
}.
Definition start_world (t : Z) : world := World t ∅ ∅ ∅ ∅ [] ∅.

(** [Utc::now()] on a node. *)
Definition clock (w : world) (i : N) : Z := (l_now w + skew i)%Z.
Definition mail (w : world) (i : N) : list note := default [] (l_mail w !! i).

Definition set_heart (w : world) (i : N) (h : option (heart unit)) : world :=
  World (l_now w) (l_started w) (l_live w) (partial_alter (fun _ => h) i (l_hearts w)) (l_mail w) (l_calls w) (l_ticked w).
Definition set_mail (w : world) (i : N) (m : list note) : world :=
  World (l_now w) (l_started w) (l_live w) (l_hearts w) (<[i := m]> (l_mail w)) (l_calls w) (l_ticked w).
Definition set_call (w : world) (n : nat) (k : call) : world :=
  World (l_now w) (l_started w) (l_live w) (l_hearts w) (l_mail w) (<[n := k]> (l_calls w)) (l_ticked w).
Definition tell (w : world) (i : N) (t : note) : world := set_mail w i (mail w i ++ [t]).
Definition did_tick (w : world) (i : N) : world :=
  World (l_now w) (l_started w) (l_live w) (l_hearts w) (l_mail w) (l_calls w) (<[i := l_now w]> (l_ticked w)).

Inductive lop :=
| LPass (d : N)
| LStart (i : N) (r : rnode)
| LCrash (i : N)                                    (* it stops, in whatever way *)
| LLearn (i j : N) (ord : list N)                   (* discovery/mod.rs:132 *)
| LPing (i j : N)
| LAnswer (n : nat)
| LPong (n : nat)
| LTimeout (n : nat)
| LDisconnect (i j : N)                             (* ping.rs:37-57 *)
| LGone (i j : N)                                   (* session/mod.rs:333-336 *)
| LDeliver (i : N) (ord : list N) (mid : list (list N * N))
| LTick (i : N) (ord : list N) (mid : list (list N * N)).

(** Registrations that the registry handles while the heartbeat waits for it; of unknown nodes
    there are none. *)
Definition learns (w : world) (mid : list (list N * N)) : list dop :=
  omap (fun '(ord, j) => DAdd ord <$> l_started w !! j) mid.

Notation hstep := (hstep min_date max_date max_duration cf rhash search).

Definition lstep (w : world) (o : lop) : option world :=
  match o with
  | LPass d =>
      Some (World (l_now w + Z.of_N d) (l_started w) (l_live w) (l_hearts w) (l_mail w) (l_calls w) (l_ticked w))
  | LStart i r =>
      (* system/builder.rs:199-203, worker.rs:54-60: the node registers itself *)
      if decide (l_started w !! i = None /\ r_id r = i) then
        h ← hstep i (new_heart rhash i false) (HRegistry (DAdd [] r));
        Some (World (l_now w) (<[i := r]> (l_started w)) (l_live w ∪ {[i]}) (<[i := h]> (l_hearts w)) (l_mail w) (l_calls w) (l_ticked w))
      else None
  | LCrash i =>
      if decide (i ∈ l_live w) then
        Some (World (l_now w) (l_started w) (l_live w ∖ {[i]}) (l_hearts w) (l_mail w) (l_calls w) (l_ticked w))
      else None
  | LLearn i j ord =>
      if decide (i ∈ l_live w) then
        h ← l_hearts w !! i; r ← l_started w !! j;
        Some (set_heart w i (hstep i h (HRegistry (DAdd ord r))))
      else None
  | LPing i j =>
      if decide (i ∈ l_live w /\ is_Some (l_started w !! j)) then
        Some (World (l_now w) (l_started w) (l_live w) (l_hearts w) (l_mail w) (l_calls w ++ [Call i j (l_now w) Flying]) (l_ticked w))
      else None
  | LAnswer n =>
      k ← l_calls w !! n;
      match k_state k with
      | Flying => if decide (k_dst k ∈ l_live w) then Some (set_call w n (set_state k Answered)) else None
      | _ => None
      end
  | LPong n =>
      k ← l_calls w !! n;
      match k_state k with
      | Answered =>
          if decide (k_src k ∈ l_live w) then
            Some (tell (set_call w n (set_state k (Done (l_now w)))) (k_src k)
                       (Note (l_now w) (k_dst k) (Some (POk (Z.to_N (l_now w - k_start k)) (clock w (k_src k))))))
          else None
      | _ => None
      end
  | LTimeout n =>
      k ← l_calls w !! n;
      match k_state k with
      | Done _ => None
      | _ =>
          if decide (k_src k ∈ l_live w /\ (k_start k + ping_timeout <= l_now w)%Z) then
            Some (tell (set_call w n (set_state k (Done (l_now w)))) (k_src k) (Note (l_now w) (k_dst k) (Some PTimeout)))
          else None
      end
  | LDisconnect i j =>
      if decide (i ∈ l_live w) then Some (tell w i (Note (l_now w) j (Some PDisconnected))) else None
  | LGone i j =>
      if decide (i ∈ l_live w /\ j ∉ l_live w) then Some (tell w i (Note (l_now w) j None)) else None
  | LDeliver i ord mid =>
      if decide (i ∈ l_live w) then
        h ← l_hearts w !! i;
        match mail w i with
        | Note _ j (Some p) :: rest => Some (set_heart (set_mail w i rest) i (hstep i h (HPing j p)))
        | Note _ j None :: rest =>
            Some (did_tick (set_heart (set_mail w i rest) i
                    (hstep i h (HTerminated j ord (fun _ => clock w i) (learns w mid)))) i)
        | [] => None
        end
      else None
  | LTick i ord mid =>
      if decide (i ∈ l_live w) then
        h ← l_hearts w !! i;
        Some (did_tick (set_heart w i (hstep i h (HTick ord (fun _ => clock w i) (learns w mid)))) i)
      else None
  end.
Fixpoint lrun (w : world) (l : list lop) : option world :=
  match l with [] => Some w | o :: l' => w' ← lstep w o; lrun w' l' end.
End lead.
