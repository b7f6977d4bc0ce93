(** What is expected of the nodes of a cluster: that they agree on a leader that is running. *)
From Verif Require Import Nodes_Model Nodes_Spec Heart_Model Heart_Spec Lead_Model.

(** A stretch of an execution: [P] holds all the time, and [Q] of each step. *)
Section period.
Variable step : world -> lop -> option world.
Fixpoint period (P : world -> Prop) (Q : world -> lop -> Prop) (w : world) (l : list lop) (w' : world) : Prop :=
  P w /\ match l with
         | [] => w' = w
         | o :: l' => Q w o /\ exists w1, step w o = Some w1 /\ period P Q w1 l' w'
         end.
End period.

(** ** A calm period that began at [t0] *)
(** Pings of running nodes are over within [lat], and messages to the heartbeat are handled
    within [han]; every running node pings every other, and looks at the results, at least
    every [int_]. *)
Record timely (t0 lat han int_ : Z) (w : world) : Prop := {
  tm_calls : forall k, k ∈ l_calls w -> k_src k ∈ l_live w ->
    match k_state k with
    | Flying => k_dst k ∈ l_live w -> (l_now w <= k_start k + lat)%Z
    | Answered => (l_now w <= k_start k + lat)%Z
    | Done _ => True
    end;
  tm_mail : forall i t, i ∈ l_live w -> t ∈ mail w i -> (l_now w <= t_at t + han)%Z;
  tm_pings : forall i j, i ∈ l_live w -> j ∈ l_live w -> i <> j -> (t0 + int_ <= l_now w)%Z ->
    exists k, k ∈ l_calls w /\ k_src k = i /\ k_dst k = j /\ (l_now w - int_ <= k_start k)%Z;
  tm_ticks : forall i, i ∈ l_live w -> (t0 + int_ <= l_now w)%Z ->
    exists t, l_ticked w !! i = Some t /\ (l_now w - int_ <= t)%Z
}.
(** No node is started or stops, and no connection between running nodes is lost. *)
Definition calm (w : world) (o : lop) : Prop :=
  match o with
  | LStart _ _ | LCrash _ => False
  | LDisconnect _ j => j ∉ l_live w
  | _ => True
  end.

(** The delays are short enough, compared with the configuration ([HeartbeatConfig]). *)
Definition margins (cf : hconfig) (ping_timeout lat han int_ : Z) : Prop :=
  (0 <= lat)%Z /\ (0 <= han)%Z /\ (0 < int_)%Z /\ (int_ + lat + han < Z.of_N (cf_unhealthy cf))%Z /\
  (cf_unhealthy cf <= cf_terminated cf)%N /\ (lat < ping_timeout)%Z.
(** Adding the termination timeout to the clock of a node stays within the dates that can be
    represented. *)
Definition dates_fit (max_date max_duration : Z) (cf : hconfig) (skew : N -> Z) (w : world) : Prop :=
  (Z.of_N (cf_terminated cf) <= max_duration)%Z /\
  forall i, i ∈ l_live w -> (l_now w + skew i + Z.of_N (cf_terminated cf) <= max_date)%Z.

(** The running nodes know one another. *)
Definition acquainted (w : world) : Prop :=
  forall i j h, i ∈ l_live w -> j ∈ l_live w -> l_hearts w !! i = Some h -> is_Some (record (h_store h) j).

(** The running node that was started first, by its own account; equal times are settled by the id. *)
Definition oldest_live (min_date : Z) (w : world) (n : N) : Prop :=
  n ∈ l_live w /\
  forall r m r', l_started w !! n = Some r -> m ∈ l_live w -> l_started w !! m = Some r' ->
    let start x := default min_date (r_started x) in
    (start r < start r')%Z \/ (start r = start r' /\ n <= m)%N.

(** The leader a node reports, the health it reports of another, and its announcements. *)
Definition leader_of (w : world) (i : N) : option N := l_hearts w !! i ≫= current_leader.
Definition seen_as (w : world) (i j : N) : option nstatus :=
  h ← l_hearts w !! i; s_status <$> record (h_store h) j.
Definition announced (w : world) (i : N) : list hevent := default [] (h_sent <$> l_hearts w !! i).
